(** Translated messages: schematics/translator.py and the places of exceptions.py that turn messages into text.
    Simplified: an error has one message; a translator is a function that does not fail. *)
From Verif.Model Require Import Py Core.

(** Text, or a LazyText (translator.py 7-9). *)
Inductive text := Plain (s : pstr) | Lazy (message : pstr).
(** The registered translator: None or a function (translator.py 25, 30-31). *)
Definition translator := option (pstr -> pstr).

(** [str(text)]; LazyText.__str__ (translator.py 11-13). *)
Definition text_str (tr : translator) (t : text) : pstr :=
  match t with
  | Plain s => s
  | Lazy m => match tr with Some f => f m | None => m end
  end.
(** Translator.__call__ (translator.py 27-28). *)
Definition make_text (tr : translator) (m : pstr) (is_lazy : bool) : text :=
  if is_lazy then Lazy m else Plain (text_str tr (Lazy m)).
(** [text % args] and [text.format(args)] (translator.py 15-19); [fmt] is the formatting of str. *)
Definition text_format (fmt : pstr -> list pyval -> pstr) (tr : translator) (t : text) (args : list pyval) : pstr :=
  fmt (text_str tr t) args.

(** ErrorMessage without its type (exceptions.py 104-107). *)
Record tmessage := TM { tm_summary : text; tm_info : option pstr }.
(** What an exception is raised with: a message, a message filled in, a pair of message and info
    (exceptions.py 161-174; the info as its text). *)
Inductive raised := RMessage (t : text) | RFormatted (t : text) (args : list pyval) | RPair (t : text) (info : pstr).
(** FieldError.__init__ (exceptions.py 170-174). *)
Definition make_message (fmt : pstr -> list pyval -> pstr) (tr : translator) (r : raised) : tmessage :=
  match r with
  | RMessage t => TM (Plain (text_str tr t)) None
  | RFormatted t args => TM (Plain (text_format fmt tr t args)) None
  | RPair t i => TM t (Some i)
  end.
(** ErrorMessage.__str__ (exceptions.py 116-120); an empty info counts as none (117). *)
Definition tmessage_str (tr : translator) (m : tmessage) : pstr :=
  match tm_info m with
  | Some (c :: i) => text_str tr (tm_summary m) ++ u ": " ++ c :: i
  | _ => text_str tr (tm_summary m)
  end.

(** An exception: its message and the result of to_primitive, once asked for (exceptions.py 48-55). *)
Record terror := TE { te_message : tmessage; te_primitive : option pstr }.
(** A program: the translator and the exceptions raised so far, oldest first. (runtime) *)
Record tstate := TS { ts_translator : translator; ts_errors : list terror }.
(** What a program does: register a translator (translator.py 30-31), raise, ask the i-th exception for its primitive form. *)
Inductive taction := Register (f : translator) | RaiseError (r : raised) | AskPrimitive (i : nat).

(** BaseError.to_primitive (exceptions.py 48-55). *)
Definition ask (tr : translator) (e : terror) : terror * pstr :=
  match te_primitive e with
  | Some s => (e, s)
  | None => let s := tmessage_str tr (te_message e) in (TE (te_message e) (Some s), s)
  end.
(** [f] at the i-th place of a list. (runtime) *)
Fixpoint update_nth {X} (i : nat) (f : X -> X) (l : list X) : list X :=
  match l, i with
  | [], _ => []
  | x :: r, 0 => f x :: r
  | x :: r, S i => x :: update_nth i f r
  end.
(** One action. (runtime) *)
Definition tstep (fmt : pstr -> list pyval -> pstr) (s : tstate) (a : taction) : tstate :=
  match a with
  | Register f => TS f (ts_errors s)
  | RaiseError r => TS (ts_translator s) (ts_errors s ++ [TE (make_message fmt (ts_translator s) r) None])
  | AskPrimitive i => TS (ts_translator s) (update_nth i (fun e => fst (ask (ts_translator s) e)) (ts_errors s))
  end.
(** A program. (runtime) *)
Fixpoint trun (fmt : pstr -> list pyval -> pstr) (l : list taction) (s : tstate) : tstate :=
  match l with [] => s | a :: r => trun fmt r (tstep fmt s a) end.
(** What the i-th exception shows: the text of its message, and its primitive form. (exceptions.py 48-55, 116-120) *)
Definition shows (s : tstate) (i : nat) : option (pstr * pstr) :=
  match nth_error (ts_errors s) i with
  | Some e => Some (tmessage_str (ts_translator s) (te_message e), snd (ask (ts_translator s) e))
  | None => None
  end.
