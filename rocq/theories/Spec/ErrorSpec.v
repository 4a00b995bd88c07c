(** What users expect of error objects: which messages an error carries and where, what may be hashed, and
    which objects compare equal.  Independent of the functions of Model/Errors.v, except for the constructors that
    the statements are about ([field_error], [compound_error]). *)
From Verif.Model Require Import Py Errors.

(** *** Messages *)

(** The text a message is shown as. *)
Inductive shows (R : runtime) : message -> pstr -> Prop :=
| shows_summary s t v : truthy v = false -> shows R (Msg s t v) s
| shows_quoted s t i : i <> [] -> shows R (Msg s t (VStr i)) (s ++ u ": " ++ [34%N] ++ i ++ [34%N])
| shows_value s t v : truthy v = true -> (forall i, v <> VStr i) -> shows R (Msg s t v) (s ++ u ": " ++ r_str R v).

(** The class recorded in the messages of an error of class [c]. *)
Definition recorded (c t : ecls) : Prop := t = c /\ c <> CStop \/ c = CStop /\ t = CValid.

(** The (summary, info) pairs contributed by one argument of a field error of class [c]. *)
Inductive says (c : ecls) : eobj -> list (pstr * pyval) -> Prop :=
| says_text s : says c (OStr s) [(s, VNone)]
| says_lazy s : says c (OLazy s) [(s, VNone)]
| says_tuple1 t s : t = OStr s \/ t = OLazy s -> says c (OTuple [t]) [(s, VNone)]
| says_tuple2 t s i v : t = OStr s \/ t = OLazy s ->
    (i = OVal v \/ exists w, i = OStr w /\ v = VStr w) -> says c (OTuple [t; i]) [(s, v)]
| says_message s t v : says c (OMsg (Msg s t v)) [(s, v)]
| says_error c' ms : c' = c \/ c = CValid /\ c' = CStop ->
    says c (OErr c' (OFrozenList (map OMsg ms))) (map (fun m => (ms_summary m, ms_info m)) ms).

(** Those of all items, in order. *)
Inductive says_all (c : ecls) : list eobj -> list (pstr * pyval) -> Prop :=
| says_none : says_all c [] []
| says_more o l ps qs : says c o ps -> says_all c l qs -> says_all c (o :: l) (ps ++ qs).

(** Those of a call: the keyword [info] belongs to a single text; a single list stands for its elements. *)
Inductive call_says (c : ecls) : list eobj -> option pyval -> list (pstr * pyval) -> Prop :=
| call_info t s v : t = OStr s \/ t = OLazy s -> call_says c [t] (Some v) [(s, v)]
| call_list l ps : says_all c l ps -> call_says c [OList l] None ps
| call_args args ps : args <> [] -> (forall l, args <> [OList l]) -> says_all c args ps -> call_says c args None ps.

(** The errors among the arguments are as the constructors leave them: a field error has a list of messages, a
    compound error has a dictionary. *)
Definition built (o : eobj) : Prop :=
  forall c e, o = OErr c e -> if is_field_cls c then exists ms, e = OFrozenList (map OMsg ms)
                              else exists d, e = OFrozenDict d.
Definition built_arg (o : eobj) : Prop := built o /\ forall l, o = OList l -> Forall built l.


(** *** Reports *)

(** What went wrong, as a tree: messages of one place, a plain text, or places below. *)
Inductive report :=
| RMsgs (l : list pstr)
| RText (s : pstr)
| RNode (kids : list (key * report)).

(** The part of a report at a path, and the part of a primitive structure at a path. *)
Fixpoint report_at (r : report) (p : list key) : option report :=
  match p with
  | [] => Some r
  | x :: q => match r with
              | RNode kids => match dget x kids with Some s => report_at s q | None => None end
              | _ => None
              end
  end.
Fixpoint value_at (v : pyval) (p : list key) : option pyval :=
  match p with
  | [] => Some v
  | x :: q => match v with
              | VDict d => match dget x d with Some w => value_at w q | None => None end
              | _ => None
              end
  end.

(** Errors as the library and its users build them: bottom up, through the constructors. *)
Inductive raised (R : runtime) : eobj -> report -> Prop :=
| raised_text s : raised R (OStr s) (RText s)
| raised_list ms texts : Forall2 (shows R) ms texts -> raised R (OFrozenList (map OMsg ms)) (RMsgs texts)
| raised_field c args kw o ps texts : is_field_cls c = true -> call_says c args kw ps ->
    Forall2 (fun p s => shows R (Msg (fst p) None (snd p)) s) ps texts ->
    field_error c args kw = Ok o -> raised R o (RMsgs texts)
| raised_compound c d kids o : is_field_cls c = false -> raised_all R d kids ->
    compound_error c (ODict d) = Ok o -> raised R o (RNode kids)
with raised_all (R : runtime) : list (key * eobj) -> list (key * report) -> Prop :=
| raised_nil : raised_all R [] []
| raised_cons x o r d kids : raised R o r -> raised_all R d kids -> raised_all R ((x, o) :: d) ((x, r) :: kids).

(** Nothing in the object can be changed. *)
Inductive frozen : eobj -> Prop :=
| frozen_text s : frozen (OStr s)
| frozen_message m : frozen (OMsg m)
| frozen_list l : Forall frozen l -> frozen (OFrozenList l)
| frozen_dict d : Forall (fun p => frozen (snd p)) d -> frozen (OFrozenDict d)
| frozen_error c e : frozen e -> frozen (OErr c e).

(** *** Hashing *)

(** Equal plain values have equal hashes (or neither has one). *)
Definition values_hash (R : runtime) : Prop := forall v w, r_eq R v w = true -> h_val R v = h_val R w.

(** The two forms of a list of messages and of a dictionary of errors. *)
Inductive lists : eobj -> list message -> Prop :=
| lists_frozen ms : lists (OFrozenList (map OMsg ms)) ms
| lists_error c ms : is_field_cls c = true -> lists (OErr c (OFrozenList (map OMsg ms))) ms.
Inductive maps : eobj -> list (key * eobj) -> Prop :=
| maps_frozen d : maps (OFrozenDict d) d
| maps_error c d : is_field_cls c = false -> maps (OErr c (OFrozenDict d)) d.

(** Errors of the shapes the library builds: lists of messages longer than one character, dictionaries of such
    errors, and plain texts under field names. *)
Inductive tidy : eobj -> Prop :=
| tidy_list o ms : lists o ms -> Forall (fun m => 1 < length (ms_summary m)) ms -> tidy o
| tidy_dict o d : maps o d -> NoDup (dkeys d) -> Forall (fun p => entry (fst p) (snd p)) d -> tidy o
with entry : key -> eobj -> Prop :=
| entry_tidy x o : tidy o -> entry x o
| entry_text s t : t <> [] -> entry (KStr s) (OStr t).

(** *** The objects of the abstract errors of Py.v *)

(** Messages of an error of class [c]; a StopValidationError types its messages as ValidationError. *)
Definition typed_messages (c : ecls) (ms : list emsg) : list eobj :=
  map (fun s => OMsg (Msg s (Some (match c with CStop => CValid | _ => c end)) VNone)) ms.
(** An error tree. *)
Fixpoint tree_object (n : errnode) : eobj :=
  match n with
  | NConv ms => OErr CConv (OFrozenList (typed_messages CConv ms))
  | NValid ms => OErr CValid (OFrozenList (typed_messages CValid ms))
  | NMsgs ms => OFrozenList (typed_messages CValid ms)
  | NText s => OStr s
  | NDict d => OFrozenDict (map (fun p => (fst p, tree_object (snd p))) d)
  end.
(** An exception; those that are not errors of the library have none. *)
Definition error_object (e : exn) : option eobj :=
  match e with
  | XConv ms => Some (OErr CConv (OFrozenList (typed_messages CConv ms)))
  | XValid stop ms => let c := if stop then CStop else CValid in Some (OErr c (OFrozenList (typed_messages c ms)))
  | XCompound d => Some (OErr CCompound (OFrozenDict (map (fun p => (fst p, tree_object (snd p))) d)))
  | XData d _ => Some (OErr CData (OFrozenDict (map (fun p => (fst p, tree_object (snd p))) d)))
  | XPy _ | XFuel => None
  end.
