(** The part of CPython's [re] that the patterns of schematics/types/net.py use (no line in /repo): a backtracking
    matcher that lists the ways to match in the order in which they are tried. *)
From Verif.Model Require Import Py.
Local Open Scope N_scope.

(** Patterns.  [RRep a lo hi] is the greedy [a{lo,hi}], without [hi] [a{lo,}]; the body of an unbounded repetition must
    not match the empty text.  Groups are modelled only if they are named. *)
Inductive re :=
| REps                                    (* nothing *)
| RChr (f : N -> bool)                    (* a character or a class *)
| RSeq (a b : re)
| RAlt (a b : re)                         (* a|b *)
| RRep (a : re) (lo : nat) (hi : option nat)
| RBol                                    (* ^ *)
| REol                                    (* $, also before a final newline *)
| RNotNext (c : N)                        (* (?!c) *)
| RNotPrev (c : N)                        (* (?<!c) *)
| RGroup (n : nat) (a : re).              (* (?P<n>a) *)

(** Where the matcher is: the character before, the rest of the text, the groups matched so far (latest first). *)
Record rstate := RState { rs_prev : option N; rs_rest : pstr; rs_caps : list (nat * pstr) }.

(** Exactly [n] times. *)
Fixpoint exactly {A} (f : A -> list A) (n : nat) (s : A) : list A :=
  match n with O => [s] | S n' => flat_map (exactly f n') (f s) end.
(** At most [n] times, more is tried first. *)
Fixpoint at_most {A} (f : A -> list A) (n : nat) (s : A) : list A :=
  match n with O => [s] | S n' => flat_map (at_most f n') (f s) ++ [s] end.

(** [$] without MULTILINE. *)
Definition at_eol (s : pstr) : bool := match s with [] => true | [c] => c =? 10 | _ => false end.

(** All ways to match, in order. *)
Fixpoint ends (r : re) (s : rstate) : list rstate :=
  match r with
  | REps => [s]
  | RChr f => match rs_rest s with
              | c :: l => if f c then [RState (Some c) l (rs_caps s)] else []
              | [] => []
              end
  | RSeq a b => flat_map (ends b) (ends a s)
  | RAlt a b => ends a s ++ ends b s
  | RRep a lo hi => flat_map (fun s' => at_most (ends a) (match hi with Some h => h - lo | None => length (rs_rest s') end) s')
                             (exactly (ends a) lo s)
  | RBol => match rs_prev s with None => [s] | Some _ => [] end
  | REol => if at_eol (rs_rest s) then [s] else []
  | RNotNext c => match rs_rest s with x :: _ => if x =? c then [] else [s] | [] => [s] end
  | RNotPrev c => match rs_prev s with Some x => if x =? c then [] else [s] | None => [s] end
  | RGroup n a => map (fun s' => RState (rs_prev s') (rs_rest s')
                                   ((n, firstn (length (rs_rest s) - length (rs_rest s')) (rs_rest s)) :: rs_caps s'))
                      (ends a s)
  end.

(** [pattern.match(text)]: the first way to match a prefix of the text; the groups. *)
Definition re_match (r : re) (s : pstr) : option (list (nat * pstr)) :=
  match ends r (RState None s []) with st :: _ => Some (rs_caps st) | [] => None end.
(** [bool(pattern.match(text))]. *)
Definition re_test (r : re) (s : pstr) : bool := match re_match r s with Some _ => true | None => false end.

(** ** Notation for patterns *)

(** One character. *)
Definition rc (c : N) : re := RChr (N.eqb c).
(** A sequence. *)
Definition rseq (l : list re) : re := fold_right RSeq REps l.
(** Alternatives, of which there is at least one. *)
Fixpoint ralt (a : re) (l : list re) : re := match l with [] => a | b :: r => RAlt a (ralt b r) end.
(** [a?] *)
Definition ropt (a : re) : re := RRep a 0 (Some 1%nat).
(** A range of characters. *)
Definition in_range (a b c : N) : bool := (a <=? c) && (c <=? b).
