(** Vocabulary for C112. *)
From Verif.Model Require Import Py Core SetterObj AppendCalc.
From Verif.Spec Require Import SetterObjSpec.

(** The field is added to a class that exists, the object exists. *)
Definition can_append (s : astate) (c a : nat) : Prop := c < length (ss_classes (as_base s)) /\ a < length (ss_objs (as_base s)).
(** Nobody has added a field of this name to a class numbered so. *)
Definition nothing_added (s : astate) (c : nat) (n : key) : Prop := ~ In (c, n) (as_plain s).
(** Fields have been added only to classes that exist. *)
Definition added_to_classes (s : astate) : Prop := forall c n, In (c, n) (as_plain s) -> c < length (ss_classes (as_base s)).
(** No class has the object. *)
Definition fresh (s : astate) (a : nat) : Prop := forall c, ~ has_object (as_base s) c a.
(** A run in which all classes and objects used exist. *)
Fixpoint sensible (s : astate) (es : list aevent) : Prop :=
  match es with
  | [] => True
  | e :: r => match e with AStep e => possible (as_base s) e | AAppend c _ a => can_append s c a end /\ sensible (astep s e) r
  end.
