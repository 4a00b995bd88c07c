(** What users say about type classes. *)
From Verif.Model Require Import Py Core Meta TypeClass.

Section Spec.
  Context {A : Type}.

  (** The programs: class statements one after the other; bases are defined before, a class body and a MESSAGES
      dictionary have each name once. *)
  Inductive types : list (tcls A) -> Prop :=
  | types_none : types []
  | types_class : forall P meta bases messages body P',
      types P -> (forall b, In b bases -> (b < length P)%nat) -> NoDup (map fst body) ->
      (forall d, messages = Some d -> NoDup (map fst d)) ->
      define_type P meta bases messages body = Ok P' -> types P'.

  (** A class is a type class if TypeMeta made it. *)
  Definition type_class (P : list (tcls A)) (c : tid) : Prop :=
    exists k, nth_error P c = Some k /\ tc_meta k = true.
  (** Its own namespace has this attribute. *)
  Definition has_own (P : list (tcls A)) (c : tid) (x : key) : Prop :=
    exists k, nth_error P c = Some k /\ In x (map fst (tc_attrs k)).
  (** The name of a validator method. *)
  Definition validator_name (x : key) : Prop := exists s, x = KStr (u "validate_" ++ s).

  (** The list without repetitions: first occurrences stay. *)
  Fixpoint firsts (l : list key) : list key :=
    match l with [] => [] | x :: r => x :: filter (fun y => negb (key_eqb x y)) (firsts r) end.

  (** The first of some classes that yields something. *)
  Fixpoint leftmost {B} (f : tid -> option B) (l : list tid) : option B :=
    match l with [] => None | c :: r => match f c with Some b => Some b | None => leftmost f r end end.

  (** The message of a class under a key. *)
  Definition message (P : list (tcls A)) (c : tid) (k : key) : option emsg := dget k (field_messages P c []).
End Spec.
