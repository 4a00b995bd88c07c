(** Contexts as finite maps. *)
From Verif.Model Require Import Py.

Section Spec.
  Context {A : Type} (is_None : A -> bool) (differs : A -> A -> bool).

  (** Branching a context [d] with the keywords [kw] changes attribute [x] to [v]: a value is given, it is not None,
      and it differs from the present one. *)
  Definition changes (d kw : list (key * A)) (x : key) (v : A) : Prop :=
    dget x kw = Some v /\ is_None v = false /\ exists w, dget x d = Some w /\ differs v w = true.

  (** Every name given a value other than None is an attribute. *)
  Definition known (d kw : list (key * A)) : Prop :=
    forall x v, In (x, v) kw -> is_None v = false -> dget x d <> None.

  (** A class may restrict the attribute names. *)
  Definition allowed (fields : list key) (d : list (key * A)) : Prop :=
    fields = [] \/ forall x, In x (dkeys d) -> In x fields.
End Spec.
