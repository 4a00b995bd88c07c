(** Specification of enumerations and mock sizes. *)
From Verif.Model Require Import Py Core Enum.

(** [m] is a member of the class (not an alias). *)
Definition is_member (c : enum_class) (m : pstr * key) : Prop := In (fst m, m) (ec_members c).
(** What Python guarantees of a class: names are unique, every name denotes a member, and members with equal values
    are one and the same. *)
Definition good_class (c : enum_class) : Prop :=
  NoDup (map fst (ec_members c)) /\
  (forall x m, In (x, m) (ec_members c) -> is_member c m) /\
  (forall m m', is_member c m -> is_member c m' -> snd m = snd m' -> m = m').

(** A choice that respects its limits. *)
Definition fair (draw : Z -> Z -> Z) : Prop := forall a b, (a <= b)%Z -> (a <= draw a b <= b)%Z.
Definition within (lo hi : option Z) (n : Z) : Prop :=
  (forall l, lo = Some l -> (l <= n)%Z) /\ (forall h, hi = Some h -> (n <= h)%Z).
