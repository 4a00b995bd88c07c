(** Sharing of containers. *)
From Verif.Model Require Import Py Core Alias.

(** The containers in an object. *)
Fixpoint addrs (o : obj) : list nat :=
  match o with
  | Imm _ => []
  | Obj a _ l => a :: (fix go l := match l with [] => [] | (_, o) :: r => addrs o ++ go r end) l
  end.
(** Changing the contents of the container at [a], as seen through [o]. *)
Fixpoint change (a : nat) (new : list (key * obj)) (o : obj) : obj :=
  match o with
  | Imm n => Imm n
  | Obj b kd l => if Nat.eqb a b then Obj b kd new
                  else Obj b kd ((fix go l := match l with [] => [] | (x, o) :: r => (x, change a new o) :: go r end) l)
  end.
(** An object that exists when [m] is the next free address. *)
Definition exists_at (m : nat) (o : obj) : Prop := forall a, In a (addrs o) -> a < m.
(** Types that keep no container: [poly] tells whether polymorphic fields are among them. *)
Inductive copying (poly : bool) : aty -> Prop :=
| cp_scalar i : copying poly (Scalar i)
| cp_list t : copying poly t -> copying poly (AList t)
| cp_dict t : copying poly t -> copying poly (ADict t)
| cp_model c : copying poly (AModel c)
| cp_poly c : poly = true -> copying poly (APoly c).
Definition copying_fields (poly : bool) (fields : nat -> list (key * (aty * option obj))) : Prop :=
  forall c n t d, In (n, (t, d)) (fields c) -> copying poly t.
(** An object [r] made while the free addresses went from [m] to [m'] is separate from all that existed: changes of containers
    that existed are not seen in it, changes of its containers are not seen elsewhere, and it has no container twice. *)
Definition separate (m m' : nat) (r : obj) : Prop :=
  m <= m' /\ (forall a new, a < m -> change a new r = r) /\
  (forall a new old, In a (addrs r) -> exists_at m old -> change a new old = old) /\ NoDup (addrs r) /\ exists_at m' r.
(** Equal but for the identity of containers. *)
Fixpoint content (o : obj) : obj :=
  match o with
  | Imm n => Imm n
  | Obj _ kd l => Obj 0 kd ((fix go l := match l with [] => [] | (x, o) :: r => (x, content o) :: go r end) l)
  end.
Definition alike (o o' : obj) : Prop := content o = content o'.
(** Oracles that look at contents only. *)
Definition by_content {X Y} (f : X -> obj -> Y) : Prop := forall x o o', alike o o' -> f x o = f x o'.
