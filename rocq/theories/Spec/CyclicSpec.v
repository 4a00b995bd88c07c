(** Equality of object graphs. *)
From Verif.Model Require Import Py Core Cyclic.

(** [alike S x y]: [x] and [y] look the same if parts related by [S] do. *)
Section Alike.
  Context (h : heap) (aeq : nat -> nat -> res bool).
  Context (S : hval -> hval -> Prop).
  Definition parts (x y : hval) : Prop := x = y \/ S x y.
  Inductive alike : hval -> hval -> Prop :=
  | al_atom i j : aeq i j = Ok true -> alike (HAtom i) (HAtom j)
  | al_seq a b t l l' : at_addr h a = HSeq t l -> at_addr h b = HSeq t l' -> Forall2 parts l l' -> alike (HRef a) (HRef b)
  | al_dict a b d d' : at_addr h a = HDict d -> at_addr h b = HDict d' -> length d = length d' ->
      (forall x v, In (x, v) d -> exists w, dget x d' = Some w /\ parts v w) -> alike (HRef a) (HRef b)
  | al_self a c d : at_addr h a = HInst c d -> alike (HRef a) (HRef a)
  | al_inst a b c d d' : at_addr h a = HInst c d -> at_addr h b = HInst c d' ->
      (forall x v, In (x, v) d -> S v (match dget x d' with Some w => w | None => HAtom 0 end)) -> alike (HRef a) (HRef b).
End Alike.
(** Nothing tells them apart: some relation between objects is respected by all their parts. *)
Definition equal_graphs (h : heap) (aeq : nat -> nat -> res bool) (x y : hval) : Prop :=
  exists S : hval -> hval -> Prop, S x y /\ forall v w, S v w -> alike h aeq S v w.

(** Lists and dictionaries do not contain themselves other than through instances. *)
Definition ranked (h : heap) (rank : nat -> nat) : Prop :=
  forall a b, match at_addr h a with
              | HSeq _ l => In (HRef b) l
              | HDict d => exists x, In (x, HRef b) d
              | HInst _ _ => False
              end ->
    match at_addr h b with HInst _ _ => True | _ => rank b < rank a end.
