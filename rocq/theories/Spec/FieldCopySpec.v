(** What a history says about field objects, for C109.  Histories are read from their last event backwards. *)
From Verif.Model Require Import Py Core FieldCopy.

(** How many objects there are. *)
Fixpoint made_by (h : list fevent) : nat :=
  match h with
  | [] => 0
  | FNew _ _ :: r | FCopy _ :: r => S (made_by r)
  | _ :: r => made_by r
  end.
(** Only objects that exist are used. *)
Fixpoint proper (h : list fevent) : Prop :=
  match h with
  | [] => True
  | FNew _ _ :: r => proper r
  | (FCopy a | FSet a _ _ | FAppend a _) :: r => a < made_by r /\ proper r
  end.
(** The attributes of an object: those it was made with, or those of the object it was copied from at that time, with what was
    assigned to it since. *)
Fixpoint attrs_of (h : list fevent) (a : nat) : fattrs :=
  match h with
  | [] => []
  | FNew kw _ :: r => if Nat.eqb a (made_by r) then kw else attrs_of r a
  | FCopy b :: r => if Nat.eqb a (made_by r) then attrs_of r b else attrs_of r a
  | FSet b x v :: r => if Nat.eqb a b then dset x v (attrs_of r a) else attrs_of r a
  | FAppend _ _ :: r => attrs_of r a
  end.
(** The object it was copied from, directly or not, that is no copy itself. *)
Fixpoint origin (h : list fevent) (a : nat) : nat :=
  match h with
  | [] => a
  | FCopy b :: r => if Nat.eqb a (made_by r) then origin r b else origin r a
  | FNew _ _ :: r => if Nat.eqb a (made_by r) then a else origin r a
  | _ :: r => origin r a
  end.
(** The functions given to that object when it was made, and those appended since to it or to any copy. *)
Fixpoint given_to (h : list fevent) (o : nat) : list vldr :=
  match h with
  | [] => []
  | FNew _ given :: r => if Nat.eqb o (made_by r) then given else given_to r o
  | FAppend b f :: r => if Nat.eqb (origin r b) o then given_to r o ++ [f] else given_to r o
  | _ :: r => given_to r o
  end.
(** The objects and lists at the end of a history. *)
Definition after (own : list key) (h : list fevent) : fheap := field_run own (rev h).
