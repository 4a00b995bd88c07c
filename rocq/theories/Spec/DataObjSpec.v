(** What data objects do, told by what is stored where. *)
From Verif.Model Require Import Py Core Cyclic DataObj.

(** [a] is the address of a data object with these attributes. *)
Definition is_data (h : dheap) (a : nat) (d : list (key * hval)) : Prop := nth_error h a = Some (DData d).
(** All objects but the one at [a] are as before, and there are no new ones. *)
Definition only_at (h h' : dheap) (a : nat) : Prop :=
  length h' = length h /\ forall b, b <> a -> nth_error h' b = nth_error h b.
(** All objects are as before; there may be new ones. *)
Definition kept (h h' : dheap) : Prop := forall a, a < length h -> nth_error h' a = nth_error h a.
(** A name that does not begin with an underscore. *)
Definition public (x : pstr) : Prop := hd_error x <> Some 95%N.
(** Attributes have one value each. *)
Definition wf (h : dheap) : Prop := forall a d, nth_error h a = Some (DData d) \/ nth_error h a = Some (DDict d) -> NoDup (dkeys d).

(** [holds h a c]: the data object [a] has the data object [c] for an attribute. *)
Definition holds (h : dheap) (a c : nat) : Prop :=
  exists d x e, is_data h a d /\ In (x, HRef c) d /\ is_data h c e.
(** The nesting of data objects ends: none contains itself. *)
Inductive finite (h : dheap) (a : nat) : Prop :=
| finite_intro : (forall c, holds h a c -> finite h c) -> finite h a.
(** [a] itself and the data objects nested in it. *)
Inductive within (h : dheap) (a : nat) : nat -> Prop :=
| within_here : within h a a
| within_deeper c e : holds h a c -> within h c e -> within h a e.

(** [as_dict m h h' a b]: the dictionary at [b] in [h'] has the entries of the data object [a] of [h] in their order; data objects
    are replaced by such dictionaries, everything else is the same object; all of these dictionaries are at [m] or after. *)
Inductive as_dict (m : nat) (h h' : dheap) : nat -> nat -> Prop :=
| as_dict_intro a b d d' : is_data h a d -> m <= b -> nth_error h' b = Some (DDict d') ->
    Forall2 (fun p q => fst q = fst p /\
      ((exists c e b', snd p = HRef c /\ is_data h c e /\ snd q = HRef b' /\ as_dict m h h' c b') \/
       (~ (exists c e, snd p = HRef c /\ is_data h c e) /\ snd q = snd p))) d d' ->
    as_dict m h h' a b.

(** Equal objects: attribute by attribute, entry by entry, element by element. *)
Inductive same_data (h : dheap) (aeq : nat -> nat -> bool) : hval -> hval -> Prop :=
| sd_atom i j : aeq i j = true -> same_data h aeq (HAtom i) (HAtom j)
| sd_data a b d d' : nth_error h a = Some (DData d) -> nth_error h b = Some (DData d') -> length d = length d' ->
    (forall x v, In (x, v) d -> exists w, dget x d' = Some w /\ (v = w \/ same_data h aeq v w)) -> same_data h aeq (HRef a) (HRef b)
| sd_dict a b d d' : nth_error h a = Some (DDict d) -> nth_error h b = Some (DDict d') -> length d = length d' ->
    (forall x v, In (x, v) d -> exists w, dget x d' = Some w /\ (v = w \/ same_data h aeq v w)) -> same_data h aeq (HRef a) (HRef b)
| sd_list a b l l' : nth_error h a = Some (DList l) -> nth_error h b = Some (DList l') ->
    Forall2 (fun v w => v = w \/ same_data h aeq v w) l l' -> same_data h aeq (HRef a) (HRef b).

(** [b] is a part of the object at [a]. *)
Definition part_of (h : dheap) (a b : nat) : Prop :=
  match nth_error h a with
  | Some (DData d) | Some (DDict d) => exists x, In (x, HRef b) d
  | Some (DList l) => In (HRef b) l
  | None => False
  end.
(** No object contains itself: parts have a smaller number than the whole. *)
Definition ranked_parts (h : dheap) (rank : nat -> nat) : Prop := forall a b, part_of h a b -> rank b < rank a.
