(** Vocabulary for C115: programs are lists of actions, the latest first. *)
From Verif.Model Require Import Py Core Types FieldCopy CalcAttr.
Open Scope string_scope.
Open Scope list_scope.

(** How many type objects and computed fields there are; they are numbered in the order in which they come to be. *)
Fixpoint types_made (h : list calc_op) : nat :=
  match h with [] => 0 | QType _ :: h | QDerive _ :: h => S (types_made h) | _ :: h => types_made h end.
Fixpoint calcs_made (h : list calc_op) : nat :=
  match h with [] => 0 | QCalc _ :: h | QDerive _ :: h => S (calcs_made h) | _ :: h => calcs_made h end.
(** The action concerns objects that exist. *)
Definition possible (o : calc_op) (h : list calc_op) : Prop :=
  match o with
  | QType _ => True
  | QCalc t | QTypeSet t _ _ => t < types_made h
  | QSet f _ _ | QDerive f => f < calcs_made h
  end.
Inductive program : list calc_op -> Prop :=
| pg_start : program []
| pg_next o h : program h -> possible o h -> program (o :: h).
(** The type object of a computed field: the one it was made with; one of its own in a derived class. *)
Fixpoint type_for (h : list calc_op) (f : nat) : nat :=
  match h with
  | [] => 0
  | QCalc t :: h => if Nat.eqb f (calcs_made h) then t else type_for h f
  | QDerive _ :: h => if Nat.eqb f (calcs_made h) then types_made h else type_for h f
  | _ :: h => type_for h f
  end.
(** The value that was assigned to the attribute of the computed field last. *)
Fixpoint assigned (h : list calc_op) (f : nat) (x : key) : option pyval :=
  match h with
  | [] => None
  | QSet g y v :: h => if Nat.eqb f g && key_eqb x y then Some v else assigned h f x
  | _ :: h => assigned h f x
  end.
(** The value of the attribute of the type object: assigned last; given when it was made; of the original of a copy at that time. *)
Fixpoint type_value (h : list calc_op) (t : nat) (x : key) : option pyval :=
  match h with
  | [] => None
  | QTypeSet w y v :: h => if Nat.eqb t w && key_eqb x y then Some v else type_value h t x
  | QType kw :: h => if Nat.eqb t (types_made h) then dget x kw else type_value h t x
  | QDerive f :: h => if Nat.eqb t (types_made h) then type_value h (type_for h f) x else type_value h t x
  | _ :: h => type_value h t x
  end.
(** Attributes of the type object, then of its class. *)
Definition of_type (cls : key -> option pyval) (h : list calc_op) (t : nat) (x : key) : got :=
  match type_value h t x, cls x with
  | Some v, _ | None, Some v => Got v
  | None, None => NoAttr
  end.
