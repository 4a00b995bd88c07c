(** Vocabulary for C113. *)
From Verif.Model Require Import Py Core Api InstanceCopy.

(** A value is an instance or contains one in lists, tuples and dictionaries. *)
Inductive holds_instance : pyval -> Prop :=
| HoldsIt c m : holds_instance (VModel c m)
| HoldsList l x : In x l -> holds_instance x -> holds_instance (VList l)
| HoldsTuple l x : In x l -> holds_instance x -> holds_instance (VTuple l)
| HoldsDict d n x : In (n, x) d -> holds_instance x -> holds_instance (VDict d).

(** How many instances a history (the latest event first) has made. *)
Fixpoint instances (h : list cevent) : nat :=
  match h with [] => 0 | COp _ _ :: r => instances r | _ :: r => S (instances r) end.
(** The instance from which an instance was copied, directly or through other copies. *)
Fixpoint first_original (h : list cevent) (k : nat) : nat :=
  match h with
  | [] => k
  | CCopy i :: r => if Nat.eqb k (instances r) then first_original r i else first_original r k
  | _ :: r => first_original r k
  end.
(** Only instances that exist are used. *)
Fixpoint feasible (h : list cevent) : Prop :=
  match h with [] => True | e :: r => match e with CNew _ _ => True | CCopy i | COp i _ => i < instances r end /\ feasible r end.

(** The data of an instance before and after the operation, also if it raises an exception. *)
Inductive does (E : env) (r : conv) (c : cid) (m m' : mdata pyval) : iop -> Prop :=
| DoesSet x v e : model_setitem E r c m x v = (m', e) -> does E r c m m' (OSet x v)
| DoesDelete x e : model_delitem E c m x = (m', e) -> does E r c m m' (ODel x)
| DoesImport raw w e : model_import_data E r c m raw w = (m', e) -> does E r c m m' (OImport raw w)
| DoesValidate w e : model_validate E r c m w = (m', e) -> does E r c m m' (OValidate w).
