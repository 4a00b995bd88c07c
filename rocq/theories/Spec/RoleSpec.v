(** Roles as sets of names with a meaning. *)
From Verif.Model Require Import Py Core Role.

(** What users write: a role, changed by sums, differences and the other set operations with lists of names or with
    other roles. *)
Inductive rkind := Only | Except | Everything.
Inductive rexp :=
| Start (kd : rkind) (l : list key)
| Plus (e : rexp) (o : operand)
| Minus (e : rexp) (o : operand)
| Meet (e : rexp) (o : operand)
| Join (e : rexp) (o : operand)
| Either (e : rexp) (o : operand)
with operand :=
| Names (l : list key)
| Other (e : rexp).

(** Its value. *)
Fixpoint build (e : rexp) : roleobj :=
  match e with
  | Start Only l => whitelist l
  | Start Except l => blacklist l
  | Start Everything l => wholelist l
  | Plus e o => role_add (build e) (operand_names o)
  | Minus e o => role_sub (build e) (operand_names o)
  | Meet e o => role_and (build e) (operand_names o)
  | Join e o => role_or (build e) (operand_names o)
  | Either e o => role_xor (build e) (operand_names o)
  end
with operand_names (o : operand) : list key :=
  match o with
  | Names l => l
  | Other e => ro_fields (build e)
  end.

(** The names it is about, as set algebra. *)
Fixpoint about (e : rexp) (x : key) : Prop :=
  match e with
  | Start _ l => In x l
  | Plus e o | Join e o => about e x \/ about_operand o x
  | Minus e o => about e x /\ ~ about_operand o x
  | Meet e o => about e x /\ about_operand o x
  | Either e o => about e x /\ ~ about_operand o x \/ about_operand o x /\ ~ about e x
  end
with about_operand (o : operand) (x : key) : Prop :=
  match o with
  | Names l => In x l
  | Other e => about e x
  end.

(** The kind of the leftmost role. *)
Fixpoint kind_of (e : rexp) : rkind :=
  match e with
  | Start kd _ => kd
  | Plus e _ | Minus e _ | Meet e _ | Join e _ | Either e _ => kind_of e
  end.

(** The fields that may be shown. *)
Definition admits (e : rexp) (x : key) : Prop :=
  match kind_of e with
  | Only => about e x
  | Except => ~ about e x
  | Everything => True
  end.
