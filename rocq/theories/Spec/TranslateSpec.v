(** What translation should do. *)
From Verif.Model Require Import Py Core Translate.

(** The translator in force after some actions: the last one registered. *)
Fixpoint in_force (l : list taction) (before : translator) : translator :=
  match l with
  | [] => before
  | Register f :: r => in_force r f
  | _ :: r => in_force r before
  end.
(** A message of the library as the user of a translator expects it. *)
Definition translated (tr : translator) (m : pstr) : pstr := match tr with Some f => f m | None => m end.
(** The number of exceptions raised. *)
Fixpoint raised_by (l : list taction) : nat :=
  match l with [] => 0 | RaiseError _ :: r => S (raised_by r) | _ :: r => raised_by r end.
(** The start of a program. *)
Definition at_start : tstate := TS None [].
