(** Application data of a call. *)
From Verif.Model Require Import Py Core AppData.

(** What the user's code should see: the data given, or an empty container. *)
Definition effective {A} (empty : A) (app : option A) : A := match app with Some a => a | None => empty end.
(** Everything that was called saw [a]. *)
Definition all_saw {A X} (a : A) (m : @traced A X) : Prop := forall b s, In (b, s) (fst m) -> s = Some a.
(** Two programs whose converters and validators do the same when the application data is [a]. *)
Definition agree_on {A} (a : A) (f g : callback -> option A -> tree -> option tree) : Prop :=
  forall b v, f b (Some a) v = g b (Some a) v.
