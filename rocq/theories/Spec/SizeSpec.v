(** The message about a list that is too short or too long. *)
From Verif.Model Require Import Py Text.
From Verif.Spec Require Import TextSpec.
Local Open Scope Z_scope.

(** Digits, possibly after a minus sign, that write the number. *)
Definition writes (t : pstr) (z : Z) : Prop :=
  (forall U, int_literal U 10 t z) /\ Forall (fun c => c = 45%N \/ (48 <= c <= 57)%N) t.
(** A missing element is reported first; one item, several items. *)
Inductive size_message (mn mx : option Z) (n : Z) : pstr -> Prop :=
| sm_few_one : mn = Some 1 -> n < 1 -> size_message mn mx n (u "Please provide at least 1 item.")
| sm_few a t : mn = Some a -> a <> 1 -> n < a -> writes t a ->
    size_message mn mx n (u "Please provide at least " ++ t ++ u " items.")
| sm_many_one : (forall a, mn = Some a -> a <= n) -> mx = Some 1 -> 1 < n -> size_message mn mx n (u "Please provide no more than 1 item.")
| sm_many b t : (forall a, mn = Some a -> a <= n) -> mx = Some b -> b <> 1 -> b < n -> writes t b ->
    size_message mn mx n (u "Please provide no more than " ++ t ++ u " items.").
