(** Specification of texts of UUIDs, independent of the functions of the model. *)
From Verif.Model Require Import Py Core Text.
From Verif.Spec Require Import TextSpec.
Local Open Scope N_scope.

(** [s.replace(w, "")] is [t]: occurrences of [w] are left out from left to right. *)
Inductive removed (w : pstr) : pstr -> pstr -> Prop :=
| rm_end : removed w [] []
| rm_word s t : removed w s t -> removed w (w ++ s) t
| rm_other c s t : (forall r, c :: s <> (w ++ r)%list) -> removed w s t -> removed w (c :: s) (c :: t).
(** A brace. *)
Definition brace (c : N) : Prop := c = 123 \/ c = 125.
(** [s] without the braces at both ends is [t]. *)
Definition unbraced (s t : pstr) : Prop :=
  exists a b, s = (a ++ t ++ b)%list /\ Forall brace a /\ Forall brace b /\
    (forall c r, t = c :: r -> ~ brace c) /\ (forall c r, t = (r ++ [c])%list -> ~ brace c).
(** [s] without its hyphens is [t]. *)
Inductive hyphenated : pstr -> pstr -> Prop :=
| hy_end : hyphenated [] []
| hy_hyphen s t : hyphenated s t -> hyphenated (45 :: s) t
| hy_other c s t : c <> 45 -> hyphenated s t -> hyphenated (c :: s) (c :: t).
(** What is left of a text to be read as a number. *)
Definition core_text (s t : pstr) : Prop :=
  exists a b c, removed (u "urn:") s a /\ removed (u "uuid:") a b /\ unbraced b c /\ hyphenated c t.
(** Values that have a method [replace], other than texts. *)
Definition has_replace (v : pyval) : Prop :=
  match v with VBytes _ | VDate _ | VDateTime _ _ _ => True | _ => False end.
