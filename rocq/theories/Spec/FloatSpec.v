(** What rounding to the nearest float means, independent of the operations of the model. *)
From Coq Require Import QArith Qabs ZArith Floats.SpecFloat.

(** Numbers that a double holds. *)
Definition double (q : Q) : Prop :=
  exists m e : Z, q == inject_Z m * (2 # 1) ^ e /\ (Z.abs m < 2 ^ 53)%Z /\ (-1074 <= e <= 971)%Z.
(** The form in which a double is stored: all 53 digits are used, but for the smallest numbers. *)
Definition canonical (m : positive) (e : Z) : Prop :=
  (Zpos m < 2 ^ 53)%Z /\ (-1074 <= e <= 971)%Z /\ ((2 ^ 52 <= Zpos m)%Z \/ e = (-1074)%Z).
(** No double is nearer to [x] than [y]; if another is as near, the last digit [m] of [y] is even. *)
Definition nearest_number (x y : Q) (m : Z) : Prop :=
  forall z, double z -> Qabs (x - y) <= Qabs (x - z) /\ (Qabs (x - z) == Qabs (x - y) -> z == y \/ Z.even m = true).
(** Half a unit beyond the largest double. *)
Definition too_large : Q := inject_Z (2 ^ 54 - 1) * (2 # 1) ^ 970.
(** The float for the number [x] that is not negative, with the given sign. *)
Inductive nearest (x : Q) (neg : bool) : spec_float -> Prop :=
| nr_zero : nearest_number x 0 0 -> nearest x neg (S754_zero neg)
| nr_finite m e : canonical m e -> nearest_number x (inject_Z (Zpos m) * (2 # 1) ^ e) (Zpos m) -> x < too_large ->
    nearest x neg (S754_finite neg m e)
| nr_infinity : too_large <= x -> nearest x neg (S754_infinity neg).
(** The whole number nearest to [x], the even one of two. *)
Definition nearest_whole (x : Q) (n : Z) : Prop :=
  Qabs (x - inject_Z n) < 1 # 2 \/ (Qabs (x - inject_Z n) == 1 # 2 /\ Z.even n = true).
(** The number a finite float denotes. *)
Definition float_value (s : bool) (m : positive) (e : Z) : Q :=
  let x := inject_Z (Zpos m) * (2 # 1) ^ e in if s then - x else x.
