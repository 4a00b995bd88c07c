(** Specification of the texts that float and Decimal fields read, independent of the scanners of the model. *)
From Coq Require Import QArith Floats.SpecFloat.
From Verif.Model Require Import Py Text.
From Verif.Spec Require Import TextSpec FloatSpec.
Local Open Scope N_scope.

(** The number of digits in a run of digits and underscores. *)
Definition figures (s : list N) : nat := length (filter (fun c => negb (c =? 95)) s).
(** Digits with at most one point, which has digits on at least one side: the number without the point and the number of
    decimal places. *)
Inductive mantissa (U : unicode) : list N -> N -> nat -> Prop :=
| mt_whole s n : run U 10 s n -> mantissa U s n 0
| mt_point s n : run U 10 s n -> mantissa U (s ++ [46]) n 0
| mt_fraction s n : run U 10 s n -> mantissa U (46 :: s) n (figures s)
| mt_both s n s' n' : run U 10 s n -> run U 10 s' n' ->
    mantissa U (s ++ 46 :: s') (n * 10 ^ N.of_nat (figures s') + n') (figures s').
(** Nothing, or the letter e in either case, an optional sign and digits. *)
Inductive exponent (U : unicode) : list N -> Z -> Prop :=
| ex_none : exponent U [] 0
| ex_some e sg neg s n : e = 101 \/ e = 69 -> sign sg neg -> run U 10 s n ->
    exponent U (e :: sg ++ s) (if neg then - Z.of_N n else Z.of_N n).
(** The text writes the number [(-1)^neg * c * 10^e]. *)
Definition number (U : unicode) (s : list N) (neg : bool) (c : N) (e : Z) : Prop :=
  exists sg mt k ex z, s = (sg ++ mt ++ ex)%list /\ sign sg neg /\ mantissa U mt c k /\ exponent U ex z /\ e = (z - Z.of_nat k)%Z.
(** The word in upper and lower case letters. *)
Definition spells (w : string) (s : list N) : Prop :=
  Forall2 (fun c d => c = d \/ (97 <= d <= 122 /\ c + 32 = d)) s (u w).

(** The value of [(-1)^neg * c * 10^e] without its sign. *)
Definition written (c : N) (e : Z) : Q := (inject_Z (Z.of_N c) * (10 # 1) ^ e)%Q.
(** What a text means to [float]. *)
Inductive float_reads (U : unicode) : pstr -> spec_float -> Prop :=
| fl_number b1 s b2 neg c e f : Forall (blank U) b1 -> number U s neg c e -> Forall (blank U) b2 ->
    nearest (written c e) neg f -> float_reads U (b1 ++ s ++ b2) f
| fl_infinity b1 sg neg s b2 : Forall (blank U) b1 -> sign sg neg -> spells "inf" s \/ spells "infinity" s -> Forall (blank U) b2 ->
    float_reads U (b1 ++ sg ++ s ++ b2) (S754_infinity neg)
| fl_nan b1 sg neg s b2 : Forall (blank U) b1 -> sign sg neg -> spells "nan" s -> Forall (blank U) b2 ->
    float_reads U (b1 ++ sg ++ s ++ b2) S754_nan.

(** Spaces around a Decimal: also the separators 28 to 31. *)
Definition wide_blank (U : unicode) (c : N) : Prop := blank U c \/ 28 <= c <= 31.
(** Underscores do not count in a Decimal, wherever they are. *)
Definition without_underscores (s : list N) : list N := filter (fun c => negb (c =? 95)) s.
(** The text writes a finite Decimal of this coefficient and exponent. *)
Definition decimal_number (U : unicode) (s : pstr) (coef exp : Z) : Prop :=
  exists b1 body b2 neg c, s = (b1 ++ body ++ b2)%list /\ Forall (wide_blank U) b1 /\ Forall (wide_blank U) b2 /\
    number U (without_underscores body) neg c exp /\ coef = (if neg then - Z.of_N c else Z.of_N c)%Z.
(** The text writes an infinity or a NaN; a NaN may carry digits. *)
Definition decimal_special (U : unicode) (s : pstr) : Prop :=
  exists b1 body b2 sg neg w ds, s = (b1 ++ body ++ b2)%list /\ Forall (wide_blank U) b1 /\ Forall (wide_blank U) b2 /\
    without_underscores body = (sg ++ w ++ ds)%list /\ sign sg neg /\
    ((spells "inf" w \/ spells "infinity" w) /\ ds = [] \/
     (spells "nan" w \/ spells "snan" w) /\ Forall (fun c => exists v, denotes U c v /\ v < 10) ds).
(** No spaces and digits beyond ASCII, as in bytes. *)
Definition ascii_only : unicode := Unicode (fun _ => false) (fun _ => None).
