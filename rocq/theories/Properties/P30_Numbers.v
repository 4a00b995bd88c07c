(** C83: the texts and numbers that float and Decimal fields read, and the value they get.

    [number U s neg c e]: the text [s] writes plus or minus [c] times ten to the [e].  [nearest x neg f]: [f] is the float
    nearest to [x], the even one of two equally near, infinity beyond the largest float. *)
From Coq Require Import QArith.
From Verif.Model Require Import Py Core Num Text Types.
From Verif.Spec Require Import TextSpec TypeSpec FloatSpec NumberSpec.
From Verif.Proofs Require Import FloatDecimal NumberText NumberTypes.
From Verif.Conformance Require Import TypeSample.
Open Scope string_scope.
Open Scope list_scope.

(** ** C83 *)
(** A text is accepted iff it is a number literal, an infinity or a NaN; a number gives the nearest float. *)
Theorem C83_float_texts :
  forall R s f, lf_native (float_type R) (VStr s) = Ok (VFloat f) <-> float_reads (rt_uni R) s f.
Proof. exact float_field_text. Qed.
Print Assumptions C83_float_texts.

Theorem C83_other_float_texts_are_refused :
  forall R s, (forall f, ~ float_reads (rt_uni R) s f) -> lf_native (float_type R) (VStr s) = Raise (XConv [u "number_coerce"]).
Proof. exact float_field_refuses. Qed.
Print Assumptions C83_other_float_texts_are_refused.

(** There is only one nearest float. *)
Theorem C83_nearest_is_unique : forall x neg f g, nearest x neg f -> nearest x neg g -> f = g.
Proof. exact nearest_unique. Qed.
Print Assumptions C83_nearest_is_unique.

(** Bytes are read as ASCII texts. *)
Theorem C83_float_bytes :
  forall R s f, lf_native (float_type R) (VBytes s) = Ok (VFloat f) <-> float_reads ascii_only s f.
Proof. exact float_field_bytes. Qed.
Print Assumptions C83_float_bytes.

Theorem C83_other_bytes_are_refused :
  forall R s, (forall f, ~ float_reads ascii_only s f) -> lf_native (float_type R) (VBytes s) = Raise (XConv [u "number_coerce"]).
Proof. exact float_field_bytes_refused. Qed.
Print Assumptions C83_other_bytes_are_refused.

(** Floats are kept as they are, with their sign and also if they are not numbers. *)
Theorem C83_floats_are_kept : forall R f, lf_native (float_type R) (VFloat f) = Ok (VFloat f).
Proof. exact (fun R f => eq_refl). Qed.
Print Assumptions C83_floats_are_kept.

(** An integer gives the nearest float, or OverflowError where a text would give infinity. *)
Theorem C83_integers_are_rounded :
  forall R z, inject_Z (Z.abs z) < too_large ->
    exists f, lf_native (float_type R) (VInt z) = Ok (VFloat f) /\ nearest (inject_Z (Z.abs z)) (z <? 0)%Z f.
Proof. exact float_field_int. Qed.
Print Assumptions C83_integers_are_rounded.

Theorem C83_large_integers_overflow :
  forall R z, too_large <= inject_Z (Z.abs z) -> lf_native (float_type R) (VInt z) = Raise (XPy EOverflowError).
Proof. exact float_field_large. Qed.
Print Assumptions C83_large_integers_overflow.

(** Up to 2^53 no integer is changed. *)
Theorem C83_small_integers_are_exact :
  forall R z, (Z.abs z <= 2 ^ 53)%Z ->
    exists f q, lf_native (float_type R) (VInt z) = Ok (VFloat f) /\ value_of (VFloat f) q /\ q == inject_Z z.
Proof. exact float_field_exact. Qed.
Print Assumptions C83_small_integers_are_exact.

(** Booleans are the integers 0 and 1. *)
Theorem C83_booleans_are_integers :
  forall R b, lf_native (float_type R) (VBool b) = lf_native (float_type R) (VInt (if b then 1 else 0)).
Proof. exact float_field_bool. Qed.
Print Assumptions C83_booleans_are_integers.

(** A finite Decimal gives the nearest float. *)
Theorem C83_decimals_are_rounded :
  forall R c e, exists f, lf_native (float_type R) (VDecimal c e) = Ok (VFloat f) /\ nearest (written (Z.abs_N c) e) (c <? 0)%Z f.
Proof. exact float_field_decimal. Qed.
Print Assumptions C83_decimals_are_rounded.

(** Nothing else is accepted, and the result is a float. *)
Theorem C83_other_values_are_refused :
  forall R v, (forall s, v <> VStr s) -> (forall s, v <> VBytes s) -> (forall f, v <> VFloat f) -> (forall q, ~ value_of v q) ->
    lf_native (float_type R) v = Raise (XConv [u "number_coerce"]).
Proof. exact float_field_others. Qed.
Print Assumptions C83_other_values_are_refused.

Theorem C83_result_is_a_float : forall R v w, lf_native (float_type R) v = Ok w -> exists f, w = VFloat f.
Proof. exact float_result. Qed.
Print Assumptions C83_result_is_a_float.

(** A text is a Decimal iff it is a number literal once its underscores are dropped, and gives the number written, digit by
    digit, without rounding. *)
Theorem C83_decimal_texts :
  forall R s c e, lf_native (decimal_type R) (VStr s) = Ok (VDecimal c e) <-> decimal_number (rt_uni R) s c e.
Proof. exact decimal_field_text. Qed.
Print Assumptions C83_decimal_texts.

(** Infinities and NaNs ([VObj 0] stands for them). *)
Theorem C83_special_decimal_texts :
  forall R s, lf_native (decimal_type R) (VStr s) = Ok (VObj 0) <-> decimal_special (rt_uni R) s.
Proof. exact decimal_field_special. Qed.
Print Assumptions C83_special_decimal_texts.

Theorem C83_other_decimal_texts_are_refused :
  forall R s, (forall c e, ~ decimal_number (rt_uni R) s c e) -> ~ decimal_special (rt_uni R) s ->
    lf_native (decimal_type R) (VStr s) = Raise (XConv [u "number_coerce"]).
Proof. exact decimal_field_refuses. Qed.
Print Assumptions C83_other_decimal_texts_are_refused.

(** A literal with sign, underscore, point and exponent. *)
Example C83_literal : number (rt_uni rt0) (u "-1_0.5e+2") true 105 1.
Proof.
  exists (u "-"), (u "1_0.5"), 1%nat, (u "e+2"), 2%Z. split; [reflexivity|]. split; [constructor|]. split; [|split; [|reflexivity]].
  - apply (mt_both _ (u "1_0") 10 (u "5") 5).
    + change (run (rt_uni rt0) 10 ([49] ++ [95; 48]) (1 * 10 + 0))%N.
      apply run_under; [apply run_one|..]; try reflexivity; now apply dn_ascii.
    + apply run_one; [now apply dn_ascii|reflexivity].
  - apply (ex_some _ 101 (u "+") false (u "2") 2); [now left|constructor|]. apply run_one; [now apply dn_ascii|reflexivity].
Qed.
(** One half and the halfway case 2^53 + 1, which goes to the even neighbour; texts that are refused; Decimals keep zeros. *)
Example C83_case :
  lf_native (float_type rt0) (VStr (u " -0_5E-1 ")) = Ok (VFloat (S754_finite true 4503599627370496 (-53))) /\
  lf_native (float_type rt0) (VStr (u "9007199254740993")) = Ok (VFloat (S754_finite false 4503599627370496 1)) /\
  lf_native (float_type rt0) (VInt 9007199254740993) = Ok (VFloat (S754_finite false 4503599627370496 1)) /\
  lf_native (float_type rt0) (VStr (u "1e400")) = Ok (VFloat (S754_infinity false)) /\
  lf_native (float_type rt0) (VStr (u "-Infinity")) = Ok (VFloat (S754_infinity true)) /\
  map (fun s => lf_native (float_type rt0) (VStr (u s))) ["1__0"; "_1"; "1_"; "."; "e5"; "1 0"; "1e"; "0x1"; "infi"; ""]
    = repeat (Raise (XConv [u "number_coerce"])) 10 /\
  lf_native (decimal_type rt0) (VStr (u " _1__0.50_ ")) = Ok (VDecimal 1050 (-2)) /\
  lf_native (decimal_type rt0) (VStr (u "-sNaN12")) = Ok (VObj 0) /\
  map (fun s => lf_native (decimal_type rt0) (VStr (u s))) ["1 0"; "."; "inf1"; "1e"; "_"]
    = repeat (Raise (XConv [u "number_coerce"])) 5 /\
  too_large <= inject_Z (Z.abs (10 ^ 309)) /\ inject_Z (Z.abs 9007199254740993) < too_large.
Proof. repeat split; vm_compute; try reflexivity; discriminate. Qed.
