(** C28-C32, C51, C52, C54, C55, C57-C60: the leaf types.

    [R : runtime] is what the model leaves open of the interpreter (Unicode tables, [str] of arbitrary objects); every
    theorem holds for all of them.  [value_of v q]: the value [v] is the rational number [q].  [int_literal U b s z]: the
    text [s] writes the integer [z] in base [b], as Python's [int(s, b)] reads it. *)
From Coq Require Import QArith.
From Verif.Model Require Import Py Core Num Equality Text Types Enum Calendar DateTime.
From Verif.Spec Require Import TextSpec TypeSpec EnumSpec DateSpec UuidSpec.
From Verif.Proofs Require Import TextLemmas IntText Utf8 NumText TypeLemmas EnumLemmas TypeWitness DateTimeLemmas UuidFacts.
From Verif.Conformance Require Import TypeSample.
Open Scope string_scope.
Open Scope list_scope.

(** ** C28: conversion is idempotent *)
Theorem C28_conversion_is_idempotent :
  forall R l v w, basic_leaf R l -> lf_native l v = Ok w -> lf_native l w = Ok w.
Proof. exact basic_idempotent. Qed.
Print Assumptions C28_conversion_is_idempotent.

Theorem C28_date_and_time_conversion_is_idempotent :
  forall R l v w, date_leaf R l -> lf_native l v = Ok w -> lf_native l w = Ok w.
Proof. exact date_leaf_idem. Qed.
Print Assumptions C28_date_and_time_conversion_is_idempotent.

Theorem C28_enum_conversion_is_idempotent :
  forall R c uv v w, lf_native (enum_type R c uv) v = Ok w -> lf_native (enum_type R c uv) w = Ok w.
Proof. exact enum_idempotent. Qed.
Print Assumptions C28_enum_conversion_is_idempotent.

Example C28_case : basic_leaf rt0 (int_type rt0 true) /\ lf_native (int_type rt0 true) (VStr (u " -12 ")) = Ok (VInt (-12)) /\
  lf_native (enum_type rt0 color true) (VStr (u "g")) = Ok (VEnum 7 (u "GREEN") (k "g")).
Proof. repeat split; try reflexivity. apply bl_int. Qed.

(** ** C29: integers *)
Theorem C29_integers_are_kept : forall R strict z, lf_native (int_type R strict) (VInt z) = Ok (VInt z).
Proof. reflexivity. Qed.
Print Assumptions C29_integers_are_kept.

Theorem C29_text_round_trip : forall R strict z, lf_native (int_type R strict) (VStr (dec_text z)) = Ok (VInt z).
Proof. exact int_round. Qed.
Print Assumptions C29_text_round_trip.

(** A text is accepted iff it is an integer literal, and gives its value. *)
Theorem C29_text_is_read_as_a_literal :
  forall R strict s z, lf_native (int_type R strict) (VStr s) = Ok (VInt z) <-> int_literal (rt_uni R) 10 s z.
Proof. exact int_text_ok. Qed.
Print Assumptions C29_text_is_read_as_a_literal.

Theorem C29_other_text_is_rejected :
  forall R strict s, (forall z, ~ int_literal (rt_uni R) 10 s z) -> lf_native (int_type R strict) (VStr s) = Raise (XConv [u "number_coerce"]).
Proof. exact int_text_fails. Qed.
Print Assumptions C29_other_text_is_rejected.

(** A float or Decimal: never in strict mode; otherwise iff it is integral, and then the value is not changed. *)
Theorem C29_no_numeric_change :
  forall R v q, (forall b, v <> VBool b) -> (forall z, v <> VInt z) -> value_of v q ->
    (lf_native (int_type R true) v = Raise (XConv [u "number_coerce"])) /\
    (forall z, lf_native (int_type R false) v = Ok (VInt z) <-> q == inject_Z z) /\
    ((forall z, ~ q == inject_Z z) -> lf_native (int_type R false) v = Raise (XConv [u "number_coerce"])).
Proof. exact int_of_number. Qed.
Print Assumptions C29_no_numeric_change.

Theorem C29_result_is_an_integer : forall R strict v w, lf_native (int_type R strict) v = Ok w -> exists z, w = VInt z.
Proof. exact int_result. Qed.
Print Assumptions C29_result_is_an_integer.

(** Everything that is neither a text nor a number is refused. *)
Theorem C29_other_values_are_refused :
  forall R strict v, (forall s, v <> VStr s) -> (forall q, ~ value_of v q) -> (forall s, v <> VFloat (S754_infinity s)) ->
    lf_native (int_type R strict) v = Raise (XConv [u "number_coerce"]).
Proof. exact int_refuses. Qed.
Print Assumptions C29_other_values_are_refused.

Example C29_case : lf_native (int_type rt0 true) (VStr (u " +1_000 ")) = Ok (VInt 1000) /\ lf_native (int_type rt0 false) two = Ok (VInt 2) /\
  value_of half (inject_Z 1 * (2 # 1) ^ (-1)) /\ lf_native (int_type rt0 false) half = Raise (XConv [u "number_coerce"]) /\
  lf_native (int_type rt0 false) (VDecimal 25 (-1)) = Raise (XConv [u "number_coerce"]).
Proof. repeat split; try reflexivity. apply (vo_float false). Qed.

(** ** C30: the range of numbers *)
Theorem C30_accepts_exactly_the_range :
  forall lo hi v q, value_of v q ->
    (forall m, lo = Some m -> exists r, value_of m r) -> (forall m, hi = Some m -> exists r, value_of m r) ->
    (validate_range lo hi v = None <->
       (forall m r, lo = Some m -> value_of m r -> r <= q) /\ (forall m r, hi = Some m -> value_of m r -> q <= r)) /\
    (validate_range lo hi v = Some (XValid false [u "number_min"]) <-> exists m r, lo = Some m /\ value_of m r /\ q < r) /\
    (validate_range lo hi v = Some (XValid false [u "number_max"]) <->
       (forall m r, lo = Some m -> value_of m r -> r <= q) /\ exists m r, hi = Some m /\ value_of m r /\ r < q).
Proof. exact range_iff. Qed.
Print Assumptions C30_accepts_exactly_the_range.

(** Not a number passes whatever the range is. *)
Theorem C30_nan_is_never_rejected :
  forall lo hi, (forall m, lo = Some m -> exists r, value_of m r) -> (forall m, hi = Some m -> exists r, value_of m r) ->
    validate_range lo hi (VFloat S754_nan) = None.
Proof. exact range_nan. Qed.
Print Assumptions C30_nan_is_never_rejected.

(** The infinities lie beyond every bound. *)
Theorem C30_infinities :
  forall lo hi s, (forall m, lo = Some m -> exists r, value_of m r) -> (forall m, hi = Some m -> exists r, value_of m r) ->
    validate_range lo hi (VFloat (S754_infinity s)) =
      match (if s then lo else hi) with
      | None => None
      | Some _ => Some (XValid false [u (if s then "number_min" else "number_max")])
      end.
Proof. exact range_inf. Qed.
Print Assumptions C30_infinities.

Example C30_case : value_of half (inject_Z 1 * (2 # 1) ^ (-1)) /\ value_of (VDecimal 4 (-1)) (inject_Z 4 * (10 # 1) ^ (-1)) /\
  validate_range (Some (VDecimal 4 (-1))) (Some (VInt 1)) half = None /\
  validate_range (Some (VDecimal 6 (-1))) None half = Some (XValid false [u "number_min"]) /\
  validate_range None (Some (VInt 0)) half = Some (XValid false [u "number_max"]) /\
  validate_range (Some (VInt 0)) None (VFloat (S754_infinity true)) = Some (XValid false [u "number_min"]) /\
  lf_native (int_type rt0 false) (VBytes (u "12")) = Raise (XConv [u "number_coerce"]).
Proof. repeat split; try reflexivity; [apply (vo_float false)|apply vo_decimal]. Qed.

(** ** C31: booleans *)
Theorem C31_accepts_exactly_the_spellings : forall v b, lf_native bool_type v = Ok (VBool b) <-> says b v.
Proof. exact bool_iff. Qed.
Print Assumptions C31_accepts_exactly_the_spellings.

Theorem C31_rejects_everything_else :
  forall v, (exists b, lf_native bool_type v = Ok (VBool b)) \/ lf_native bool_type v = Raise (XConv [u "Must be either true or false."]).
Proof. exact bool_total. Qed.
Print Assumptions C31_rejects_everything_else.

Example C31_case : says true (VStr (u "true")) /\ ~ says true (VStr (u "TRUE")) /\ ~ says false VNone /\ says false (VInt 0).
Proof.
  repeat split.
  - right. right. exists (u "true"). cbn. auto.
  - intros H. apply C31_accepts_exactly_the_spellings in H. discriminate H.
  - intros H. apply C31_accepts_exactly_the_spellings in H. discriminate H.
  - right. left. reflexivity.
Qed.

(** ** C32: text *)
Theorem C32_accepts_exactly_the_lengths :
  forall lo hi s,
    (validate_length lo hi (VStr s) = None <->
       (forall m, hi = Some m -> (Z.of_nat (length s) <= m)%Z) /\ (forall m, lo = Some m -> (m <= Z.of_nat (length s))%Z)) /\
    (validate_length lo hi (VStr s) = Some (XValid false [u "max_length"]) <->
       exists m, hi = Some m /\ (m < Z.of_nat (length s))%Z) /\
    (validate_length lo hi (VStr s) = Some (XValid false [u "min_length"]) <->
       (forall m, hi = Some m -> (Z.of_nat (length s) <= m)%Z) /\ exists m, lo = Some m /\ (Z.of_nat (length s) < m)%Z).
Proof. exact length_iff. Qed.
Print Assumptions C32_accepts_exactly_the_lengths.

(** Values without a length, which only validation without conversion lets through, are a TypeError. *)
Theorem C32_no_length : forall lo hi v, match v with VStr _ | VBytes _ | VList _ | VTuple _ | VDict _ | VModel _ _ => False | _ => True end ->
  validate_length lo hi v = Some (XPy ETypeError).
Proof. exact length_unsized. Qed.
Print Assumptions C32_no_length.

Theorem C32_accepts_exactly_the_matches :
  forall p s, (validate_regex (Some p) (VStr s) = None <-> p s = true) /\
    (validate_regex (Some p) (VStr s) = Some (XValid false [u "regex"]) <-> p s = false) /\
    (forall v, validate_regex None v = None).
Proof. exact regex_iff. Qed.
Print Assumptions C32_accepts_exactly_the_matches.
(** A pattern is matched against texts only. *)
Theorem C32_patterns_need_texts : forall p v, (forall s, v <> VStr s) -> validate_regex (Some p) v = Some (XPy ETypeError).
Proof. exact regex_text. Qed.
Print Assumptions C32_patterns_need_texts.

Example C32_case : validate_length (Some 2%Z) (Some 3%Z) (VStr (u "abc")) = None /\
  validate_length (Some 2%Z) (Some 3%Z) (VStr (u "a")) = Some (XValid false [u "min_length"]) /\
  validate_length None (Some 3%Z) (VStr (u "abcd")) = Some (XValid false [u "max_length"]) /\
  validate_length None (Some 3%Z) (VInt 1234) = Some (XPy ETypeError) /\ validate_regex (Some (fun _ => true)) (VInt 7) = Some (XPy ETypeError).
Proof. repeat split. Qed.

(** ** C57: StringType reads UTF-8 *)
Theorem C57_what_is_accepted :
  forall v w, lf_native string_leaf v = Ok w <->
    (exists s, v = VStr s /\ w = VStr s) \/ (exists b s, v = VBytes b /\ utf8_encode s = Some b /\ w = VStr s) \/
    (exists z, v = VInt z /\ w = VStr (dec_text z)).
Proof. exact string_result. Qed.
Print Assumptions C57_what_is_accepted.

Theorem C57_encoded_text_is_restored : forall s b, utf8_encode s = Some b -> lf_native string_leaf (VBytes b) = Ok (VStr s).
Proof. exact string_utf8. Qed.
Print Assumptions C57_encoded_text_is_restored.

Theorem C57_other_data_is_rejected :
  forall b, (forall s, utf8_encode s <> Some b) -> lf_native string_leaf (VBytes b) = Raise (XConv [u "decode"]).
Proof. exact string_invalid. Qed.
Print Assumptions C57_other_data_is_rejected.

Example C57_case : utf8_encode [233; 8364; 128512]%N = Some [195; 169; 226; 130; 172; 240; 159; 152; 128]%N /\
  lf_native string_leaf (VBytes [192; 128]%N) = Raise (XConv [u "decode"]) /\
  lf_native string_leaf (VBytes [237; 160; 128]%N) = Raise (XConv [u "decode"]).
Proof. repeat split. Qed.

(** ** C58: DecimalType *)
Theorem C58_text_round_trip : forall R c e, rbind (lf_prim (decimal_type R) (VDecimal c e)) (lf_native (decimal_type R)) = Ok (VDecimal c e).
Proof. exact decimal_round. Qed.
Print Assumptions C58_text_round_trip.

Theorem C58_integers_are_exact : forall R z, lf_native (decimal_type R) (VInt z) = Ok (VDecimal z 0).
Proof. exact decimal_int. Qed.
Print Assumptions C58_integers_are_exact.
Theorem C58_booleans_are_numbers : forall R, lf_native (decimal_type R) (VBool true) = Ok (VDecimal 1 0) /\ lf_native (decimal_type R) (VBool false) = Ok (VDecimal 0 0).
Proof. exact decimal_bool. Qed.
Print Assumptions C58_booleans_are_numbers.

Example C58_case : lf_prim (decimal_type rt0) (VDecimal (-1230) (-2)) = Ok (VStr (u "-12.30")) /\
  lf_prim (decimal_type rt0) (VDecimal 12 5) = Ok (VStr (u "1.2E+6")) /\ lf_native (decimal_type rt0) (VStr (u " 1.50e3 ")) = Ok (VDecimal 150 1).
Proof. repeat split. Qed.

(** ** C51: UUIDType *)
Theorem C51_text_round_trip : forall R n, (n < 2 ^ 128)%N -> rbind (lf_prim (uuid_type R) (VUUID n)) (lf_native (uuid_type R)) = Ok (VUUID n).
Proof. exact uuid_round. Qed.
Print Assumptions C51_text_round_trip.

(** A text is read as a UUID exactly if 32 characters that write a hexadecimal number are left of it without [urn:], [uuid:], outer braces and hyphens. *)
Theorem C51_texts : forall R s w, lf_native (uuid_type R) (VStr s) = Ok w <->
  exists t n, core_text s t /\ length t = 32%nat /\ int_literal (rt_uni R) 16 t (Z.of_N n) /\ w = VUUID n.
Proof. exact uuid_reads. Qed.
Print Assumptions C51_texts.
(** So all usual forms are read: 32 digits in upper or lower case, with hyphens anywhere, in braces or not, with [urn:], [uuid:], both or neither. *)
Theorem C51_usual_forms : forall R lead a t b ds n, In lead [[]; u "urn:"; u "uuid:"; u "urn:uuid:"] -> Forall brace a -> Forall brace b ->
  hyphenated t ds -> length ds = 32%nat -> Forall hex_digit ds -> run (rt_uni R) 16 ds n ->
  lf_native (uuid_type R) (VStr (lead ++ a ++ t ++ b)) = Ok (VUUID n).
Proof. exact uuid_forms. Qed.
Print Assumptions C51_usual_forms.
(** That 32 hexadecimal digits are required is refuted: 30 digits after [0x] will do. *)
Theorem C51_only_32_digits_refuted : forall R ds n, length ds = 30%nat -> Forall hex_digit ds -> run (rt_uni R) 16 ds n ->
  lf_native (uuid_type R) (VStr (u "0x" ++ ds)) = Ok (VUUID n).
Proof. exact uuid_odd. Qed.
Print Assumptions C51_only_32_digits_refuted.
(** Of other values only UUIDs are accepted; the failure is one of the field for None and values with a method [replace], otherwise AttributeError. *)
Theorem C51_other_values : forall R v, (forall s, v <> VStr s) ->
  (forall n, v = VUUID n -> lf_native (uuid_type R) v = Ok v) /\
  (v = VNone \/ has_replace v -> lf_native (uuid_type R) v = Raise (XConv [u "convert"])) /\
  ((forall n, v <> VUUID n) -> v <> VNone -> ~ has_replace v -> lf_native (uuid_type R) v = Raise (XPy EAttributeError)).
Proof. exact uuid_others. Qed.
Print Assumptions C51_other_values.

Example C51_case : lf_prim (uuid_type rt0) (VUUID 255) = Ok (VStr (u "00000000-0000-0000-0000-0000000000ff")) /\
  lf_native (uuid_type rt0) (VStr (u "{000000000000000000000000000000FF}")) = Ok (VUUID 255) /\
  lf_native (uuid_type rt0) (VStr (u "urn:uuid:00000000-0000-0000-0000-0000000000ff")) = Ok (VUUID 255) /\
  lf_native (uuid_type rt0) (VStr (u "0x0000000000000000000000000000ff")) = Ok (VUUID 255) /\
  lf_native (uuid_type rt0) (VStr (u "ff")) = Raise (XConv [u "convert"]) /\
  lf_native (uuid_type rt0) (VBytes []) = Raise (XConv [u "convert"]) /\ lf_native (uuid_type rt0) (VInt 5) = Raise (XPy EAttributeError).
Proof. repeat split. Qed.
(** The hypotheses on digits can be met. *)
Example C51_digits : let ds := u "0000000000000000000000000000fF" in length ds = 30%nat /\ Forall hex_digit ds /\ run (rt_uni rt0) 16 (u "fF") 255%N /\
  hyphenated (u "0-f") (u "0f") /\ brace 123.
Proof.
  cbn zeta. split; [reflexivity|]. split; [unfold u; cbn; repeat (apply Forall_cons; [unfold hex_digit; lia|]); apply Forall_nil|]. split.
  - change (u "fF") with (u "f" ++ [70%N])%list. change 255%N with (15 * 16 + 15)%N. apply run_more.
    + apply run_one; [apply dn_lower; [reflexivity|lia]|lia].
    + apply dn_upper; [reflexivity|lia].
    + lia.
  - split; [|now left]. apply hy_other; [discriminate|]. apply hy_hyphen. apply hy_other; [discriminate|]. apply hy_end.
Qed.

(** ** C52: MD5Type, SHA1Type *)
Theorem C52_accepts_literals_of_the_length :
  forall R n s, (exists w, lf_native (hash_type R n) (VStr s) = Ok w) <-> length s = n /\ exists z, int_literal (rt_uni R) 16 s z.
Proof. exact hash_iff. Qed.
Print Assumptions C52_accepts_literals_of_the_length.

Theorem C52_hex_digests_are_kept :
  forall R n s, length s = n -> s <> [] -> Forall hex_digit s -> lf_native (hash_type R n) (VStr s) = Ok (VStr s).
Proof. exact hash_digest. Qed.
Print Assumptions C52_hex_digests_are_kept.

Theorem C52_text_is_never_changed : forall R n v w, lf_native (hash_type R n) v = Ok w -> lf_native string_leaf v = Ok w.
Proof. exact hash_keeps. Qed.
Print Assumptions C52_text_is_never_changed.

(** Not only digests are accepted. *)
Theorem C52_only_hex_digits_refuted :
  forall R, exists s, lf_native (hash_type R 32) (VStr s) = Ok (VStr s) /\ ~ Forall hex_digit s.
Proof. exact hash_odd. Qed.
Print Assumptions C52_only_hex_digits_refuted.

Example C52_case : lf_native (hash_type rt0 32) (VStr (u "d41d8cd98f00b204e9800998ecf8427e")) = Ok (VStr (u "d41d8cd98f00b204e9800998ecf8427e")) /\
  lf_native (hash_type rt0 32) (VStr (u "d41d8cd98f00b204e9800998ecf8427g")) = Raise (XConv [u "hash_hex"]) /\
  lf_native (hash_type rt0 32) (VStr (u "d41d")) = Raise (XValid false [u "hash_length"]).
Proof. repeat split. Qed.

(** ** C54: GeoPointType *)
Theorem C54_accepts_exactly_pairs_of_numbers :
  forall v w, lf_native geo_type v = Ok w <-> w = v /\ exists x y, point v x y /\ real_number x /\ real_number y.
Proof. exact geo_iff. Qed.
Print Assumptions C54_accepts_exactly_pairs_of_numbers.

Theorem C54_accepts_exactly_the_range :
  forall v x y p q, point v x y -> value_of x p -> value_of y q ->
    (geo_range v = None <-> -(90#1) <= p <= 90#1 /\ -(180#1) <= q <= 180#1) /\
    (geo_range v <> None -> exists m, geo_range v = Some (XValid false [m])).
Proof. exact geo_range_iff. Qed.
Print Assumptions C54_accepts_exactly_the_range.

(** What the range check does with values that are no points (as a validator sees them with convert=False). *)
Theorem C54_the_range_check_of_other_values : forall v, (forall x y, ~ point v x y) ->
  match v with
  | VList _ | VTuple _ | VDict _ => geo_range v = Some (XPy EValueError)
  | VStr s => geo_range v = Some (XPy (if Nat.eqb (length s) 2 then ETypeError else EValueError))
  | VBytes _ | VModel _ _ => True
  | _ => geo_range v = Some (XPy ETypeError)
  end.
Proof. exact geo_unfit. Qed.
Print Assumptions C54_the_range_check_of_other_values.
Example C54_other_case : (forall x y, ~ point (VList [VInt 1; VInt 2; VInt 3]) x y) /\ (forall x y, ~ point (VInt 7) x y).
Proof. split; intros x y H; inversion H. Qed.

(** Not a number is accepted as a latitude. *)
Theorem C54_only_points_refuted :
  exists v, lf_native geo_type v = Ok v /\ geo_range v = None /\ ~ (exists x y p q, point v x y /\ value_of x p /\ value_of y q).
Proof. exact geo_nan. Qed.
Print Assumptions C54_only_points_refuted.

Example C54_case : point (VDict [(k "lat", half); (k "lon", VInt 180)]) half (VInt 180) /\
  geo_range (VDict [(k "lat", half); (k "lon", VInt 180)]) = None /\
  geo_range (VList [VInt 91; VInt 0]) = Some (XValid false [u "point_max"]).
Proof. split; [apply pt_dict|]. repeat split. Qed.

(** ** C55: MultilingualStringType; [ctx] are the locales of the context, [dflt] is [default_locale] *)
Theorem C55_only_dictionaries_and_none :
  forall ctx dflt v w, (lf_native (multi_type ctx dflt) v = Ok w <-> w = v /\ (v = VNone \/ exists d, v = VDict d)) /\
    ((v <> VNone /\ forall d, v <> VDict d) -> lf_native (multi_type ctx dflt) v = Raise (XConv [u "Value must be a dict or None"])).
Proof. exact multi_accepts. Qed.
Print Assumptions C55_only_dictionaries_and_none.

Theorem C55_first_available_locale :
  forall ctx dflt d s, lf_prim (multi_type ctx dflt) (VDict d) = Ok (VStr s) <->
    exists before x after v, requested ctx ++ requested dflt = before ++ x :: after /\ dget x d = Some v /\
      (forall y, In y before -> dget y d = None) /\ text_of v s.
Proof. exact multi_prim_iff. Qed.
Print Assumptions C55_first_available_locale.

Theorem C55_no_locale :
  forall ctx dflt d,
    (lf_prim (multi_type ctx dflt) (VDict d) = Raise (XConv [u "no_locale"]) <-> requested ctx ++ requested dflt = []) /\
    (lf_prim (multi_type ctx dflt) (VDict d) = Raise (XConv [u "locale_not_found"]) <->
       requested ctx ++ requested dflt <> [] /\ forall y, In y (requested ctx ++ requested dflt) -> dget y d = None).
Proof. exact multi_missing. Qed.
Print Assumptions C55_no_locale.

(** A text is not looked for further when the value found is unfit; undecodable data raises a ValueError. *)
Theorem C55_unfit_value :
  forall ctx dflt d before x after v, requested ctx ++ requested dflt = before ++ x :: after -> dget x d = Some v ->
    (forall y, In y before -> dget y d = None) -> (forall s, ~ text_of v s) ->
    lf_prim (multi_type ctx dflt) (VDict d) = Raise (match v with VBytes _ => XPy EValueError | _ => XConv [u "convert"] end).
Proof. exact multi_unfit. Qed.
Print Assumptions C55_unfit_value.
Example C55_case_unfit : (forall s, ~ text_of VNone s) /\
  multi_prim (LMany [k "fr"; k "de"]) LNone (VDict [(k "de", VStr (u "Baum")); (k "fr", VNone)]) = Raise (XConv [u "convert"]) /\
  multi_prim (LMany [k "fr"]) LNone (VDict [(k "fr", VBytes [255%N])]) = Raise (XPy EValueError).
Proof. split; [intros s H; inversion H|]. split; reflexivity. Qed.

Example C55_case : multi_prim (LMany [k "fr"; k "de"]) (LOne (u "en")) (VDict [(k "en", VStr (u "tree")); (k "de", VStr (u "Baum"))]) = Ok (VStr (u "Baum")) /\
  multi_prim LNone (LOne (u "en")) (VDict [(k "de", VStr (u "Baum"))]) = Raise (XConv [u "locale_not_found"]) /\
  locale_ok (u "en:_US") = true.
Proof. repeat split. Qed.

(** Minimum and maximum length hold for every localized value. *)
Theorem C55_every_value_is_measured :
  forall lo hi d, localized d ->
    (multi_length lo hi (VDict d) = None <-> forall x v n, In (x, v) d -> characters v n -> bounded lo hi n).
Proof. exact multi_length_iff. Qed.
Print Assumptions C55_every_value_is_measured.

(** Every localized value matches the pattern for values and every locale name the pattern for names. *)
Theorem C55_every_entry_is_matched :
  forall re lre d, (forall x v, In (x, v) d -> (exists n, x = KStr n) /\ exists s, v = VStr s) ->
    (multi_regex re lre (VDict d) = None <->
     forall n s, In (KStr n, VStr s) d -> (forall p, re = Some p -> p s = true) /\ (forall p, lre = Some p -> p n = true)).
Proof. exact multi_regex_iff. Qed.
Print Assumptions C55_every_entry_is_matched.

(** A value that is no text is a TypeError out of the validation, if there is a pattern for values. *)
Theorem C55_patterns_need_texts :
  forall p lre d x v r, (forall y w, In (y, w) d -> exists s, w = VStr s /\ p s = true) ->
    (forall q, lre = Some q -> forall y w, In (y, w) d -> exists n, y = KStr n /\ q n = true) ->
    (forall s, v <> VStr s) -> multi_regex (Some p) lre (VDict (d ++ (x, v) :: r)) = Some (XPy ETypeError).
Proof. exact multi_regex_text. Qed.
Print Assumptions C55_patterns_need_texts.
(** So is, with AttributeError, a value that is no mapping, if there is a pattern at all. *)
Theorem C55_patterns_need_mappings :
  forall re lre v, re <> None \/ lre <> None -> (forall d, v <> VDict d) -> multi_regex re lre v = Some (XPy EAttributeError).
Proof. exact multi_regex_mapping. Qed.
Print Assumptions C55_patterns_need_mappings.
(** The bounds on the length need one in any case. *)
Theorem C55_lengths_need_mappings :
  forall lo hi v, (forall d, v <> VDict d) -> multi_length lo hi v = Some (XPy EAttributeError).
Proof. exact multi_length_mapping. Qed.
Print Assumptions C55_lengths_need_mappings.
Example C55_patterns_case :
  multi_regex (Some (fun s => Nat.eqb (length s) 4)) (Some locale_ok) (VDict [(k "en", VStr (u "tree")); (k "de_AT", VNone)]) = Some (XPy ETypeError).
Proof. reflexivity. Qed.

(** What the default pattern for locale names accepts. *)
Theorem C55_locale_names :
  forall s, locale_ok s = true <-> exists t, locale_name t /\ (s = t \/ s = t ++ [10%N]).
Proof. exact locale_ok_iff. Qed.
Print Assumptions C55_locale_names.

Example C55_validation_case :
  let d := [(k "en", VStr (u "tree")); (k "de_AT", VNone)] in
  localized d /\ multi_length None (Some 4%Z) (VDict d) = None /\ multi_length (Some 1%Z) None (VDict d) = Some (XValid false [u "min_length"]) /\
  multi_regex None (Some locale_ok) (VDict [(k "en", VStr (u "tree")); (k "de_AT", VStr [])]) = None /\
  multi_regex None (Some locale_ok) (VDict [(k "en", VStr (u "tree")); (k "de_at", VStr [])]) = Some (XValid false [u "regex_locale"]) /\
  locale_name (u "de_AT").
Proof.
  split; [|repeat (split; [reflexivity|])].
  - intros x v [[= <- <-]|[[= <- <-]|[]]]; (split; [eexists; reflexivity|]); [right; eexists; reflexivity|now left].
  - apply (ln_country 100 101 65 84); unfold lower_letter, upper_letter; split; discriminate.
Qed.

(** ** C59: EnumType *)
Theorem C59_names_round_trip :
  forall R c m, good_class c -> is_member c m ->
    rbind (lf_prim (enum_type R c false) (enum_member c m)) (lf_native (enum_type R c false)) = Ok (enum_member c m).
Proof. exact enum_round_name. Qed.
Print Assumptions C59_names_round_trip.

(** With [use_values]: provided that the value is not the name of another member. *)
Theorem C59_values_round_trip :
  forall R c m, good_class c -> is_member c m ->
    (forall m', In m' (ec_members c) -> snd m = KStr (fst m') -> snd m' = m) ->
    rbind (lf_prim (enum_type R c true) (enum_member c m)) (lf_native (enum_type R c true)) = Ok (enum_member c m).
Proof. exact enum_round_value. Qed.
Print Assumptions C59_values_round_trip.

(** Without that proviso export and import give another member. *)
Theorem C59_values_round_trip_refuted :
  exists c m, good_class c /\ is_member c m /\ forall R,
    exists w, rbind (lf_prim (enum_type R c true) (enum_member c m)) (lf_native (enum_type R c true)) = Ok w /\ w <> enum_member c m.
Proof. exact enum_value_lost. Qed.
Print Assumptions C59_values_round_trip_refuted.

Theorem C59_accepts_exactly_members_names_and_values :
  forall R c uv v, good_class c ->
    (exists w, lf_native (enum_type R c uv) v = Ok w) <->
    (exists n x, v = VEnum (ec_id c) n x) \/ (exists s m, v = VStr s /\ In (s, m) (ec_members c)) \/
    (uv = true /\ exists m, is_member c m /\ atom_eq (key_val (snd m)) v = true).
Proof. exact (fun R => enum_accepts). Qed.
Print Assumptions C59_accepts_exactly_members_names_and_values.

Theorem C59_names_and_aliases_denote_their_member :
  forall R c uv x m, good_class c -> In (x, m) (ec_members c) -> lf_native (enum_type R c uv) (VStr x) = Ok (enum_member c m).
Proof. exact (fun R => by_alias). Qed.
Print Assumptions C59_names_and_aliases_denote_their_member.

Theorem C59_result_is_a_member :
  forall R c uv v w, good_class c -> lf_native (enum_type R c uv) v = Ok w -> w = v \/ exists m, is_member c m /\ w = enum_member c m.
Proof. exact (fun R => result_member). Qed.
Print Assumptions C59_result_is_a_member.

Example C59_case : good_class color /\ is_member color (u "RED", KInt 1) /\
  lf_native (enum_type rt0 color false) (VStr (u "CRIMSON")) = Ok (VEnum 7 (u "RED") (KInt 1)) /\
  lf_native (enum_type rt0 color true) (VStr (u "g")) = Ok (VEnum 7 (u "GREEN") (k "g")) /\
  lf_native (enum_type rt0 color false) (VStr (u "g")) = Raise (XConv [u "convert"]).
Proof. split; [exact color_good|]. repeat split. cbn. auto. Qed.

(** ** C60: failures of conversion are reported as conversion or validation errors *)
Theorem C60_errors_of_conversion :
  forall R l v e, basic_leaf R l -> lf_native l v = Raise e ->
    field_error e \/ (exists strict s, l = int_type R strict /\ v = VFloat (S754_infinity s) /\ e = XPy EOverflowError) \/
  (exists z, l = float_type R /\ v = VInt z /\ float_of_int z = Raise (XPy EOverflowError) /\ e = XPy EOverflowError) \/
  (l = uuid_type R /\ (forall s, v <> VStr s) /\ e = XPy EAttributeError).
Proof. exact basic_errors. Qed.
Print Assumptions C60_errors_of_conversion.

Theorem C60_only_field_errors_refuted :
  forall R, exists l v e, basic_leaf R l /\ lf_native l v = Raise e /\ ~ field_error e.
Proof. exact errors_escape. Qed.
Print Assumptions C60_only_field_errors_refuted.

Theorem C60_infinity_is_not_caught : forall R strict s, lf_native (int_type R strict) (VFloat (S754_infinity s)) = Raise (XPy EOverflowError).
Proof. exact int_overflow. Qed.
Print Assumptions C60_infinity_is_not_caught.

Theorem C60_huge_integers_are_not_caught : exists z, forall R, lf_native (float_type R) (VInt z) = Raise (XPy EOverflowError).
Proof. exact float_overflow. Qed.
Print Assumptions C60_huge_integers_are_not_caught.

Example C60_case : lf_native (uuid_type rt0) (VInt 5) = Raise (XPy EAttributeError) /\
  lf_native (uuid_type rt0) (VStr (u "x")) = Raise (XConv [u "convert"]).
Proof. split; reflexivity. Qed.
