(** Specification of the leaf types. *)
From Coq Require Import QArith Qpower.
From Verif.Model Require Import Py Core Text Types.
From Verif.Spec Require Import TextSpec.

(** The rational number a value denotes (bool is a number; infinities and NaN denote none). *)
Inductive value_of : pyval -> Q -> Prop :=
| vo_bool (b : bool) : value_of (VBool b) (if b then 1 else 0)
| vo_int z : value_of (VInt z) (inject_Z z)
| vo_zero s : value_of (VFloat (S754_zero s)) 0
| vo_float (s : bool) m e : value_of (VFloat (S754_finite s m e)) (inject_Z (if s then Zneg m else Zpos m) * (2 # 1) ^ e)
| vo_decimal c e : value_of (VDecimal c e) (inject_Z c * (10 # 1) ^ e).

(** Errors meant for the user: conversion and validation errors. *)
Definition field_error (e : exn) : Prop := exists ms, e = XConv ms \/ e = XValid false ms \/ e = XValid true ms.

(** The non-compound types of the library with an unambiguous conversion (options as parameters). *)
Inductive basic_leaf (R : runtime) : leaf -> Prop :=
| bl_string : basic_leaf R string_leaf
| bl_int strict : basic_leaf R (int_type R strict)
| bl_float : basic_leaf R (float_type R)
| bl_decimal : basic_leaf R (decimal_type R)
| bl_hash n : basic_leaf R (hash_type R n)
| bl_bool : basic_leaf R bool_type
| bl_uuid : basic_leaf R (uuid_type R)
| bl_geo : basic_leaf R geo_type
| bl_multi a b : basic_leaf R (multi_type a b).

(** The spellings of booleans. *)
Definition says (b : bool) (v : pyval) : Prop :=
  v = VBool b \/ v = VInt (if b then 1 else 0) \/
  exists s, v = VStr s /\ In s (if b then [u "True"; u "true"; u "1"] else [u "False"; u "false"; u "0"]).

(** The two numbers of a point, in the order written. *)
Inductive point : pyval -> pyval -> pyval -> Prop :=
| pt_list x y : point (VList [x; y]) x y
| pt_tuple x y : point (VTuple [x; y]) x y
| pt_dict k1 k2 x y : point (VDict [(k1, x); (k2, y)]) x y.
Inductive real_number : pyval -> Prop :=
| rn_bool b : real_number (VBool b)
| rn_int z : real_number (VInt z)
| rn_float f : real_number (VFloat f).

(** Text of a localized entry. *)
Inductive text_of : pyval -> pstr -> Prop :=
| to_str s : text_of (VStr s) s
| to_bytes b s : utf8_encode s = Some b -> text_of (VBytes b) s
| to_int z : text_of (VInt z) (dec_text z)
| to_true : text_of (VBool true) (u "True")
| to_false : text_of (VBool false) (u "False").

(** The locale names a setting asks for; an empty text asks for none. *)
Definition requested (l : locales) : list key :=
  match l with LNone => [] | LOne [] => [] | LOne s => [KStr s] | LMany l => l end.

(** Localized entries as they should be: names and values are text, a value may be missing. *)
Definition localized (d : list (key * pyval)) : Prop :=
  forall x v, In (x, v) d -> (exists n, x = KStr n) /\ (v = VNone \/ exists s, v = VStr s).
(** The number of characters of an entry. *)
Inductive characters : pyval -> Z -> Prop :=
| ch_none : characters VNone 0
| ch_text s : characters (VStr s) (Z.of_nat (length s)).
Definition bounded (lo hi : option Z) (n : Z) : Prop :=
  (forall m, lo = Some m -> (m <= n)%Z) /\ (forall m, hi = Some m -> (n <= m)%Z).

(** Names the default pattern for locales accepts: en, en_US, and also en:_US; a final newline is not noticed. *)
Definition lower_letter (c : N) : Prop := (97 <= c <= 122)%N.
Definition upper_letter (c : N) : Prop := (65 <= c <= 90)%N.
Inductive locale_name : pstr -> Prop :=
| ln_language a b : lower_letter a -> lower_letter b -> locale_name [a; b]
| ln_country a b x y : lower_letter a -> lower_letter b -> upper_letter x -> upper_letter y -> locale_name [a; b; 95%N; x; y]
| ln_colon a b x y : lower_letter a -> lower_letter b -> upper_letter x -> upper_letter y -> locale_name [a; b; 58%N; 95%N; x; y].
