(** Float and Decimal fields. *)
From Coq Require Import QArith Qabs Lqa.
From Verif.Model Require Import Py Core Num Text Types.
From Verif.Spec Require Import TextSpec TypeSpec FloatSpec NumberSpec.
From Verif.Proofs Require Import FloatLemmas FloatNearest FloatDecimal NumberText.

Lemma float_field_text R s f : lf_native (float_type R) (VStr s) = Ok (VFloat f) <-> float_reads (rt_uni R) s f.
Proof.
  rewrite <- float_text_iff. cbn. destruct (float_text (rt_uni R) s) as [g|]; cbn; unfold conv_err; split; intros K; try congruence; discriminate K.
Qed.
Lemma float_field_refuses R s : (forall f, ~ float_reads (rt_uni R) s f) -> lf_native (float_type R) (VStr s) = Raise (XConv [u "number_coerce"]).
Proof.
  intros H. cbn. destruct (float_text (rt_uni R) s) as [g|] eqn:E; [|reflexivity]. apply float_text_iff in E. now apply H in E.
Qed.
Lemma float_field_bytes R s f : lf_native (float_type R) (VBytes s) = Ok (VFloat f) <-> float_reads ascii_only s f.
Proof. rewrite <- float_bytes_iff. cbn. destruct (float_ascii s) as [g|]; cbn; unfold conv_err; split; intros K; try congruence; discriminate K. Qed.
Lemma float_field_bytes_refused R s : (forall f, ~ float_reads ascii_only s f) -> lf_native (float_type R) (VBytes s) = Raise (XConv [u "number_coerce"]).
Proof. intros H. cbn. destruct (float_ascii s) as [g|] eqn:E; [|reflexivity]. apply float_bytes_iff in E. now apply H in E. Qed.
Lemma float_field_int R z : inject_Z (Z.abs z) < too_large ->
  exists f, lf_native (float_type R) (VInt z) = Ok (VFloat f) /\ nearest (inject_Z (Z.abs z)) (z <? 0)%Z f.
Proof.
  intros H. pose proof (float_of_int_nearest z) as K. cbn. destruct (float_of_int z) as [f|e]; cbn; [exists f; now split|]. destruct K as [_ K]. lra.
Qed.
Lemma float_field_large R z : too_large <= inject_Z (Z.abs z) -> lf_native (float_type R) (VInt z) = Raise (XPy EOverflowError).
Proof.
  intros H. pose proof (float_of_int_nearest z) as K. cbn. destruct (float_of_int z) as [f|e]; cbn; [destruct K as [_ K]; lra|]. now destruct K as [-> _].
Qed.
(** A number that a float holds is read without change. *)
Lemma nearest_exact x neg f : double x -> x < too_large -> nearest x neg f -> exists q, value_of (VFloat f) q /\ q == (if neg then - x else x).
Proof.
  intros D L N.
  assert (Z : forall y m, nearest_number x y m -> x == y).
  { intros y m K. destruct (K x D) as [A _]. assert (B : Qabs (x - x) == 0) by (setoid_replace (x - x) with 0 by ring; reflexivity).
    rewrite B in A. assert (E : x - y == 0); [|lra]. revert A. apply Qabs_case; intros; lra. }
  destruct N as [K|m e C K _|K]; [| |lra].
  - apply Z in K. eexists. split; [constructor|]. destruct neg; lra.
  - apply Z in K. eexists. split; [constructor|]. destruct neg; [|now symmetry]. rewrite K.
    setoid_replace (inject_Z (Zneg m)) with (- inject_Z (Zpos m)) by reflexivity. ring.
Qed.
Lemma small_double z : (Z.abs z <= 2 ^ 53)%Z -> double (inject_Z (Z.abs z)) /\ inject_Z (Z.abs z) < too_large.
Proof.
  intros H. split.
  - destruct (Z.eq_dec (Z.abs z) (2 ^ 53)) as [E|E].
    + rewrite E. exists (2 ^ 52)%Z, 1%Z. split; [reflexivity|]. lia.
    + exists (Z.abs z), 0%Z. split; [change ((2 # 1) ^ 0) with 1; ring|]. lia.
  - apply Qle_lt_trans with (inject_Z (2 ^ 53)); [now rewrite <- Zle_Qle|]. vm_compute. reflexivity.
Qed.
Lemma float_field_exact R z : (Z.abs z <= 2 ^ 53)%Z ->
  exists f q, lf_native (float_type R) (VInt z) = Ok (VFloat f) /\ value_of (VFloat f) q /\ q == inject_Z z.
Proof.
  intros H. destruct (small_double z H) as [D L]. destruct (float_field_int R z L) as (f & E & N).
  destruct (nearest_exact _ _ _ D L N) as (q & V & Q). exists f, q. split; [exact E|]. split; [exact V|]. rewrite Q.
  destruct (Z.ltb_spec z 0) as [K|K].
  - rewrite Z.abs_neq by lia. rewrite inject_Z_opp. ring.
  - rewrite Z.abs_eq by lia. reflexivity.
Qed.
Lemma float_field_decimal R c e : exists f, lf_native (float_type R) (VDecimal c e) = Ok (VFloat f) /\ nearest (written (Z.abs_N c) e) (c <? 0)%Z f.
Proof. eexists. split; [reflexivity|]. apply float_of_dec_nearest. Qed.
Lemma float_field_bool R b : lf_native (float_type R) (VBool b) = lf_native (float_type R) (VInt (if b then 1 else 0)).
Proof. reflexivity. Qed.
Lemma float_field_others R v : (forall s, v <> VStr s) -> (forall s, v <> VBytes s) -> (forall f, v <> VFloat f) -> (forall q, ~ value_of v q) ->
  lf_native (float_type R) v = Raise (XConv [u "number_coerce"]).
Proof.
  intros H1 H2 H3 H4. destruct v; try reflexivity; exfalso;
    first [exact (H1 _ eq_refl)|exact (H2 _ eq_refl)|exact (H3 _ eq_refl)|exact (H4 _ (vo_bool _))|exact (H4 _ (vo_int _))|exact (H4 _ (vo_decimal _ _))].
Qed.
Lemma float_result R v w : lf_native (float_type R) v = Ok w -> exists f, w = VFloat f.
Proof.
  cbn. unfold float_native. destruct v; cbn; try discriminate; try (intros [= <-]; eauto; fail).
  - destruct b; intros [= <-]; eauto.
  - destruct (float_of_int z); cbn; [|discriminate]. intros [= <-]; eauto.
  - destruct (float_text (rt_uni R) s); cbn; [|discriminate]. intros [= <-]; eauto.
  - destruct (float_ascii s); cbn; [|discriminate]. intros [= <-]; eauto.
Qed.

(** ** Decimals *)
Lemma decimal_field_text R s c e : lf_native (decimal_type R) (VStr s) = Ok (VDecimal c e) <-> decimal_number (rt_uni R) s c e.
Proof.
  rewrite <- decimal_text_finite. cbn. destruct (decimal_text (rt_uni R) s) as [[c' e'|]|]; unfold conv_err; split; intros K; try congruence; discriminate K.
Qed.
Lemma decimal_field_special R s : lf_native (decimal_type R) (VStr s) = Ok (VObj 0) <-> decimal_special (rt_uni R) s.
Proof.
  rewrite <- decimal_text_special. cbn. destruct (decimal_text (rt_uni R) s) as [[c' e'|]|]; unfold conv_err; split; intros K; try congruence; discriminate K.
Qed.
Lemma decimal_field_refuses R s : (forall c e, ~ decimal_number (rt_uni R) s c e) -> ~ decimal_special (rt_uni R) s ->
  lf_native (decimal_type R) (VStr s) = Raise (XConv [u "number_coerce"]).
Proof.
  intros H1 H2. cbn. destruct (decimal_text (rt_uni R) s) as [[c' e'|]|] eqn:E; [|..|reflexivity].
  - apply decimal_text_finite in E. now apply H1 in E.
  - now apply decimal_text_special in E.
Qed.
Lemma decimal_unique U s c e c' e' : decimal_number U s c e -> decimal_number U s c' e' -> c = c' /\ e = e'.
Proof. rewrite <- !decimal_text_finite. intros -> [= -> ->]. auto. Qed.
Lemma float_unique U s f g : float_reads U s f -> float_reads U s g -> f = g.
Proof. rewrite <- !float_text_iff. intros -> [= ->]. auto. Qed.
