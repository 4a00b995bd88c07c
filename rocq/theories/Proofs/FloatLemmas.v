(** Rounding of the floats of the standard library: the error is at most half a unit in the last place, and numbers that
    can be represented are exact. *)
From Coq Require Import QArith Qpower Lqa ZArith Lia Bool Floats.SpecFloat.

Definition pw (e : Z) : Q := (2 # 1) ^ e.
Lemma pw_pos e : 0 < pw e.
Proof. apply Qpower_0_lt. reflexivity. Qed.
Lemma pw_add a b : pw (a + b) == pw a * pw b.
Proof. apply Qpower_plus. discriminate. Qed.
Lemma pw_Z n : (0 <= n)%Z -> pw n == inject_Z (2 ^ n).
Proof. intros H. symmetry. now apply Zpower_Qpower. Qed.
Lemma pw_1 e : pw (e + 1) == pw e * 2.
Proof. rewrite pw_add. reflexivity. Qed.
Lemma pw_le a b : (a <= b)%Z -> pw a <= pw b.
Proof.
  intros H. replace b with (a + (b - a))%Z by lia. rewrite pw_add. pose proof (pw_pos a) as P.
  assert (1 <= pw (b - a)).
  { rewrite pw_Z by lia. change 1 with (inject_Z 1). rewrite <- Zle_Qle. apply Z.lt_pred_le. apply Z.pow_pos_nonneg; lia. }
  rewrite <- (Qmult_1_r (pw a)) at 1. apply Qmult_le_l; assumption.
Qed.

(** ** Digits *)
Lemma digits2_bound p : (2 ^ (Zpos (digits2_pos p) - 1) <= Zpos p < 2 ^ Zpos (digits2_pos p))%Z.
Proof.
  induction p as [p IH|p IH|]; cbn [digits2_pos]; [| |cbn; lia].
  - rewrite Pos2Z.inj_succ. unfold Z.succ. replace (Z.pos (digits2_pos p) + 1 - 1)%Z with (1 + (Z.pos (digits2_pos p) - 1))%Z by lia.
    rewrite Z.pow_add_r, Z.pow_add_r by lia. change (2 ^ 1)%Z with 2%Z. rewrite (Pos2Z.inj_xI p). lia.
  - rewrite Pos2Z.inj_succ. unfold Z.succ. replace (Z.pos (digits2_pos p) + 1 - 1)%Z with (1 + (Z.pos (digits2_pos p) - 1))%Z by lia.
    rewrite Z.pow_add_r, Z.pow_add_r by lia. change (2 ^ 1)%Z with 2%Z. rewrite (Pos2Z.inj_xO p). lia.
Qed.
Lemma zdigits_bound m : (0 < m)%Z -> (2 ^ (Zdigits2 m - 1) <= m < 2 ^ Zdigits2 m)%Z.
Proof. intros H. destruct m as [|p|p]; [lia| |lia]. apply digits2_bound. Qed.
Lemma zdigits_nonneg m : (0 <= Zdigits2 m)%Z.
Proof. destruct m; cbn; lia. Qed.
Lemma zdigits_le m k : (0 <= m < 2 ^ k)%Z -> (0 <= k)%Z -> (Zdigits2 m <= k)%Z.
Proof.
  intros [H0 H] Hk. destruct (Z.eq_dec m 0) as [->|N]; [cbn; lia|]. destruct (zdigits_bound m) as [L _]; [lia|].
  destruct (Z_le_gt_dec (Zdigits2 m) k); [assumption|exfalso]. assert (2 ^ k <= 2 ^ (Zdigits2 m - 1))%Z by (apply Z.pow_le_mono_r; lia). lia.
Qed.

(** ** Locations *)
Lemma conj_split (A B : Prop) : A /\ B -> A /\ B.
Proof. auto. Qed.
Definition phase (r s : bool) (f : Q) : Prop :=
  match r, s with
  | false, false => f == 0
  | false, true => 0 < f /\ f < 1 # 2
  | true, false => f == 1 # 2
  | true, true => 1 # 2 < f /\ f < 1
  end.
Definition rep (x : Q) (a : shr_record) (e : Z) : Prop :=
  (0 <= shr_m a)%Z /\ exists f, phase (shr_r a) (shr_s a) f /\ x == (inject_Z (shr_m a) + f) * pw e.
Lemma phase_bound r s f : phase r s f -> 0 <= f /\ f < 1.
Proof. destruct r, s; cbn; intros H; try (apply conj_split in H as (? & ?)); split; lra. Qed.

Lemma shr_1_rep x a e : rep x a e -> rep x (shr_1 a) (e + 1) /\ shr_m (shr_1 a) = (shr_m a / 2)%Z.
Proof.
  destruct a as [m r s]. intros [H0 (f & Hf & E)]. cbn [shr_m shr_r shr_s] in *.
  assert (K : forall (b : bool) q, m = (2 * q + Z.b2z b)%Z -> (0 <= q)%Z ->
    rep x (Build_shr_record q b (orb r s)) (e + 1) /\ q = (m / 2)%Z).
  { intros b q -> Hq. split.
    - split; [exact Hq|]. exists (((if b then 1 else 0) + f) * (1 # 2)). cbn [shr_m shr_r shr_s]. split.
      + destruct b, r, s; cbn [phase orb] in Hf |- *; try (apply conj_split in Hf as (? & ?)); try apply conj_split; try split; lra.
      + rewrite E, pw_1, inject_Z_plus, inject_Z_mult. change (inject_Z 2) with 2. destruct b; [change (inject_Z (Z.b2z true)) with 1|change (inject_Z (Z.b2z false)) with 0]; field.
    - rewrite Z.add_comm, Z.mul_comm, Z.div_add by lia. destruct b; reflexivity. }
  destruct m as [|[p|p|]|p]; cbn [shr_1 shr_m]; [apply (K false)|apply (K true)|apply (K false)|apply (K true)|lia]; cbn [Z.b2z]; lia.
Qed.
Lemma iter_rep x p : forall a e, rep x a e ->
  rep x (iter_pos shr_1 p a) (e + Zpos p) /\ shr_m (iter_pos shr_1 p a) = (shr_m a / 2 ^ Zpos p)%Z.
Proof.
  induction p as [p IH|p IH|]; intros a e H; cbn [iter_pos].
  - destruct (shr_1_rep _ _ _ H) as [H1 E1]. destruct (IH _ _ H1) as [H2 E2]. destruct (IH _ _ H2) as [H3 E3]. split.
    + replace (e + Z.pos p~1)%Z with (e + 1 + Z.pos p + Z.pos p)%Z by lia. assumption.
    + rewrite E3, E2, E1, !Z.div_div by (try apply Z.pow_nonzero; try apply Z.pow_pos_nonneg; lia). f_equal.
      replace (Z.pos p~1) with (1 + Z.pos p + Z.pos p)%Z by lia. rewrite !Z.pow_add_r by lia. lia.
  - destruct (IH _ _ H) as [H2 E2]. destruct (IH _ _ H2) as [H3 E3]. split.
    + replace (e + Z.pos p~0)%Z with (e + Z.pos p + Z.pos p)%Z by lia. assumption.
    + rewrite E3, E2, !Z.div_div by (try apply Z.pow_nonzero; try apply Z.pow_pos_nonneg; lia). f_equal.
      replace (Z.pos p~0) with (Z.pos p + Z.pos p)%Z by lia. rewrite !Z.pow_add_r by lia. lia.
  - apply shr_1_rep. assumption.
Qed.
Lemma shr_rep x a e n : rep x a e ->
  rep x (fst (shr a e n)) (e + Z.max 0 n) /\ shr_m (fst (shr a e n)) = (shr_m a / 2 ^ (Z.max 0 n))%Z /\ snd (shr a e n) = (e + Z.max 0 n)%Z.
Proof.
  intros H. destruct n as [|p|p]; cbn [shr fst snd].
  - rewrite Z.add_0_r, Z.div_1_r. auto.
  - change (Z.max 0 (Z.pos p)) with (Z.pos p). destruct (iter_rep x p a e H). auto.
  - change (Z.max 0 (Z.neg p)) with 0%Z. rewrite Z.add_0_r, Z.div_1_r. auto.
Qed.

(** Rounding to the nearest integer. *)
Lemma rne_ok m a f : shr_m a = m -> phase (shr_r a) (shr_s a) f ->
  let k := round_nearest_even m (loc_of_shr_record a) in
  (m <= k <= m + 1)%Z /\ inject_Z k - (inject_Z m + f) <= 1 # 2 /\ (inject_Z m + f) - inject_Z k <= 1 # 2 /\ (f == 0 -> k = m).
Proof.
  intros <- H. destruct a as [m [] []]; cbn in H |- *.
  - destruct H. rewrite inject_Z_plus. change (inject_Z 1) with 1. split; [lia|]. split; [lra|]. split; [lra|]. intros F. lra.
  - destruct (Z.even m).
    + split; [lia|]. split; [lra|]. split; [lra|]. auto.
    + rewrite inject_Z_plus. change (inject_Z 1) with 1. split; [lia|]. split; [lra|]. split; [lra|]. intros F. lra.
  - destruct H. split; [lia|]. split; [lra|]. split; [lra|]. auto.
  - split; [lia|]. split; [lra|]. split; [lra|]. auto.
Qed.

(** ** Rounding of binary64 *)
Notation prec := 53%Z.
Notation emax := 1024%Z.
(** The exponent of the result (before a carry). *)
Definition ulp_exp (m e : Z) : Z := Z.max e (fexp prec emax (Zdigits2 m + e)).
(** The float has the given sign, and this magnitude. *)
Definition magnitude (sx : bool) (f : spec_float) (q : Q) : Prop :=
  (f = S754_zero sx /\ q == 0) \/ exists m e, f = S754_finite sx m e /\ q == inject_Z (Zpos m) * pw e.

Lemma int_frac j m f : inject_Z j == inject_Z m + f -> 0 <= f -> f < 1 -> j = m /\ f == 0.
Proof.
  intros E F0 F1. assert (Ej : (j = m)%Z).
  { assert (A : inject_Z m <= inject_Z j) by lra. assert (B : inject_Z j < inject_Z (m + 1)) by (rewrite inject_Z_plus; change (inject_Z 1) with 1; lra).
    rewrite <- Zle_Qle in A. rewrite <- Zlt_Qlt in B. lia. }
  split; [assumption|]. subst. lra.
Qed.
Lemma cancel_pw a b e : a * pw e == b * pw e -> a == b.
Proof. intros H. apply Qmult_inj_r with (pw e); [|assumption]. pose proof (pw_pos e). lra. Qed.

Theorem round_aux_ok sx m e l x :
  rep x (shr_record_of_loc m l) e -> (0 <= m)%Z -> (ulp_exp m e < 970)%Z ->
  exists k, magnitude sx (binary_round_aux prec emax sx m e l) (inject_Z k * pw (ulp_exp m e)) /\ (0 <= k)%Z /\
    inject_Z k * pw (ulp_exp m e) - x <= pw (ulp_exp m e) / 2 /\ x - inject_Z k * pw (ulp_exp m e) <= pw (ulp_exp m e) / 2 /\
    forall j, x == inject_Z j * pw (ulp_exp m e) -> k = j.
Proof.
  intros Hr Hm Hu. unfold binary_round_aux, shr_fexp at 1.
  destruct (shr_rep x _ e (fexp prec emax (Zdigits2 m + e) - e) Hr) as (H1 & M1 & E1).
  destruct (shr _ e (fexp prec emax (Zdigits2 m + e) - e)) as [a e1]. cbn [fst snd] in *.
  assert (Em : shr_m (shr_record_of_loc m l) = m) by (destruct l as [|[]]; reflexivity). rewrite Em in M1.
  assert (Eu : e1 = ulp_exp m e) by (unfold ulp_exp; lia). rewrite <- E1 in H1. clear E1. subst e1.
  set (E := ulp_exp m e) in *.
  destruct H1 as [Ha (f & Hf & Ex)]. destruct (phase_bound _ _ _ Hf) as [F0 F1].
  assert (Hb : (shr_m a < 2 ^ 53)%Z).
  { rewrite M1. destruct (Z.eq_dec m 0) as [->|N]; [rewrite Z.div_0_l by (apply Z.pow_nonzero; lia); reflexivity|].
    pose proof (zdigits_bound m ltac:(lia)) as [_ B]. apply Z.div_lt_upper_bound; [apply Z.pow_pos_nonneg; lia|].
    rewrite <- Z.pow_add_r by lia. eapply Z.lt_le_trans; [exact B|]. apply Z.pow_le_mono_r; [lia|]. unfold fexp. lia. }
  destruct (rne_ok (shr_m a) a f eq_refl Hf) as (K1 & K2 & K3 & K4).
  set (k := round_nearest_even (shr_m a) (loc_of_shr_record a)) in *. exists k.
  assert (Hk0 : (0 <= k)%Z) by lia. assert (Hk1 : (k <= 2 ^ 53)%Z) by lia.
  assert (Emin : (-1074 <= E)%Z) by (unfold E, ulp_exp, fexp, emin; lia).
  split; [|split; [assumption|]].
  - clearbody k. clear K1 K2 K3 K4. unfold shr_fexp. cbn [shr_record_of_loc].
    assert (R2 : rep (inject_Z k * pw E) (Build_shr_record k false false) E).
    { split; [assumption|]. exists 0. split; [reflexivity|]. cbn [shr_m]. rewrite Qplus_0_r. reflexivity. }
    destruct (shr_rep _ _ E (fexp prec emax (Zdigits2 k + E) - E) R2) as (H2 & M2 & E2).
    destruct (shr _ E _) as [b e2]. cbn [fst snd shr_m] in *. rewrite <- E2 in H2.
    destruct (Z.eq_dec k 0) as [->|Nk].
    + rewrite Z.div_0_l in M2 by (apply Z.pow_nonzero; lia). rewrite M2. left. split; [reflexivity|]. change (inject_Z 0) with 0. lra.
    + assert (Hd : (Zdigits2 k <= 53 \/ (k = 2 ^ 53 /\ Zdigits2 k = 54))%Z).
      { destruct (Z.eq_dec k (2 ^ 53)) as [->|]; [right; split; reflexivity|]. left. apply zdigits_le; lia. }
      assert (D1 : (1 <= Zdigits2 k)%Z) by (destruct k; cbn in *; lia).
      assert (X : shr_m b = k /\ e2 = E \/ shr_m b = (2 ^ 52)%Z /\ e2 = (E + 1)%Z /\ k = (2 ^ 53)%Z).
      { destruct Hd as [Hd|[-> Hd]].
        - left. assert (Hz : Z.max 0 (fexp 53 1024 (Zdigits2 k + E) - E) = 0%Z) by (unfold fexp, emin; lia).
          rewrite Hz in *. rewrite Z.div_1_r in M2. rewrite M2, E2. lia.
        - right. rewrite Hd in *. assert (Hz : Z.max 0 (fexp 53 1024 (54 + E) - E) = 1%Z) by (unfold fexp, emin; lia).
          rewrite Hz in *. rewrite M2, E2. repeat split. }
      assert (V : inject_Z k * pw E == inject_Z (shr_m b) * pw e2).
      { destruct X as [[-> ->]|(-> & -> & ->)]; [reflexivity|]. rewrite pw_1. change (2 ^ 53)%Z with (2 ^ 52 * 2)%Z. rewrite inject_Z_mult. change (inject_Z 2) with 2. ring. }
      destruct (shr_m b) as [|p|p] eqn:Eb.
      * exfalso. destruct X as [[X _]|(X & _)]; [lia|discriminate].
      * right. exists p, e2. split; [|assumption].
        assert (Le : (e2 <= 970)%Z) by lia.
        change (1024 - 53)%Z with 971%Z. destruct (Z.leb_spec e2 971); [reflexivity|lia].
      * exfalso. destruct X as [[X _]|(X & _)]; [lia|discriminate].
  - pose proof (pw_pos E) as P. rewrite Ex. split; [|split].
    + setoid_replace (inject_Z k * pw E - (inject_Z (shr_m a) + f) * pw E) with ((inject_Z k - (inject_Z (shr_m a) + f)) * pw E) by ring.
      setoid_replace (pw E / 2) with ((1 # 2) * pw E) by field. apply Qmult_le_compat_r; lra.
    + setoid_replace ((inject_Z (shr_m a) + f) * pw E - inject_Z k * pw E) with (((inject_Z (shr_m a) + f) - inject_Z k) * pw E) by ring.
      setoid_replace (pw E / 2) with ((1 # 2) * pw E) by field. apply Qmult_le_compat_r; lra.
    + intros j Hj. rewrite Ex in Hj. apply cancel_pw in Hj. symmetry in Hj. destruct (int_frac j (shr_m a) f Hj F0 F1) as [-> Fz]. auto.
Qed.
(** The exponent, from a bound of the number. *)
Lemma ulp_le m e x b : (0 <= m)%Z -> inject_Z m * pw e <= x -> x < pw b -> (-1021 <= b)%Z -> (e <= b - 53)%Z -> (ulp_exp m e <= b - 53)%Z.
Proof.
  intros Hm Hx Hb Hb2 He. unfold ulp_exp, fexp, emin. destruct (Z.eq_dec m 0) as [->|N]; [cbn; lia|].
  destruct (zdigits_bound m ltac:(lia)) as [L _].
  assert (Zdigits2 m + e <= b)%Z; [|lia]. destruct (Z_le_gt_dec (Zdigits2 m + e) b) as [|G]; [assumption|exfalso].
  assert (A : pw (Zdigits2 m - 1 + e) <= inject_Z m * pw e).
  { rewrite pw_add. apply Qmult_le_compat_r; [|pose proof (pw_pos e); lra].
    assert (D1 : (0 <= Zdigits2 m - 1)%Z) by (destruct m as [|p|p]; [lia|cbn [Zdigits2]; lia|lia]).
    pose proof (pw_Z (Zdigits2 m - 1) D1) as Pz. rewrite Zle_Qle in L.
    lra. }
  pose proof (pw_le b (Zdigits2 m - 1 + e) ltac:(lia)). lra.
Qed.
