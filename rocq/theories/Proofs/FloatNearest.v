(** Rounding gives the nearest float. *)
From Coq Require Import QArith Qabs Qpower Lqa ZArith Lia Bool Floats.SpecFloat.
From Verif.Spec Require Import FloatSpec.
From Verif.Proofs Require Import FloatLemmas.

Lemma rne_even a f : phase (shr_r a) (shr_s a) f ->
  let k := round_nearest_even (shr_m a) (loc_of_shr_record a) in
  (inject_Z k - (inject_Z (shr_m a) + f) == 1 # 2 \/ (inject_Z (shr_m a) + f) - inject_Z k == 1 # 2) -> Z.even k = true.
Proof.
  intros H. destruct a as [m [] []]; cbn in H |- *.
  - destruct H. rewrite inject_Z_plus. change (inject_Z 1) with 1. intros [K|K]; exfalso; lra.
  - destruct (Z.even m) eqn:Ev; intros _; [exact Ev|]. rewrite Z.even_add, Ev. reflexivity.
  - destruct H. intros [K|K]; exfalso; lra.
  - intros [K|K]; exfalso; lra.
Qed.

Definition rounded (sx : bool) (k E : Z) : spec_float :=
  if (k =? 0)%Z then S754_zero sx
  else if (k =? 2 ^ 53)%Z then if (E + 1 <=? 971)%Z then S754_finite sx (2 ^ 52) (E + 1) else S754_infinity sx
  else if (E <=? 971)%Z then S754_finite sx (Z.to_pos k) E else S754_infinity sx.

Lemma digits_range m e x : (0 < m)%Z -> inject_Z m * pw e <= x -> x < (inject_Z m + 1) * pw e ->
  pw (Zdigits2 m + e - 1) <= x /\ x < pw (Zdigits2 m + e).
Proof.
  intros Hm L U. destruct (zdigits_bound m Hm) as [B1 B2]. pose proof (pw_pos e) as P.
  assert (D1 : (0 <= Zdigits2 m - 1)%Z) by (destruct m as [|p|p]; [lia|cbn [Zdigits2]; lia|lia]).
  split.
  - replace (Zdigits2 m + e - 1)%Z with (Zdigits2 m - 1 + e)%Z by lia. rewrite pw_add. eapply Qle_trans; [|exact L].
    apply Qmult_le_compat_r; [|lra]. rewrite pw_Z by assumption. now rewrite <- Zle_Qle.
  - rewrite pw_add. eapply Qlt_le_trans; [exact U|]. apply Qmult_le_compat_r; [|lra]. rewrite pw_Z by lia.
    change 1 with (inject_Z 1). rewrite <- inject_Z_plus, <- Zle_Qle. lia.
Qed.

Theorem round_full sx m e l x :
  rep x (shr_record_of_loc m l) e -> (0 <= m)%Z -> (e <= fexp prec emax (Zdigits2 m + e))%Z ->
  exists k E, binary_round_aux prec emax sx m e l = rounded sx k E /\ (0 <= k <= 2 ^ 53)%Z /\ (-1074 <= E)%Z /\
    inject_Z k * pw E - x <= (1 # 2) * pw E /\ x - inject_Z k * pw E <= (1 # 2) * pw E /\
    ((inject_Z k * pw E - x == (1 # 2) * pw E \/ x - inject_Z k * pw E == (1 # 2) * pw E) -> Z.even k = true) /\
    x < pw (53 + E) /\ (pw (52 + E) <= x \/ E = (-1074)%Z).
Proof.
  intros Hr Hm Hal.
  assert (Em : shr_m (shr_record_of_loc m l) = m) by (destruct l as [|[]]; reflexivity).
  assert (Bx : inject_Z m * pw e <= x /\ x < (inject_Z m + 1) * pw e).
  { destruct Hr as [_ (f & Hf & Ex)]. rewrite Em in Ex. destruct (phase_bound _ _ _ Hf) as [F0 F1]. pose proof (pw_pos e). rewrite Ex.
    split; [apply Qmult_le_compat_r; lra|]. apply Qmult_lt_r; lra. }
  unfold binary_round_aux, shr_fexp at 1.
  destruct (shr_rep x _ e (fexp prec emax (Zdigits2 m + e) - e) Hr) as (H1 & M1 & E1).
  destruct (shr _ e (fexp prec emax (Zdigits2 m + e) - e)) as [a e1]. cbn [fst snd] in *.
  rewrite Em in M1. set (E := fexp prec emax (Zdigits2 m + e)) in *.
  assert (Eu : e1 = E) by lia. rewrite <- E1 in H1. clear E1. subst e1.
  destruct H1 as [Ha (f & Hf & Ex)]. destruct (phase_bound _ _ _ Hf) as [F0 F1].
  assert (Hb : (shr_m a < 2 ^ 53)%Z).
  { rewrite M1. destruct (Z.eq_dec m 0) as [->|N]; [rewrite Z.div_0_l by (apply Z.pow_nonzero; lia); reflexivity|].
    pose proof (zdigits_bound m ltac:(lia)) as [_ B]. apply Z.div_lt_upper_bound; [apply Z.pow_pos_nonneg; lia|].
    rewrite <- Z.pow_add_r by lia. eapply Z.lt_le_trans; [exact B|]. apply Z.pow_le_mono_r; [lia|]. unfold E, fexp. lia. }
  destruct (rne_ok (shr_m a) a f eq_refl Hf) as (K1 & K2 & K3 & _).
  pose proof (rne_even a f Hf) as K4. cbn zeta in K4.
  set (k := round_nearest_even (shr_m a) (loc_of_shr_record a)) in *. exists k, E.
  assert (Hk0 : (0 <= k)%Z) by lia. assert (Hk1 : (k <= 2 ^ 53)%Z) by lia.
  assert (Emin : (-1074 <= E)%Z) by (unfold E, fexp, emin; lia).
  pose proof (pw_pos E) as P.
  split; [|split; [lia|split; [assumption|]]].
  - clearbody k. clear K1 K2 K3 K4. unfold shr_fexp. cbn [shr_record_of_loc].
    assert (R2 : rep (inject_Z k * pw E) (Build_shr_record k false false) E).
    { split; [assumption|]. exists 0. split; [reflexivity|]. cbn [shr_m]. rewrite Qplus_0_r. reflexivity. }
    destruct (shr_rep _ _ E (fexp prec emax (Zdigits2 k + E) - E) R2) as (_ & M2 & E2).
    destruct (shr _ E _) as [b e2]. cbn [fst snd shr_m] in *. unfold rounded.
    destruct (Z.eqb_spec k 0) as [->|Nk].
    + rewrite Z.div_0_l in M2 by (apply Z.pow_nonzero; lia). rewrite M2. reflexivity.
    + assert (D1 : (1 <= Zdigits2 k)%Z) by (destruct k; cbn in *; lia).
      destruct (Z.eqb_spec k (2 ^ 53)) as [->|N53].
      * assert (Hz : Z.max 0 (fexp 53 1024 (Zdigits2 (2 ^ 53) + E) - E) = 1%Z) by (change (Zdigits2 (2 ^ 53)) with 54%Z; unfold fexp, emin; lia).
        rewrite Hz in M2, E2. change (2 ^ 53 / 2 ^ 1)%Z with (2 ^ 52)%Z in M2. rewrite M2, E2. reflexivity.
      * assert (Hd : (Zdigits2 k <= 53)%Z) by (apply zdigits_le; lia).
        assert (Hz : Z.max 0 (fexp 53 1024 (Zdigits2 k + E) - E) = 0%Z) by (unfold fexp, emin; lia).
        rewrite Hz in M2, E2. rewrite Z.div_1_r in M2. rewrite Z.add_0_r in E2. rewrite M2, E2.
        destruct k as [|p|p]; [lia|reflexivity|lia].
  - rewrite Ex.
    assert (S1 : inject_Z k * pw E - (inject_Z (shr_m a) + f) * pw E == (inject_Z k - (inject_Z (shr_m a) + f)) * pw E) by ring.
    assert (S2 : (inject_Z (shr_m a) + f) * pw E - inject_Z k * pw E == ((inject_Z (shr_m a) + f) - inject_Z k) * pw E) by ring.
    rewrite S1, S2. split; [apply Qmult_le_compat_r; lra|]. split; [apply Qmult_le_compat_r; lra|]. split.
    + intros [T|T]; apply cancel_pw in T; apply K4; [left|right]; exact T.
    + rewrite <- Ex. destruct (Z.eq_dec m 0) as [->|Nm].
      * change (Zdigits2 0) with 0%Z in E. assert (HE : E = (-1074)%Z) by (unfold E, fexp, emin in *; lia).
        split; [|right; exact HE]. destruct Bx as [_ Bx]. change (inject_Z 0) with 0 in Bx.
        pose proof (pw_le e (53 + E) ltac:(unfold E, fexp, emin in *; lia)). lra.
      * destruct (digits_range m e x ltac:(lia) (proj1 Bx) (proj2 Bx)) as [L U].
        split; [pose proof (pw_le (Zdigits2 m + e) (53 + E) ltac:(unfold E, fexp; lia)); lra|].
        destruct (Z.eq_dec E (-1074)) as [->|NE]; [now right|left].
        assert (HE : E = (Zdigits2 m + e - 53)%Z) by (unfold E, fexp, emin in *; lia).
        replace (52 + E)%Z with (Zdigits2 m + e - 1)%Z by lia. exact L.
Qed.

(** ** From the rounded number to the specification *)
Lemma pw_2 e : pw e = (2 # 1) ^ e.
Proof. reflexivity. Qed.

Section Near.
  Context (k E : Z) (x : Q).
  Context (Hk : (0 <= k <= 2 ^ 53)%Z) (HE : (-1074 <= E)%Z).
  Context (H1 : inject_Z k * pw E - x <= (1 # 2) * pw E) (H2 : x - inject_Z k * pw E <= (1 # 2) * pw E).
  Context (Hev : (inject_Z k * pw E - x == (1 # 2) * pw E \/ x - inject_Z k * pw E == (1 # 2) * pw E) -> Z.even k = true).
  Context (Hlow : pw (52 + E) <= x \/ E = (-1074)%Z).
  Notation y := (inject_Z k * pw E).

  Lemma abs_y : Qabs (x - y) <= (1 # 2) * pw E.
  Proof using All. apply Qabs_Qle_condition. split; lra. Qed.
  Lemma abs_y_tie : Qabs (x - y) == (1 # 2) * pw E -> Z.even k = true.
  Proof using All.
    intros T. apply Hev. destruct (Qlt_le_dec (x - y) 0) as [L|L].
    - rewrite Qabs_neg in T by lra. left. lra.
    - rewrite Qabs_pos in T by lra. right. lra.
  Qed.

  Lemma multiple_far j : j <> k -> (1 # 2) * pw E <= Qabs (x - inject_Z j * pw E).
  Proof using All.
    intros N. pose proof (pw_pos E) as P. destruct (Z_lt_le_dec j k) as [L|L].
    - assert (inject_Z j * pw E <= y - pw E).
      { assert (Q1 : inject_Z j + 1 <= inject_Z k) by (change 1 with (inject_Z 1); rewrite <- inject_Z_plus, <- Zle_Qle; lia).
        setoid_replace (y - pw E) with ((inject_Z k - 1) * pw E) by ring. apply Qmult_le_compat_r; lra. }
      rewrite Qabs_pos; lra.
    - assert (y + pw E <= inject_Z j * pw E).
      { assert (Q1 : inject_Z k + 1 <= inject_Z j) by (change 1 with (inject_Z 1); rewrite <- inject_Z_plus, <- Zle_Qle; lia).
        setoid_replace (y + pw E) with ((inject_Z k + 1) * pw E) by ring. apply Qmult_le_compat_r; lra. }
      rewrite Qabs_neg; lra.
  Qed.
  Lemma multiple_ok j z : z == inject_Z j * pw E -> Qabs (x - y) <= Qabs (x - z) /\ (Qabs (x - z) == Qabs (x - y) -> z == y \/ Z.even k = true).
  Proof using All.
    intros Ez. rewrite Ez. destruct (Z.eq_dec j k) as [->|N]; [split; [apply Qle_refl|left; reflexivity]|].
    pose proof (multiple_far j N) as F. pose proof abs_y as A. split; [lra|]. intros T. right. apply abs_y_tie. lra.
  Qed.

  Lemma double_cases z : double z -> (exists j, z == inject_Z j * pw E) \/ (pw (52 + E) <= x /\ z < pw (52 + E)).
  Proof using All.
    intros (m & e & Ez & Hm & He). destruct (Z_le_gt_dec E e) as [L|L].
    - left. exists (m * 2 ^ (e - E))%Z. rewrite Ez, inject_Z_mult, <- pw_Z by lia. rewrite <- Qmult_assoc, <- pw_add.
      replace (e - E + E)%Z with e by lia. reflexivity.
    - right. destruct Hlow as [H|H]; [|lia]. split; [exact H|]. rewrite Ez.
      apply Qlt_le_trans with (inject_Z (2 ^ 53) * pw e).
      + apply Qmult_lt_r; [apply pw_pos|]. rewrite <- Zlt_Qlt. lia.
      + change (inject_Z (2 ^ 53)) with (pw 53). rewrite <- pw_add. apply pw_le. lia.
  Qed.

  Lemma near_number m y' : y' == y -> (Z.even k = true -> Z.even m = true) -> nearest_number x y' m.
  Proof using All.
    intros Ey Em z Hz. rewrite Ey. destruct (double_cases z Hz) as [[j Ej]|[Lx Lz]].
    - destruct (multiple_ok j z Ej) as [A B]. split; [exact A|]. intros T. destruct (B T); [left; assumption|right; auto].
    - assert (B : pw (52 + E) == inject_Z (2 ^ 52) * pw E) by (rewrite pw_add; reflexivity).
      destruct (multiple_ok (2 ^ 52) _ B) as [A _]. rewrite (Qabs_pos (x - pw (52 + E))) in A by lra.
      assert (Az : Qabs (x - z) == x - z) by (apply Qabs_pos; lra). rewrite Az. split; [lra|]. intros T. exfalso. lra.
  Qed.
  Lemma k_large : E <> (-1074)%Z -> (2 ^ 52 <= k)%Z.
  Proof using All.
    intros N. destruct Hlow as [L|L]; [|contradiction]. destruct (Z_le_gt_dec (2 ^ 52) k) as [|G]; [assumption|exfalso].
    assert (Q1 : inject_Z k + 1 <= inject_Z (2 ^ 52)) by (change 1 with (inject_Z 1); rewrite <- inject_Z_plus, <- Zle_Qle; lia).
    pose proof (pw_pos E) as P. rewrite pw_add in L. change (pw 52) with (inject_Z (2 ^ 52)) in L.
    assert (y + pw E <= inject_Z (2 ^ 52) * pw E).
    { setoid_replace (y + pw E) with ((inject_Z k + 1) * pw E) by ring. apply Qmult_le_compat_r; lra. }
    lra.
  Qed.
  Context (Hup : x < pw (53 + E)).
  Lemma large_low : (971 < E)%Z -> too_large <= x.
  Proof using All.
    intros L. destruct Hlow as [H|H]; [|lia]. eapply Qle_trans; [|exact H]. eapply Qle_trans; [|apply (pw_le 1024); lia].
    unfold too_large. change ((2 # 1) ^ 970) with (pw 970). replace 1024%Z with (54 + 970)%Z by reflexivity. rewrite (pw_add 54 970).
    apply Qmult_le_compat_r; [|pose proof (pw_pos 970); lra]. change (pw 54) with (inject_Z (2 ^ 54)). rewrite <- Zle_Qle. lia.
  Qed.
  Lemma too_large_971 : too_large == (inject_Z (2 ^ 53) - (1 # 2)) * pw 971.
  Proof using All.
    unfold too_large. change ((2 # 1) ^ 970) with (pw 970). replace 971%Z with (970 + 1)%Z by reflexivity. rewrite pw_1.
    setoid_replace ((inject_Z (2 ^ 53) - (1 # 2)) * (pw 970 * 2)) with ((2 * inject_Z (2 ^ 53) - 1) * pw 970) by ring. reflexivity.
  Qed.
  Lemma small_finite : (E < 971)%Z -> x < too_large.
  Proof using All.
    intros L. eapply Qlt_le_trans; [exact Hup|]. eapply Qle_trans; [apply (pw_le _ 1023); lia|].
    unfold too_large. change ((2 # 1) ^ 970) with (pw 970). replace 1023%Z with (53 + 970)%Z by reflexivity. rewrite (pw_add 53 970).
    apply Qmult_le_compat_r; [|pose proof (pw_pos 970); lra]. change (pw 53) with (inject_Z (2 ^ 53)). rewrite <- Zle_Qle. lia.
  Qed.

  Theorem rounded_nearest sx : nearest x sx (rounded sx k E).
  Proof using All.
    unfold rounded. destruct (Z.eqb_spec k 0) as [K0|K0].
    - apply nr_zero. apply near_number; [|now intros _]. rewrite K0. change (inject_Z 0) with 0. ring.
    - destruct (Z.eqb_spec k (2 ^ 53)) as [K1|K1].
      + destruct (Z.leb_spec (E + 1) 971) as [L|L].
        * apply nr_finite.
          -- split; [reflexivity|]. split; [lia|]. left. reflexivity.
          -- apply near_number; [|now intros _]. rewrite <- pw_2, pw_1, K1.
             change (inject_Z (2 ^ 53)) with (inject_Z (Zpos (2 ^ 52)) * 2). ring.
          -- apply small_finite. lia.
        * apply nr_infinity. destruct (Z.eq_dec E 971) as [E1|E1]; [|apply large_low; lia].
          rewrite too_large_971. revert H1. rewrite K1, E1. intros H. pose proof (pw_pos 971).
          setoid_replace ((inject_Z (2 ^ 53) - (1 # 2)) * pw 971) with (inject_Z (2 ^ 53) * pw 971 - (1 # 2) * pw 971) by field. lra.
      + destruct (Z.leb_spec E 971) as [L|L]; [|now apply nr_infinity, large_low].
        assert (Kp : Zpos (Z.to_pos k) = k) by (apply Z2Pos.id; lia).
        apply nr_finite.
        * unfold canonical. rewrite Kp. split; [lia|]. split; [lia|]. destruct (Z.eq_dec E (-1074)); [now right|left]. now apply k_large.
        * apply near_number; rewrite Kp; [reflexivity|auto].
        * destruct (Z.eq_dec E 971) as [E1|E1]; [|apply small_finite; lia]. rewrite too_large_971.
          rewrite E1 in *. pose proof (pw_pos 971) as P.
          assert (Q1 : inject_Z k + 1 <= inject_Z (2 ^ 53)) by (change 1 with (inject_Z 1); rewrite <- inject_Z_plus, <- Zle_Qle; lia).
          destruct (Z.eq_dec k (2 ^ 53 - 1)) as [K2|K2].
          -- assert (N : ~ x - inject_Z k * pw 971 == (1 # 2) * pw 971). { intros T. assert (A : Z.even k = true) by (apply Hev; now right). rewrite K2 in A. discriminate. }
             setoid_replace ((inject_Z (2 ^ 53) - (1 # 2)) * pw 971) with (inject_Z k * pw 971 + (1 # 2) * pw 971).
             2:{ rewrite K2. change (inject_Z (2 ^ 53 - 1)) with (inject_Z (2 ^ 53) - 1). field. }
             apply Qle_lt_or_eq in H2. destruct H2 as [T|T]; [lra|contradiction].
          -- assert (Q2 : inject_Z k + 2 <= inject_Z (2 ^ 53)) by (change 2 with (inject_Z 2); rewrite <- inject_Z_plus, <- Zle_Qle; lia).
             assert (B : (inject_Z k + 2) * pw 971 <= inject_Z (2 ^ 53) * pw 971) by (apply Qmult_le_compat_r; lra).
             setoid_replace ((inject_Z (2 ^ 53) - (1 # 2)) * pw 971) with (inject_Z (2 ^ 53) * pw 971 - (1 # 2) * pw 971) by ring.
             setoid_replace ((inject_Z k + 2) * pw 971) with (inject_Z k * pw 971 + 2 * pw 971) in B by ring.
             lra.
  Qed.
End Near.

Theorem round_nearest sx m e l x :
  rep x (shr_record_of_loc m l) e -> (0 <= m)%Z -> (e <= fexp prec emax (Zdigits2 m + e))%Z ->
  nearest x sx (binary_round_aux prec emax sx m e l).
Proof.
  intros H1 H2 H3. destruct (round_full sx m e l x H1 H2 H3) as (k & E & -> & K & HE & A & B & C & D & F).
  now apply rounded_nearest.
Qed.
