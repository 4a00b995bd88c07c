(** Timestamps and timedeltas through floats. *)
From Coq Require Import QArith Qpower Lqa.
From Verif.Model Require Import Py Core Num Calendar Text Types DateTime.
From Verif.Spec Require Import DateSpec.
From Verif.Proofs Require Import CalendarLemmas FloatLemmas DateTimeLemmas.

(** ** Division *)
Definition core_res (sx : bool) (c : Z * Z * location) : spec_float :=
  let '(q, e, l) := c in binary_round_aux 53 1024 sx q e l.
Definition quotient (m1 : positive) (e1 : Z) (m2 : positive) (e2 : Z) : Q :=
  inject_Z (Zpos m1) * pw e1 / (inject_Z (Zpos m2) * pw e2).
Lemma pos_Q p : 0 < inject_Z (Zpos p).
Proof. change 0 with (inject_Z 0). rewrite <- Zlt_Qlt. lia. Qed.
Lemma pw_sub a b : pw (a - b) == pw a / pw b.
Proof.
  pose proof (pw_pos b). apply Qmult_inj_r with (pw b); [lra|]. rewrite <- pw_add. replace (a - b + b)%Z with a by lia. field. lra.
Qed.
Lemma frac_phase m2 r : (0 <= r < Zpos m2)%Z ->
  let a := shr_record_of_loc 0 (new_location (Zpos m2) r) in phase (shr_r a) (shr_s a) (inject_Z r / inject_Z (Zpos m2)).
Proof.
  intros H. pose proof (pos_Q m2) as P. destruct H as [H0 H1].
  assert (F1 : inject_Z r / inject_Z (Zpos m2) < 1).
  { apply Qlt_shift_div_r; [assumption|]. rewrite Qmult_1_l, <- Zlt_Qlt. assumption. }
  assert (Hlt : (2 * r < Zpos m2)%Z -> inject_Z r / inject_Z (Zpos m2) < 1 # 2).
  { intros L. apply Qlt_shift_div_r; [assumption|]. rewrite Zlt_Qlt, inject_Z_mult in L. change (inject_Z 2) with 2 in L. lra. }
  assert (Hgt : (Zpos m2 < 2 * r)%Z -> 1 # 2 < inject_Z r / inject_Z (Zpos m2)).
  { intros L. apply Qlt_shift_div_l; [assumption|]. rewrite Zlt_Qlt, inject_Z_mult in L. change (inject_Z 2) with 2 in L. lra. }
  assert (Heq : (2 * r = Zpos m2)%Z -> inject_Z r / inject_Z (Zpos m2) == 1 # 2).
  { intros L. rewrite <- L, inject_Z_mult. change (inject_Z 2) with 2. field. rewrite <- L in P. rewrite inject_Z_mult in P. change (inject_Z 2) with 2 in P. lra. }
  assert (Hpos : r <> 0%Z -> 0 < inject_Z r / inject_Z (Zpos m2)).
  { intros N. apply Qlt_shift_div_l; [assumption|]. rewrite Qmult_0_l. change 0 with (inject_Z 0). rewrite <- Zlt_Qlt. lia. }
  unfold new_location. destruct (Z.even (Zpos m2)) eqn:Ev.
  - unfold new_location_even. destruct (Zeq_bool r 0) eqn:Z0.
    + apply Zeq_bool_eq in Z0 as ->. cbn [shr_record_of_loc shr_r shr_s phase]. change (inject_Z 0) with 0. field. lra.
    + apply Zeq_bool_neq in Z0. destruct (Z.compare_spec (2 * r) (Zpos m2)); cbn [shr_record_of_loc shr_r shr_s phase]; auto.
  - unfold new_location_odd. destruct (Zeq_bool r 0) eqn:Z0.
    + apply Zeq_bool_eq in Z0 as ->. cbn [shr_record_of_loc shr_r shr_s phase]. change (inject_Z 0) with 0. field. lra.
    + apply Zeq_bool_neq in Z0. assert (Odd : (2 * r <> Zpos m2)%Z).
      { intros E. rewrite <- E in Ev. rewrite Z.even_mul in Ev. discriminate. }
      destruct (Z.compare_spec (2 * r + 1) (Zpos m2)); cbn [shr_record_of_loc shr_r shr_s phase]; split; auto; try (apply Hlt; lia); apply Hgt; lia.
Qed.
Lemma rec_of_loc m l : shr_r (shr_record_of_loc m l) = shr_r (shr_record_of_loc 0 l) /\ shr_s (shr_record_of_loc m l) = shr_s (shr_record_of_loc 0 l) /\
  shr_m (shr_record_of_loc m l) = m.
Proof. destruct l as [|[]]; auto. Qed.

Lemma div_ok sx m1 e1 m2 e2 b : quotient m1 e1 m2 e2 < pw b -> (-1021 <= b <= 1000)%Z ->
  exists k E, (E <= b - 53)%Z /\ (0 <= k)%Z /\
    magnitude sx (core_res sx (SFdiv_core_binary 53 1024 (Zpos m1) e1 (Zpos m2) e2)) (inject_Z k * pw E) /\
    inject_Z k * pw E - quotient m1 e1 m2 e2 <= pw E / 2 /\ quotient m1 e1 m2 e2 - inject_Z k * pw E <= pw E / 2 /\
    forall j, quotient m1 e1 m2 e2 == inject_Z j * pw E -> k = j.
Proof.
  intros Hx Hb. unfold SFdiv_core_binary. set (d := (Zdigits2 (Zpos m1) + e1 - (Zdigits2 (Zpos m2) + e2))%Z).
  set (e' := Z.min (fexp 53 1024 d) (e1 - e2)). set (s := (e1 - e2 - e')%Z). assert (Hs : (0 <= s)%Z) by (unfold s, e'; lia).
  pose proof (pos_Q m1) as P1. pose proof (pos_Q m2) as P2. pose proof (pw_pos e1) as W1. pose proof (pw_pos e2) as W2.
  assert (Dd : (d <= b)%Z).
  { destruct (Z_le_gt_dec d b); [assumption|exfalso].
    assert (A : pw (d - 1) < quotient m1 e1 m2 e2).
    { unfold quotient. apply Qlt_shift_div_l; [now apply Qmult_lt_0_compat|].
      destruct (digits2_bound m1) as [L1 _]. destruct (digits2_bound m2) as [_ L2]. cbn [Zdigits2] in d.
      apply Qlt_le_trans with (pw (d - 1) * (pw (Zpos (digits2_pos m2)) * pw e2)).
      - apply Qmult_lt_l; [apply pw_pos|]. apply Qmult_lt_r; [assumption|]. pose proof (pw_Z (Zpos (digits2_pos m2)) ltac:(lia)).
        rewrite Zlt_Qlt in L2. lra.
      - rewrite <- !pw_add. replace (d - 1 + (Z.pos (digits2_pos m2) + e2))%Z with ((Z.pos (digits2_pos m1) - 1) + e1)%Z by (unfold d; lia).
        rewrite pw_add. apply Qmult_le_compat_r; [|lra]. pose proof (pw_Z (Z.pos (digits2_pos m1) - 1) ltac:(lia)). rewrite Zle_Qle in L1. lra. }
    pose proof (pw_le b (d - 1) ltac:(lia)). lra. }
  assert (He' : (e' <= b - 53)%Z) by (unfold e', fexp, emin; lia).
  set (m' := match s with Zpos _ => Z.shiftl (Zpos m1) s | Z0 => Zpos m1 | Zneg _ => Z0 end).
  assert (Em : m' = (Zpos m1 * 2 ^ s)%Z).
  { unfold m'. destruct s as [|p|p]; [change (2 ^ 0)%Z with 1%Z; lia|now rewrite Z.shiftl_mul_pow2 by lia|lia]. }
  pose proof (Z_div_mod m' (Zpos m2) ltac:(lia)) as Dm. destruct (Z.div_eucl m' (Zpos m2)) as [q r]. destruct Dm as [Dm Hr].
  assert (Hq : (0 <= q)%Z). { assert (0 < m')%Z by (rewrite Em; apply Z.mul_pos_pos; [lia|apply Z.pow_pos_nonneg; lia]). nia. }
  cbn [core_res].
  assert (R : rep (quotient m1 e1 m2 e2) (shr_record_of_loc q (new_location (Zpos m2) r)) e').
  { destruct (rec_of_loc q (new_location (Zpos m2) r)) as (A1 & A2 & A3). split; [now rewrite A3|].
    exists (inject_Z r / inject_Z (Zpos m2)). rewrite A1, A2, A3. split; [now apply frac_phase|].
    assert (Q1 : inject_Z (Zpos m1) * pw s == inject_Z (Zpos m2) * inject_Z q + inject_Z r).
    { rewrite pw_Z by assumption. rewrite <- !inject_Z_mult, <- inject_Z_plus. apply inject_Z_injective. lia. }
    unfold quotient. assert (Q2 : pw e1 == pw s * pw e2 * pw e') by (rewrite <- !pw_add; unfold s; replace (e1 - e2 - e' + e2 + e')%Z with e1 by lia; reflexivity).
    rewrite Q2. setoid_replace (inject_Z (Z.pos m1) * (pw s * pw e2 * pw e')) with ((inject_Z (Z.pos m1) * pw s) * pw e2 * pw e') by ring.
    rewrite Q1. field. split; lra. }
  assert (Low : inject_Z q * pw e' <= quotient m1 e1 m2 e2).
  { destruct R as [_ (f & Hf & E)]. destruct (phase_bound _ _ _ Hf). destruct (rec_of_loc q (new_location (Zpos m2) r)) as (_ & _ & A3).
    rewrite A3 in E. rewrite E. apply Qmult_le_compat_r; [lra|]. pose proof (pw_pos e'). lra. }
  pose proof (ulp_le q e' _ b Hq Low Hx ltac:(lia) He') as Hu.
  destruct (round_aux_ok sx q e' _ _ R Hq ltac:(lia)) as (k & M & K0 & B1 & B2 & Ex).
  exists k, (ulp_exp q e'). auto 7.
Qed.
(** An integral quotient is exact. *)
Lemma scale_int j E : (E <= 0)%Z -> inject_Z j == inject_Z (j * 2 ^ (- E)) * pw E.
Proof.
  intros H. rewrite inject_Z_mult, <- pw_Z by lia. rewrite <- Qmult_assoc, <- pw_add. replace (- E + E)%Z with 0%Z by lia. change (pw 0) with 1. ring.
Qed.
Lemma mag_eq sx f x y : magnitude sx f x -> x == y -> magnitude sx f y.
Proof. intros [[-> E]|(m & e & -> & E)] H; [left|right; exists m, e]; split; auto; rewrite <- H; assumption. Qed.
Lemma div_exact sx m1 e1 m2 e2 j : quotient m1 e1 m2 e2 == inject_Z j -> (0 <= j < 2 ^ 53)%Z ->
  magnitude sx (core_res sx (SFdiv_core_binary 53 1024 (Zpos m1) e1 (Zpos m2) e2)) (inject_Z j).
Proof.
  intros E Hj. assert (B : quotient m1 e1 m2 e2 < pw 53).
  { rewrite E, pw_Z by lia. rewrite <- Zlt_Qlt. lia. }
  destruct (div_ok sx m1 e1 m2 e2 53 B ltac:(lia)) as (k & Ex & HE & K0 & M & _ & _ & X).
  eapply mag_eq; [exact M|]. rewrite (X (j * 2 ^ (- Ex))%Z); [symmetry; apply scale_int; lia|]. rewrite E. apply scale_int. lia.
Qed.

(** ** Integers *)
Lemma mag_num sx f j : magnitude sx f (inject_Z j) -> num_trunc (float_num f) = Some (if sx then (- j)%Z else j).
Proof.
  intros [[-> E]|(m & e & -> & E)].
  - change 0 with (inject_Z 0) in E. apply (proj1 (inject_Z_injective _ _)) in E as ->. destruct sx; reflexivity.
  - cbn [float_num]. unfold dyadic. destruct (Z.leb_spec 0 e) as [He|He].
    + rewrite pw_Z, <- inject_Z_mult in E by assumption. apply (proj1 (inject_Z_injective _ _)) in E. cbn [num_trunc]. rewrite Z.quot_1_r. f_equal.
      rewrite E. destruct sx; [change (Z.neg m) with (- Z.pos m)%Z; ring|reflexivity].
    + assert (Em : Zpos m = (j * 2 ^ (- e))%Z).
      { apply inject_Z_injective. rewrite inject_Z_mult, <- pw_Z by lia. rewrite E, <- Qmult_assoc, <- pw_add.
        replace (e + - e)%Z with 0%Z by lia. change (pw 0) with 1. ring. }
      assert (P : (0 < 2 ^ (- e))%Z) by (apply Z.pow_pos_nonneg; lia).
      cbn [num_trunc]. rewrite Z2Pos.id by assumption. f_equal. destruct sx.
      * change (Z.neg m) with (- Z.pos m)%Z. rewrite Em, Z.quot_opp_l, Z.quot_mul by lia. reflexivity.
      * rewrite Em, Z.quot_mul by lia. reflexivity.
Qed.
Lemma mag_delta sx f j p : magnitude sx f (inject_Z j) ->
  let us := ((if sx then - j else j) * Zpos p)%Z in
  (-999999999 <= us / day_us <= 999999999)%Z -> timedelta_of p f = Ok us.
Proof.
  intros M us Hus. assert (C : (-999999999 <=? us / day_us)%Z && (us / day_us <=? 999999999)%Z = true).
  { apply andb_true_intro. split; apply Z.leb_le; lia. }
  destruct M as [[-> E]|(m & e & -> & E)].
  - change 0 with (inject_Z 0) in E. apply (proj1 (inject_Z_injective _ _)) in E. subst j us. destruct sx; reflexivity.
  - cbn [timedelta_of]. destruct (Z.leb_spec 0 e) as [He|He].
    + rewrite pw_Z, <- inject_Z_mult in E by assumption. apply (proj1 (inject_Z_injective _ _)) in E.
      assert (X : ((if sx then - (Zpos m * 2 ^ e) else Zpos m * 2 ^ e) * Zpos p)%Z = us) by (unfold us; destruct sx; rewrite E; lia).
      rewrite X, C. reflexivity.
    + assert (Em : Zpos m = (j * 2 ^ (- e))%Z).
      { apply inject_Z_injective. rewrite inject_Z_mult, <- pw_Z by lia. rewrite E, <- Qmult_assoc, <- pw_add.
        replace (e + - e)%Z with 0%Z by lia. change (pw 0) with 1. ring. }
      assert (P : (0 < 2 ^ (- e))%Z) by (apply Z.pow_pos_nonneg; lia).
      rewrite Em, Z.mod_mul, Z.div_mul by lia. fold us. rewrite C. reflexivity.
Qed.
Lemma normalize_exact n : (Z.abs n < 2 ^ 53)%Z -> magnitude (n <? 0)%Z (binary_normalize 53 1024 n 0 false) (inject_Z (Z.abs n)).
Proof.
  intros H. assert (K : forall sx p, (Zpos p < 2 ^ 53)%Z -> magnitude sx (binary_round 53 1024 sx p 0) (inject_Z (Zpos p))).
  { intros sx p Hp. unfold binary_round. set (e := fexp 53 1024 (Z.pos (digits2_pos p) + 0)).
    assert (Hd : (Zpos (digits2_pos p) <= 53)%Z) by (apply (zdigits_le (Zpos p) 53); lia).
    assert (He : (e <= 0)%Z) by (unfold e, fexp, emin; lia).
    assert (S : exists mz ez, shl_align p 0 e = (mz, ez) /\ inject_Z (Zpos p) == inject_Z (Zpos mz) * pw ez /\ (ez <= 0)%Z).
    { unfold shl_align. rewrite Z.sub_0_r. destruct e as [|q|q]; [|lia|].
      - exists p, 0%Z. split; [reflexivity|]. split; [|lia]. change (pw 0) with 1. ring.
      - exists (shift_pos q p), (Z.neg q). split; [reflexivity|]. split; [|lia].
        rewrite shift_pos_correct, Z.pow_pos_fold. rewrite (scale_int (Zpos p) (Z.neg q)) by lia. rewrite Z.mul_comm. reflexivity. }
    destruct S as (mz & ez & -> & Ev & Hez).
    assert (R : rep (inject_Z (Zpos p)) (shr_record_of_loc (Zpos mz) loc_Exact) ez).
    { split; [cbn; lia|]. exists 0. split; [reflexivity|]. cbn [shr_record_of_loc shr_m]. rewrite Qplus_0_r. assumption. }
    assert (Hu : (ulp_exp (Zpos mz) ez <= 0)%Z).
    { destruct (Z_le_gt_dec ez (53 - 53)) as [L|L].
      - apply (ulp_le (Zpos mz) ez (inject_Z (Zpos p)) 53); [lia|lra| |lia|lia]. rewrite pw_Z by lia. rewrite <- Zlt_Qlt. assumption.
      - lia. }
    destruct (round_aux_ok sx _ ez _ _ R ltac:(lia) ltac:(lia)) as (k & M & _ & _ & _ & X).
    eapply mag_eq; [exact M|]. rewrite (X (Zpos p * 2 ^ (- ulp_exp (Zpos mz) ez))%Z); [symmetry|]; apply scale_int; assumption. }
  destruct n as [|p|p]; cbn [binary_normalize Z.ltb Z.compare Z.abs].
  - left. split; reflexivity.
  - apply K. assumption.
  - apply (K true). assumption.
Qed.
Lemma float_of_int_ok R n : (Z.abs n < 2 ^ 53)%Z -> exists f, py_float R (VInt n) = Ok (Some f) /\ magnitude (n <? 0)%Z f (inject_Z (Z.abs n)).
Proof.
  intros H. pose proof (normalize_exact n H) as M. cbn [py_float]. unfold float_of_int.
  destruct M as [[E V]|(m & e & E & V)]; rewrite E in *; cbn; (eexists; split; [reflexivity|]); [left|right; exists m, e]; auto.
Qed.
Lemma sign_abs j : (if j <? 0 then - Z.abs j else Z.abs j)%Z = j.
Proof. destruct (Z.ltb_spec j 0); lia. Qed.

(** ** Seconds of a timedelta *)
Lemma total_seconds_core us p : Z.abs us = Zpos p ->
  total_seconds us = core_res (us <? 0)%Z (SFdiv_core_binary 53 1024 (Zpos p) 0 (Zpos 1000000) 0).
Proof.
  intros E. unfold total_seconds, float_of_dec. assert (En : Z.abs_N us = Npos p) by (destruct us; cbn in *; congruence). rewrite En. reflexivity.
Qed.
Lemma q6 p : quotient p 0 1000000 0 == inject_Z (Zpos p) / 1000000.
Proof. unfold quotient. change (pw 0) with 1. change (inject_Z 1000000) with 1000000. field. Qed.
Lemma total_seconds_exact n : (Z.abs n < 2 ^ 53)%Z -> magnitude (n <? 0)%Z (total_seconds (n * 1000000)) (inject_Z (Z.abs n)).
Proof.
  intros H. destruct (Z.eq_dec n 0) as [->|N]; [left; split; reflexivity|].
  destruct (Z.abs (n * 1000000)) as [|p|p] eqn:E; [lia| |lia]. rewrite (total_seconds_core _ p E).
  replace (n * 1000000 <? 0)%Z with (n <? 0)%Z by (destruct (Z.ltb_spec n 0), (Z.ltb_spec (n * 1000000) 0); lia).
  apply div_exact; [|lia]. rewrite q6. assert (Ep : Zpos p = (Z.abs n * 1000000)%Z) by lia. rewrite Ep, inject_Z_mult. change (inject_Z 1000000) with 1000000. field.
Qed.
Lemma total_seconds_near us : (Z.abs us < 2 ^ 33 * 1000000)%Z -> exists y, magnitude (us <? 0)%Z (total_seconds us) y /\
  y - inject_Z (Z.abs us) / 1000000 <= pw (-21) /\ inject_Z (Z.abs us) / 1000000 - y <= pw (-21).
Proof.
  intros H. destruct (Z.abs us) as [|p|p] eqn:E; [| |lia].
  - exists 0. assert (us = 0%Z) as -> by lia. split; [left; split; reflexivity|]. split; vm_compute; discriminate.
  - rewrite (total_seconds_core _ p E). assert (B : quotient p 0 1000000 0 < pw 33).
    { rewrite q6. apply Qlt_shift_div_r; [reflexivity|]. rewrite pw_Z by lia. change 1000000 with (inject_Z 1000000). rewrite <- inject_Z_mult, <- Zlt_Qlt. assumption. }
    destruct (div_ok (us <? 0)%Z p 0 1000000 0 33 B ltac:(lia)) as (k & Ex & HE & K0 & M & B1 & B2 & _).
    exists (inject_Z k * pw Ex). split; [exact M|]. rewrite q6 in B1, B2.
    pose proof (pw_le Ex (-20) ltac:(lia)) as P. change (pw (-20)) with (1 # 1048576) in P. change (pw (-21)) with (1 # 2097152).
    unfold Qdiv in *. change (/ 2) with (1 # 2) in *. change (/ 1000000) with (1 # 1000000) in *. split; lra.
Qed.

(** ** Timestamps *)
Lemma rhe_near n d k : (2 * Z.abs (n - k * Zpos d) < Zpos d)%Z -> round_half_even n d = k.
Proof.
  intros H. unfold round_half_even. destruct (Z_le_gt_dec 0 (n - k * Zpos d)) as [L|L].
  - rewrite <- (Z.div_unique n (Zpos d) k (n - k * Zpos d)) by lia. rewrite <- (Z.mod_unique n (Zpos d) k (n - k * Zpos d)) by lia.
    destruct (Z.ltb_spec (2 * (n - k * Zpos d)) (Zpos d)); lia.
  - rewrite <- (Z.div_unique n (Zpos d) (k - 1) (n - k * Zpos d + Zpos d)) by lia.
    rewrite <- (Z.mod_unique n (Zpos d) (k - 1) (n - k * Zpos d + Zpos d)) by lia.
    destruct (Z.ltb_spec (2 * (n - k * Zpos d + Zpos d)) (Zpos d)); [lia|].
    destruct (Z.ltb_spec (Zpos d) (2 * (n - k * Zpos d + Zpos d))); lia.
Qed.
Lemma mag_rhe sx f y j : magnitude sx f y -> y - inject_Z j < 1 # 2 -> inject_Z j - y < 1 # 2 ->
  exists n d, float_num f = NFin n d /\ (2 * Z.abs (n - (if sx then - j else j) * Zpos d) < Zpos d)%Z.
Proof.
  intros [[-> E]|(m & e & -> & E)] H1 H2; cbn [float_num].
  - exists 0%Z, 1%positive. split; [reflexivity|]. assert (j = 0%Z) as ->; [|destruct sx; cbn; lia].
    assert (A : inject_Z j < inject_Z 1) by (change (inject_Z 1) with 1; lra). assert (B : inject_Z (-1) < inject_Z j) by (change (inject_Z (-1)) with (-1 # 1); lra).
    rewrite <- Zlt_Qlt in A, B. lia.
  - unfold dyadic. destruct (Z.leb_spec 0 e) as [He|He].
    + eexists _, 1%positive. split; [reflexivity|]. rewrite pw_Z, <- inject_Z_mult in E by assumption. rewrite E in H1, H2.
      assert (A : inject_Z (Zpos m * 2 ^ e) < inject_Z (j + 1)) by (rewrite inject_Z_plus; change (inject_Z 1) with 1; lra).
      assert (B : inject_Z j < inject_Z (Zpos m * 2 ^ e + 1)) by (rewrite inject_Z_plus; change (inject_Z 1) with 1; lra).
      rewrite <- Zlt_Qlt in A, B. destruct sx; [change (Z.neg m) with (- Z.pos m)%Z; rewrite Z.mul_opp_l|]; lia.
    + assert (P : (0 < 2 ^ (- e))%Z) by (apply Z.pow_pos_nonneg; lia).
      eexists _, _. split; [reflexivity|]. rewrite Z2Pos.id by assumption.
      assert (Ey : inject_Z (Zpos m) == y * inject_Z (2 ^ (- e))).
      { rewrite E, <- pw_Z by lia. rewrite <- Qmult_assoc, <- pw_add. replace (e + - e)%Z with 0%Z by lia. change (pw 0) with 1. ring. }
      set (D := (2 ^ (- e))%Z) in *. clearbody D. assert (PD : 0 < inject_Z D) by (change 0 with (inject_Z 0); rewrite <- Zlt_Qlt; assumption).
      assert (A : inject_Z (2 * (Zpos m - j * D)) < inject_Z D).
      { unfold Z.sub. rewrite inject_Z_mult, inject_Z_plus, inject_Z_opp, inject_Z_mult, Ey. change (inject_Z 2) with 2.
        setoid_replace (2 * (y * inject_Z D + - (inject_Z j * inject_Z D))) with ((2 * (y - inject_Z j)) * inject_Z D) by ring.
        rewrite <- (Qmult_1_l (inject_Z D)) at 2. apply Qmult_lt_r; [assumption|lra]. }
      assert (B : inject_Z (2 * (j * D - Zpos m)) < inject_Z D).
      { unfold Z.sub. rewrite inject_Z_mult, inject_Z_plus, inject_Z_opp, inject_Z_mult, Ey. change (inject_Z 2) with 2.
        setoid_replace (2 * (inject_Z j * inject_Z D + - (y * inject_Z D))) with ((2 * (inject_Z j - y)) * inject_Z D) by ring.
        rewrite <- (Qmult_1_l (inject_Z D)) at 2. apply Qmult_lt_r; [assumption|lra]. }
      rewrite <- Zlt_Qlt in A, B. destruct sx; [change (Z.neg m) with (- Z.pos m)%Z; rewrite Z.mul_opp_l|]; lia.
Qed.
Lemma million : binary_normalize 53 1024 1000000 0 false = S754_finite false 8589934592000000 (-33).
Proof. vm_compute. reflexivity. Qed.
Lemma timedelta_near sx f y n : magnitude sx f y -> y * 1000000 - inject_Z n <= 1000000 * pw (-21) -> inject_Z n - y * 1000000 <= 1000000 * pw (-21) ->
  (Z.abs n < 2 ^ 33 * 1000000)%Z -> timedelta_of 1000000 f = Ok (if sx then - n else n)%Z.
Proof.
  intros M H1 H2 Hn. change (pw (-21)) with (1 # 2097152) in *.
  set (us := (if sx then - n else n)%Z).
  assert (C : (-999999999 <=? us / day_us)%Z && (us / day_us <=? 999999999)%Z = true).
  { assert (Hu : (Z.abs us < 2 ^ 33 * 1000000)%Z) by (unfold us; destruct sx; lia). unfold day_us.
    pose proof (Z.div_mod us 86400000000 ltac:(lia)). pose proof (Z.mod_pos_bound us 86400000000 ltac:(lia)).
    change (2 ^ 33 * 1000000)%Z with 8589934592000000%Z in Hu. apply andb_true_intro. split; apply Z.leb_le; lia. }
  assert (Near : forall j, y * 1000000 == inject_Z j -> j = n).
  { intros j Ej. rewrite Ej in H1, H2.
    assert (A : inject_Z j < inject_Z (n + 1)) by (rewrite inject_Z_plus; change (inject_Z 1) with 1; lra).
    assert (B : inject_Z n < inject_Z (j + 1)) by (rewrite inject_Z_plus; change (inject_Z 1) with 1; lra).
    rewrite <- Zlt_Qlt in A, B. lia. }
  destruct M as [[-> E]|(m & e & -> & E)].
  - assert (0%Z = n) as <- by (apply Near; rewrite E; reflexivity). cbn. unfold us. destruct sx; reflexivity.
  - cbn [timedelta_of]. destruct (Z.leb_spec 0 e) as [He|He].
    + assert (X : ((if sx then - (Zpos m * 2 ^ e) else Zpos m * 2 ^ e) * 1000000)%Z = us).
      { unfold us. rewrite <- (Near (Zpos m * 2 ^ e * 1000000)%Z); [destruct sx; lia|]. rewrite E, pw_Z by assumption. rewrite !inject_Z_mult. reflexivity. }
      rewrite X, C. reflexivity.
    + assert (P : (0 < 2 ^ (- e))%Z) by (apply Z.pow_pos_nonneg; lia).
      pose proof (Z.div_mod (Zpos m) (2 ^ (- e)) ltac:(lia)) as Dm. pose proof (Z.mod_pos_bound (Zpos m) (2 ^ (- e)) P) as Bm.
      set (w := (Zpos m / 2 ^ (- e))%Z) in *. set (r := (Zpos m mod 2 ^ (- e))%Z) in *. clearbody w r.
      assert (Ey : y == inject_Z w + inject_Z r * pw e).
      { rewrite E, Dm, inject_Z_plus, inject_Z_mult, <- pw_Z by lia.
        setoid_replace ((pw (- e) * inject_Z w + inject_Z r) * pw e) with (inject_Z w * (pw (- e) * pw e) + inject_Z r * pw e) by ring.
        rewrite <- pw_add. replace (- e + e)%Z with 0%Z by lia. change (pw 0) with 1. ring. }
      destruct r as [|r|r]; [| |lia].
      * assert (X : ((if sx then - w else w) * 1000000)%Z = us).
        { unfold us. rewrite <- (Near (w * 1000000)%Z); [destruct sx; lia|]. rewrite Ey, inject_Z_mult. change (inject_Z 0) with 0. change (inject_Z 1000000) with 1000000. ring. }
        rewrite X, C. reflexivity.
      * rewrite million. cbn [SFmul]. replace (xorb sx false) with sx by (destruct sx; reflexivity).
        set (x2 := inject_Z (Z.pos r) * pw e * 1000000).
        assert (Ex2 : x2 == inject_Z (Z.pos (r * 8589934592000000)) * pw (e + -33)).
        { unfold x2. rewrite Pos2Z.inj_mul, inject_Z_mult, pw_add. setoid_replace (1000000 : Q) with (inject_Z 8589934592000000 * pw (-33)) by reflexivity. ring. }
        assert (Hf : inject_Z (Z.pos r) * pw e < 1).
        { destruct Bm as [_ Bm]. rewrite Zlt_Qlt, <- pw_Z in Bm by lia. pose proof (pw_pos e) as Pe.
          apply Qlt_le_trans with (pw (- e) * pw e); [apply Qmult_lt_r; assumption|]. rewrite <- pw_add. replace (- e + e)%Z with 0%Z by lia. apply Qle_refl. }
        assert (R : rep x2 (shr_record_of_loc (Z.pos (r * 8589934592000000)) loc_Exact) (e + -33)).
        { split; [cbn; lia|]. exists 0. split; [reflexivity|]. cbn [shr_record_of_loc shr_m]. rewrite Qplus_0_r. assumption. }
        assert (Hu : (ulp_exp (Z.pos (r * 8589934592000000)) (e + -33) <= 20 - 53)%Z).
        { apply ulp_le with x2; [lia|rewrite Ex2; apply Qle_refl| |lia|lia]. unfold x2. change (pw 20) with (1048576 # 1). lra. }
        destruct (round_aux_ok sx _ _ _ _ R ltac:(lia) ltac:(lia)) as (k & M2 & _ & B1 & B2 & _).
        set (y2 := inject_Z k * pw (ulp_exp (Z.pos (r * 8589934592000000)) (e + -33))) in *.
        pose proof (pw_le _ (-33) Hu) as P33. change (pw (-33)) with (1 # 8589934592) in P33.
        unfold Qdiv in *. change (/ 2) with (1 # 2) in *.
        destruct (mag_rhe sx _ y2 (n - w * 1000000) M2) as (n2 & d2 & F & Rh).
        -- unfold Z.sub. rewrite inject_Z_plus, inject_Z_opp, inject_Z_mult. change (inject_Z 1000000) with 1000000. unfold x2 in *. lra.
        -- unfold Z.sub. rewrite inject_Z_plus, inject_Z_opp, inject_Z_mult. change (inject_Z 1000000) with 1000000. unfold x2 in *. lra.
        -- rewrite F. rewrite (rhe_near _ d2 us); [rewrite C; reflexivity|].
           replace ((if sx then - w else w) * 1000000 * Z.pos d2 + n2 - us * Z.pos d2)%Z
             with (n2 - (if sx then - (n - w * 1000000) else n - w * 1000000) * Z.pos d2)%Z by (unfold us; destruct sx; ring). exact Rh.
Qed.
Lemma timestamp_us us : (Z.abs us < 2 ^ 33 * 1000000)%Z -> timedelta_of 1000000 (total_seconds us) = Ok us.
Proof.
  intros H. destruct (total_seconds_near us H) as (y & M & B1 & B2). unfold Qdiv in *. change (/ 1000000) with (1 # 1000000) in *.
  rewrite (timedelta_near _ _ y (Z.abs us) M); [now rewrite sign_abs|lra|lra|lia].
Qed.
Lemma timestamp_whole s : (Z.abs s < 2 ^ 53)%Z -> (-999999999 <= s * 1000000 / day_us <= 999999999)%Z ->
  timedelta_of 1000000 (total_seconds (s * 1000000)) = Ok (s * 1000000)%Z.
Proof.
  intros H B. pose proof (mag_delta _ _ _ 1000000 (total_seconds_exact s H)) as M. cbv zeta in M. rewrite sign_abs in M. now apply M.
Qed.

Definition stored (drop : bool) : option Z := if drop then None else Some 0%Z.
Lemma timestamp_round R drop d t : valid_date d = true -> valid_time t = true ->
  (Z.abs (stamp d t - EPOCH) < 2 ^ 33 * 1000000)%Z \/ t_micro t = 0%Z ->
  exists f, dt_prim R XTimestamp (VDateTime d t (stored drop)) = Ok (VFloat f) /\
            dt_native R (timestamp_opts drop) (VFloat f) = Ok (VDateTime d t (stored drop)).
Proof.
  intros Vd Vt H. exists (total_seconds (stamp d t - EPOCH)). split; [destruct drop; reflexivity|].
  unfold dt_native. cbn [timestamp_opts dt_how dt_read]. unfold dt_builtin. cbn [py_float rbind]. unfold from_timestamp.
  assert (T : timedelta_of 1000000 (total_seconds (stamp d t - EPOCH)) = Ok (stamp d t - EPOCH)%Z).
  { destruct H as [H|H]; [now apply timestamp_us|].
    pose proof (ord_bound d Vd) as O. pose proof (time_bound t Vt) as B. unfold MAXORDINAL in O. unfold day_us in B.
    set (s := (ymd2ord d * 86400 + (t_hour t * 60 + t_minute t) * 60 + t_second t - 62135683200)%Z).
    assert (Es : (stamp d t - EPOCH)%Z = (s * 1000000)%Z).
    { unfold stamp, time_us, s. rewrite H. unfold day_us. change EPOCH with 62135683200000000%Z. lia. }
    assert (Bs : (-62135683200 <= s <= 253402300800)%Z) by (unfold stamp, time_us in Es, B; change EPOCH with 62135683200000000%Z in Es; unfold day_us in Es; lia).
    rewrite Es. apply timestamp_whole; [change (2 ^ 53)%Z with 9007199254740992%Z; lia|]. unfold day_us.
    pose proof (Z.div_mod (s * 1000000) 86400000000 ltac:(lia)). pose proof (Z.mod_pos_bound (s * 1000000) 86400000000 ltac:(lia)). lia. }
  rewrite T. cbn [rbind]. rewrite (proj2 (add_us_iff _ _ _ d t)).
  - destruct drop; reflexivity.
  - repeat split; auto. unfold EPOCH. lia.
Qed.

(** ** Timedeltas *)
Definition unit_s (p : unit_of_time) : option positive :=
  match p with
  | Days => Some 86400 | Seconds => Some 1 | Minutes => Some 60 | Hours => Some 3600 | Weeks => Some 604800
  | Microseconds | Milliseconds => None
  end%positive.
Lemma unit_s_us p s : unit_s p = Some s -> Zpos (unit_us p) = (Zpos s * 1000000)%Z.
Proof. destruct p; cbn; intros H; try discriminate H; injection H as <-; reflexivity. Qed.
Lemma mag_div sx f a s : magnitude sx f (inject_Z (a * Zpos s)) -> (0 <= a < 2 ^ 53)%Z -> (Zpos s < 2 ^ 53)%Z ->
  magnitude sx (SFdiv 53 1024 f (total_seconds (Zpos s * 1000000))) (inject_Z a).
Proof.
  intros M Ha Hs. pose proof (total_seconds_exact (Zpos s) ltac:(lia)) as Ms. cbn [Z.ltb Z.compare Z.abs] in Ms.
  destruct Ms as [[E V]|(m2 & e2 & E & V)].
  - exfalso. change 0 with (inject_Z 0) in V. apply (proj1 (inject_Z_injective _ _)) in V. discriminate.
  - rewrite E. destruct M as [[-> V1]|(m1 & e1 & -> & V1)].
    + left. cbn [SFdiv]. split; [destruct sx; reflexivity|]. change 0 with (inject_Z 0) in V1. apply (proj1 (inject_Z_injective _ _)) in V1. 
      assert (a = 0%Z) as -> by nia. reflexivity.
    + cbn [SFdiv]. change (let '(mz, ez, lz) := SFdiv_core_binary 53 1024 (Z.pos m1) e1 (Z.pos m2) e2 in binary_round_aux 53 1024 (xorb sx false) mz ez lz)
        with (core_res (xorb sx false) (SFdiv_core_binary 53 1024 (Z.pos m1) e1 (Z.pos m2) e2)).
      replace (xorb sx false) with sx by (destruct sx; reflexivity). apply div_exact; [|assumption]. unfold quotient. rewrite <- V1, <- V, inject_Z_mult.
      field. pose proof (pos_Q s). lra.
Qed.
Lemma delta_round R p s n : unit_s p = Some s -> (-999999999 <= n * Zpos (unit_us p) / day_us <= 999999999)%Z ->
  delta_prim p (VTimedelta (n * Zpos (unit_us p))) = Ok (VInt n) /\ delta_native R p (VInt n) = Ok (VTimedelta (n * Zpos (unit_us p))).
Proof.
  intros Hs B. pose proof (unit_s_us p s Hs) as Us.
  assert (S1 : (1 <= Zpos s < 2 ^ 53)%Z) by (destruct p; cbn in Hs; try discriminate Hs; injection Hs as <-; cbn; lia).
  assert (Bn : (Z.abs (n * Zpos s) < 2 ^ 53)%Z).
  { rewrite Us in B. unfold day_us in B. pose proof (Z.div_mod (n * (Zpos s * 1000000)) 86400000000 ltac:(lia)).
    pose proof (Z.mod_pos_bound (n * (Zpos s * 1000000)) 86400000000 ltac:(lia)). change (2 ^ 53)%Z with 9007199254740992%Z.
    assert (n * (Z.pos s * 1000000) = (n * Zpos s) * 1000000)%Z by lia. lia. }
  assert (Bn' : (Z.abs n < 2 ^ 53)%Z) by (rewrite Z.abs_mul in Bn; nia).
  split.
  - cbn [delta_prim]. rewrite Us. replace (n * (Zpos s * 1000000))%Z with (n * Zpos s * 1000000)%Z by lia.
    pose proof (total_seconds_exact (n * Zpos s) Bn) as M. replace (n * Z.pos s <? 0)%Z with (n <? 0)%Z in M by (destruct (Z.ltb_spec n 0), (Z.ltb_spec (n * Zpos s) 0); nia).
    rewrite Z.abs_mul in M. change (Z.abs (Zpos s)) with (Zpos s) in M. apply mag_div in M; [|lia|lia].
    rewrite (mag_num _ _ _ M), sign_abs. reflexivity.
  - destruct (float_of_int_ok R n Bn') as (f & E & M). unfold delta_native. rewrite E. cbn [rbind].
    pose proof (mag_delta _ _ _ (unit_us p) M) as D. cbv zeta in D. rewrite sign_abs in D. rewrite (D B). reflexivity.
Qed.
