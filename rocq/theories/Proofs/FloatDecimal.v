(** Reading decimal numbers and integers as floats gives the nearest float, which is unique. *)
From Coq Require Import QArith Qabs Qpower Lqa.
From Verif.Model Require Import Py Core Num Calendar Text Types DateTime.
From Verif.Spec Require Import FloatSpec.
From Verif.Proofs Require Import FloatLemmas FloatNearest FloatTime.

(** ** There is one nearest float *)
Definition form (m e : Z) : Prop := (0 <= m < 2 ^ 53)%Z /\ (-1074 <= e <= 971)%Z /\ ((2 ^ 52 <= m)%Z \/ e = (-1074)%Z).
Lemma form_double m e : form m e -> double (inject_Z m * pw e).
Proof. intros (H1 & H2 & _). exists m, e. split; [reflexivity|]. split; [lia|exact H2]. Qed.
Lemma form_le m e m' e' : form m e -> form m' e' -> inject_Z m * pw e <= inject_Z m' * pw e' -> (0 < m \/ e = -1074)%Z -> (e <= e')%Z.
Proof.
  intros (A1 & A2 & A3) (B1 & B2 & B3) L Hm. destruct (Z_le_gt_dec e e') as [|G]; [assumption|exfalso].
  destruct A3 as [A3|A3]; [|lia].
  assert (Q1 : inject_Z (2 ^ 52) * pw e <= inject_Z m * pw e) by (apply Qmult_le_compat_r; [now rewrite <- Zle_Qle|pose proof (pw_pos e); lra]).
  assert (Q2 : inject_Z m' * pw e' < inject_Z (2 ^ 53) * pw e') by (apply Qmult_lt_r; [apply pw_pos|rewrite <- Zlt_Qlt; lia]).
  change (inject_Z (2 ^ 52)) with (pw 52) in Q1. change (inject_Z (2 ^ 53)) with (pw 53) in Q2. rewrite <- pw_add in Q1, Q2.
  pose proof (pw_le (53 + e') (52 + e) ltac:(lia)). lra.
Qed.
Lemma scaled m e e' : (e <= e')%Z -> inject_Z m * pw e' == inject_Z (m * 2 ^ (e' - e)) * pw e.
Proof. intros H. rewrite inject_Z_mult, <- pw_Z by lia. rewrite <- Qmult_assoc, <- pw_add. replace (e' - e + e)%Z with e' by lia. reflexivity. Qed.

Lemma pw_lt_iff a b e : inject_Z a * pw e < inject_Z b * pw e <-> (a < b)%Z.
Proof. pose proof (pw_pos e). rewrite Zlt_Qlt. split; [|intros; now apply Qmult_lt_r]. intros K. now apply Qmult_lt_r in K. Qed.
Lemma pw_eq_iff a b e : inject_Z a * pw e == inject_Z b * pw e <-> a = b.
Proof. split; [|now intros ->]. intros K. apply cancel_pw in K. exact (proj1 (inject_Z_injective a b) K). Qed.

Lemma form_inj m e m' e' : form m e -> form m' e' -> inject_Z m * pw e == inject_Z m' * pw e' -> m = m' /\ (m = 0%Z \/ e = e').
Proof.
  intros F F' Q. destruct (Z.eq_dec m 0) as [->|N].
  - split; [|now left]. change (inject_Z 0) with 0 in Q. rewrite Qmult_0_l in Q. pose proof (pw_pos e') as P.
    destruct (Z.eq_dec m' 0) as [|N']; [now symmetry|exfalso]. destruct F' as (B & _).
    assert (0 * pw e' < inject_Z m' * pw e'); [|lra]. apply Qmult_lt_r; [exact P|]. change 0 with (inject_Z 0). rewrite <- Zlt_Qlt. lia.
  - assert (N' : m' <> 0%Z).
    { intros ->. change (inject_Z 0) with 0 in Q. rewrite Qmult_0_l in Q. destruct F as (B & _). pose proof (pw_pos e) as P.
      assert (0 * pw e < inject_Z m * pw e); [|lra]. apply Qmult_lt_r; [exact P|]. change 0 with (inject_Z 0). rewrite <- Zlt_Qlt. lia. }
    assert (e <= e')%Z by (apply (form_le m e m' e'); auto; [lra|left; destruct F as (B & _); lia]).
    assert (e' <= e)%Z by (apply (form_le m' e' m e); auto; [lra|left; destruct F' as (B & _); lia]).
    assert (e = e') by lia. subst e'. split; [now apply pw_eq_iff in Q|now right].
Qed.

Lemma nearest_le x m e m' e' : form m e -> form m' e' -> (e = -1074 \/ 0 < m)%Z ->
  nearest_number x (inject_Z m * pw e) m -> nearest_number x (inject_Z m' * pw e') m' ->
  ~ inject_Z m * pw e < inject_Z m' * pw e'.
Proof.
  intros F F' Hm N N' L. set (y := inject_Z m * pw e) in *. set (y' := inject_Z m' * pw e') in *.
  destruct (N y' (form_double _ _ F')) as [A1 A2]. destruct (N' y (form_double _ _ F)) as [B1 B2].
  assert (T : Qabs (x - y') == Qabs (x - y)) by lra.
  destruct (A2 T) as [K|Ev]; [lra|]. destruct (B2 ltac:(symmetry; exact T)) as [K|Ev']; [lra|].
  assert (He : (e <= e')%Z) by (apply (form_le m e m' e'); auto; [unfold y, y' in L; lra|destruct Hm; auto]).
  set (z := inject_Z (m + 1) * pw e).
  assert (Yz : y < z) by (apply pw_lt_iff; lia).
  assert (zY : z < y').
  { unfold z, y'. rewrite (scaled m' e e' He). apply pw_lt_iff.
    unfold y, y' in L. rewrite (scaled m' e e' He) in L. apply pw_lt_iff in L.
    assert (M : (m + 1 <> m' * 2 ^ (e' - e))%Z); [|lia]. intros M.
    assert (O : Z.even (m + 1) = false) by (rewrite Z.even_add, Ev; reflexivity). rewrite M, Z.even_mul, Ev' in O. discriminate. }
  assert (Dz : double z).
  { exists (m + 1)%Z, e. split; [reflexivity|]. destruct F as (B & C & _). split; [|exact C].
    assert (M : (m <> 2 ^ 53 - 1)%Z) by (intros ->; discriminate). lia. }
  destruct (N z Dz) as [C _].
  destruct (Qlt_le_dec (x - y) 0) as [S|S].
  - rewrite (Qabs_neg (x - y)) in * by lra. rewrite (Qabs_neg (x - y')) in T by lra. lra.
  - rewrite (Qabs_pos (x - y)) in * by lra. destruct (Qlt_le_dec (x - y') 0) as [S'|S'].
    + rewrite (Qabs_neg (x - y')) in T by lra. revert C. apply Qabs_case; intros; lra.
    + rewrite (Qabs_pos (x - y')) in T by lra. lra.
Qed.

Lemma zero_small x : nearest_number x 0 0 -> x < too_large.
Proof.
  intros N. destruct (N (pw 0)) as [A _]; [exists 1%Z, 0%Z; split; [reflexivity|lia]|].
  assert (B : x <= 1 # 2).
  { destruct (Qlt_le_dec (1 # 2) x) as [L|]; [exfalso|assumption]. change (pw 0) with 1 in A.
    rewrite (Qabs_pos (x - 0)) in A by lra. revert A. apply Qabs_case; intros; lra. }
  eapply Qle_lt_trans; [exact B|]. vm_compute. reflexivity.
Qed.

Lemma nearest_unique x neg f g : nearest x neg f -> nearest x neg g -> f = g.
Proof.
  assert (Fz : form 0 (-1074)) by (split; [lia|split; [lia|now right]]).
  assert (Fc : forall m e, canonical m e -> form (Zpos m) e) by (intros m e (A & B & C); split; [lia|split; [lia|exact C]]).
  assert (Z0 : inject_Z 0 * pw (-1074) == 0) by (change (inject_Z 0) with 0; ring).
  assert (Nz : nearest_number x 0 0 -> nearest_number x (inject_Z 0 * pw (-1074)) 0).
  { intros N z Hz. destruct (N z Hz) as [A B]. rewrite Z0. split; [exact A|exact B]. }
  assert (P : forall m e m' e', form m e -> form m' e' -> (e = -1074 \/ 0 < m)%Z -> (e' = -1074 \/ 0 < m')%Z ->
             nearest_number x (inject_Z m * pw e) m -> nearest_number x (inject_Z m' * pw e') m' -> m = m' /\ (m = 0%Z \/ e = e')).
  { intros m e m' e' F F' H H' N N'. apply form_inj; auto.
    pose proof (nearest_le x m e m' e' F F' H N N'). pose proof (nearest_le x m' e' m e F' F H' N' N). lra. }
  intros [N|m e C N L|L] [N'|m' e' C' N' L'|L']; try reflexivity.
  - exfalso. destruct (P 0 (-1074) (Zpos m') e')%Z; auto; [right; lia|lia].
  - exfalso. apply zero_small in N. lra.
  - exfalso. destruct (P 0 (-1074) (Zpos m) e)%Z; auto; [right; lia|lia].
  - destruct (P (Zpos m) e (Zpos m') e')%Z as [A [B|B]]; auto; [right; lia|right; lia|lia|]. injection A as ->. now subst e'.
  - exfalso. lra.
  - exfalso. apply zero_small in N'. lra.
  - exfalso. lra.
Qed.

(** ** Operations *)
Lemma div_nearest sx m1 m2 :
  nearest (inject_Z (Zpos m1) / inject_Z (Zpos m2)) sx (core_res sx (SFdiv_core_binary 53 1024 (Zpos m1) 0 (Zpos m2) 0)).
Proof.
  unfold SFdiv_core_binary. set (d := (Zdigits2 (Zpos m1) + 0 - (Zdigits2 (Zpos m2) + 0))%Z).
  set (e' := Z.min (fexp 53 1024 d) (0 - 0)). set (s := (0 - 0 - e')%Z). assert (Hs : (0 <= s)%Z) by (unfold s, e'; lia).
  pose proof (pos_Q m1) as P1. pose proof (pos_Q m2) as P2.
  set (m' := match s with Zpos _ => Z.shiftl (Zpos m1) s | Z0 => Zpos m1 | Zneg _ => Z0 end).
  assert (Em : m' = (Zpos m1 * 2 ^ s)%Z).
  { unfold m'. destruct s as [|p|p]; [change (2 ^ 0)%Z with 1%Z; lia|now rewrite Z.shiftl_mul_pow2 by lia|lia]. }
  pose proof (Z_div_mod m' (Zpos m2) ltac:(lia)) as Dm. destruct (Z.div_eucl m' (Zpos m2)) as [q r]. destruct Dm as [Dm Hr].
  assert (Hq : (0 <= q)%Z). { assert (0 < m')%Z by (rewrite Em; apply Z.mul_pos_pos; [lia|apply Z.pow_pos_nonneg; lia]). nia. }
  cbn [core_res]. apply round_nearest; [|exact Hq|].
  - destruct (rec_of_loc q (new_location (Zpos m2) r)) as (A1 & A2 & A3). split; [now rewrite A3|].
    exists (inject_Z r / inject_Z (Zpos m2)). rewrite A1, A2, A3. split; [now apply frac_phase|].
    assert (Q1 : inject_Z (Zpos m1) * pw s == inject_Z (Zpos m2) * inject_Z q + inject_Z r).
    { rewrite pw_Z by assumption. rewrite <- !inject_Z_mult, <- inject_Z_plus. apply inject_Z_injective. lia. }
    assert (Q2 : pw s * pw e' == 1) by (rewrite <- pw_add; unfold s; replace (0 - 0 - e' + e')%Z with 0%Z by lia; reflexivity).
    setoid_replace (inject_Z (Zpos m1)) with (inject_Z (Zpos m1) * pw s * pw e') by (rewrite <- Qmult_assoc, Q2; ring).
    rewrite Q1. field. lra.
  - assert (K : (e' <= -1074)%Z \/ (e' <= d - 1)%Z).
    { unfold e', fexp, emin. lia. }
    destruct K as [K|K]; [unfold fexp, emin; lia|].
    assert (D : (d <= Zdigits2 q + e')%Z); [|unfold e', fexp, emin in *; lia].
    assert (Lq : (2 ^ (d - 1 - e') <= q)%Z).
    { destruct (digits2_bound m1) as [B1 _]. destruct (digits2_bound m2) as [_ B2]. cbn [Zdigits2] in d.
      assert (A : (2 ^ (d - 1 - e') * Zpos m2 <= m')%Z).
      { rewrite Em. apply Z.le_trans with (2 ^ (d - 1 - e') * 2 ^ Zpos (digits2_pos m2))%Z; [apply Z.mul_le_mono_nonneg_l; [apply Z.pow_nonneg|]; lia|].
        rewrite <- Z.pow_add_r by lia.
        replace (d - 1 - e' + Zpos (digits2_pos m2))%Z with (Zpos (digits2_pos m1) - 1 + s)%Z by (unfold d, s; lia).
        rewrite Z.pow_add_r by lia. apply Z.mul_le_mono_nonneg_r; [apply Z.pow_nonneg; lia|exact B1]. }
      assert (H0 : (2 ^ (d - 1 - e') * Zpos m2 < (q + 1) * Zpos m2)%Z) by nia.
      apply Z.mul_lt_mono_pos_r in H0; lia. }
    assert (Pq : (0 < q)%Z) by (pose proof (Z.pow_pos_nonneg 2 (d - 1 - e')); lia).
    destruct (zdigits_bound q Pq) as [_ U].
    assert (M : (2 ^ (d - 1 - e') < 2 ^ Zdigits2 q)%Z) by lia.
    apply Z.pow_lt_mono_r_iff in M; [lia|lia|apply zdigits_nonneg].
Qed.

Lemma digits_shift p q : Zdigits2 (Zpos (shift_pos q p)) = (Zdigits2 (Zpos p) + Zpos q)%Z.
Proof.
  destruct (digits2_bound (shift_pos q p)) as [A B]. destruct (digits2_bound p) as [C D].
  rewrite shift_pos_correct, Z.pow_pos_fold in A, B. cbn [Zdigits2].
  assert (X : (2 ^ (Zpos (digits2_pos p) - 1 + Zpos q) < 2 ^ Zpos (digits2_pos (shift_pos q p)))%Z).
  { rewrite Z.pow_add_r by lia. eapply Z.le_lt_trans; [|exact B]. rewrite Z.mul_comm. apply Z.mul_le_mono_nonneg_l; [apply Z.pow_nonneg; lia|lia]. }
  apply Z.pow_lt_mono_r_iff in X; [|lia..].
  assert (Y : (2 ^ (Zpos (digits2_pos (shift_pos q p)) - 1) < 2 ^ (Zpos (digits2_pos p) + Zpos q))%Z).
  { rewrite Z.pow_add_r by lia. eapply Z.le_lt_trans; [exact A|]. rewrite Z.mul_comm. apply Z.mul_lt_mono_pos_r; [apply Z.pow_pos_nonneg; lia|lia]. }
  apply Z.pow_lt_mono_r_iff in Y; lia.
Qed.

Lemma int_nearest sx p : nearest (inject_Z (Zpos p)) sx (binary_round 53 1024 sx p 0).
Proof.
  unfold binary_round. set (e := fexp 53 1024 (Z.pos (digits2_pos p) + 0)). unfold shl_align. rewrite Z.sub_0_r.
  assert (Hd : (0 < Zpos (digits2_pos p))%Z) by lia.
  destruct e as [|q|q] eqn:Ee.
  - apply round_nearest; [|lia|].
    + split; [cbn; lia|]. exists 0. split; [reflexivity|]. cbn [shr_record_of_loc shr_m]. change (pw 0) with 1. ring.
    + cbn [Zdigits2]. fold e. lia.
  - apply round_nearest; [|lia|].
    + split; [cbn; lia|]. exists 0. split; [reflexivity|]. cbn [shr_record_of_loc shr_m]. change (pw 0) with 1. ring.
    + cbn [Zdigits2]. fold e. lia.
  - apply round_nearest; [|lia|].
    + split; [cbn; lia|]. exists 0. split; [reflexivity|]. cbn [shr_record_of_loc shr_m].
      rewrite shift_pos_correct, Z.pow_pos_fold. rewrite (scale_int (Zpos p) (Z.neg q)) by lia. rewrite Z.mul_comm. cbn [Z.opp]. ring.
    + rewrite digits_shift. replace (Zdigits2 (Zpos p) + Zpos q + Zneg q)%Z with (Zpos (digits2_pos p) + 0)%Z by (cbn [Zdigits2]; lia).
      fold e. lia.
Qed.

Lemma zero_nearest sx : nearest 0 sx (S754_zero sx).
Proof.
  apply nr_zero. intros z _. change (0 - 0) with 0. rewrite (Qabs_pos 0) by lra. split; [apply Qabs_nonneg|]. intros _. now right.
Qed.
Lemma nearest_eq x x' sx f : x == x' -> nearest x sx f -> nearest x' sx f.
Proof.
  assert (W : forall y m, x == x' -> nearest_number x y m -> nearest_number x' y m).
  { intros y m E N z Hz. destruct (N z Hz) as [A B]. rewrite <- E. split; [exact A|exact B]. }
  intros E [N|m e C N L|L]; [apply nr_zero|apply nr_finite|apply nr_infinity]; auto; lra.
Qed.

(** The number written [c] times ten to the [e]. *)
Theorem float_of_dec_nearest neg c e : nearest (inject_Z (Z.of_N c) * (10 # 1) ^ e) neg (float_of_dec neg c e).
Proof.
  destruct c as [|p]; cbn [float_of_dec Z.of_N].
  - eapply nearest_eq; [|apply zero_nearest]. change (inject_Z 0) with 0. ring.
  - destruct (Z.leb_spec 0 e) as [L|L].
    + assert (T : (0 < 10 ^ e)%Z) by (apply Z.pow_pos_nonneg; lia).
      destruct (Zpos p * 10 ^ e)%Z as [|P|P] eqn:EP; [lia| |lia].
      assert (B : binary_normalize 53 1024 (if neg then - Zpos P else Zpos P) 0 neg = binary_round 53 1024 neg P 0) by (destruct neg; reflexivity).
      rewrite B. eapply nearest_eq; [|apply int_nearest]. rewrite <- EP, inject_Z_mult. apply Qmult_comp; [reflexivity|].
      change (10 # 1) with (inject_Z 10). now apply Zpower_Qpower.
    + assert (T : (0 < 10 ^ (- e))%Z) by (apply Z.pow_pos_nonneg; lia).
      destruct (10 ^ (- e))%Z as [|P|P] eqn:EP; [lia| |lia].
      assert (B : (let '(q, e', l) := SFdiv_core_binary 53 1024 (Zpos p) 0 (Zpos P) 0 in binary_round_aux 53 1024 neg q e' l)
                  = core_res neg (SFdiv_core_binary 53 1024 (Zpos p) 0 (Zpos P) 0)) by reflexivity.
      rewrite B. eapply nearest_eq; [|apply div_nearest]. rewrite <- EP. unfold Qdiv. apply Qmult_comp; [reflexivity|].
      rewrite Zpower_Qpower by lia. change (10 # 1) with (inject_Z 10). rewrite Qpower_opp. now rewrite Qinv_involutive.
Qed.

(** An integer. *)
Theorem float_of_int_nearest z :
  match float_of_int z with
  | Ok f => nearest (inject_Z (Z.abs z)) (z <? 0)%Z f /\ inject_Z (Z.abs z) < too_large
  | Raise e => e = XPy EOverflowError /\ too_large <= inject_Z (Z.abs z)
  end.
Proof.
  assert (K : forall sx p f, f = binary_round 53 1024 sx p 0 ->
     match (match f with S754_infinity _ => Raise (XPy EOverflowError) | _ => Ok f end) with
     | Ok g => nearest (inject_Z (Zpos p)) sx g /\ inject_Z (Zpos p) < too_large
     | Raise e => e = XPy EOverflowError /\ too_large <= inject_Z (Zpos p)
     end).
  { intros sx p f ->. pose proof (int_nearest sx p) as N. destruct N as [N|m e C N L|L].
    - split; [now apply nr_zero|now apply zero_small].
    - split; [now apply nr_finite|assumption].
    - now split. }
  unfold float_of_int. destruct z as [|p|p]; cbn [Z.abs Z.ltb Z.compare].
  - split; [apply zero_nearest|]. vm_compute. reflexivity.
  - pose proof (K false p _ eq_refl) as H. change (binary_normalize 53 1024 (Zpos p) 0 false) with (binary_round 53 1024 false p 0).
    destruct (binary_round 53 1024 false p 0); exact H.
  - pose proof (K true p _ eq_refl) as H. change (binary_normalize 53 1024 (Zneg p) 0 false) with (binary_round 53 1024 true p 0).
    destruct (binary_round 53 1024 true p 0); exact H.
Qed.
