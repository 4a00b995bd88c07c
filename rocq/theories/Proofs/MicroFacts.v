(** Durations given as numbers of microseconds. *)
From Coq Require Import QArith Qpower Qabs Lqa.
From Verif.Model Require Import Py Core Num Calendar Text Types DateTime.
From Verif.Spec Require Import FloatSpec DateSpec.
From Verif.Proofs Require Import FloatLemmas FloatTime DateAccepts.

Lemma frac_abs n d q : Qabs ((n # d) - inject_Z q) == (Z.abs (n - q * Zpos d) # d).
Proof.
  assert (E : (n # d) - inject_Z q == (n - q * Zpos d # d)) by (unfold Qeq, Qminus, Qplus, Qopp, inject_Z; cbn -[Z.mul Z.sub]; lia).
  rewrite E. reflexivity.
Qed.
Lemma nearest_of_frac n d x q : x == n # d -> (round_half_even n d = q <-> nearest_whole x q).
Proof.
  intros E. rewrite round_half_even_iff. unfold nearest_whole. rewrite E, frac_abs. unfold Qlt, Qeq. cbn [Qnum Qden].
  split; (intros [H|[H H']]; [left|right; split; [|assumption]]); lia.
Qed.
Lemma nearest_unique x p q : nearest_whole x p -> nearest_whole x q -> p = q.
Proof.
  destruct x as [n d]. intros H1 H2. apply (nearest_of_frac n d (n # d) p (Qeq_refl _)) in H1.
  apply (nearest_of_frac n d (n # d) q (Qeq_refl _)) in H2. congruence.
Qed.

(** The fraction a float denotes. *)
Definition signed_Q (s : bool) (y : Q) : Q := if s then - y else y.
Lemma mag_frac s f y : magnitude s f y -> exists n d, float_num f = NFin n d /\ n # d == signed_Q s y.
Proof.
  intros [[-> E]|(m & e & -> & E)]; cbn [float_num].
  - exists 0%Z, 1%positive. split; [reflexivity|]. unfold signed_Q. destruct s; rewrite E; reflexivity.
  - unfold dyadic. destruct (Z.leb_spec 0 e) as [He|He].
    + eexists _, _. split; [reflexivity|]. rewrite pw_Z, <- inject_Z_mult in E by assumption.
      unfold signed_Q. destruct s; rewrite E; unfold inject_Z, Qopp, Qeq; cbn [Qnum Qden]; lia.
    + assert (P : (0 < 2 ^ (- e))%Z) by (apply Z.pow_pos_nonneg; lia).
      eexists _, _. split; [reflexivity|].
      assert (Ey : (Zpos m # Z.to_pos (2 ^ (- e))) == y).
      { rewrite E. apply Qmult_inj_r with (pw (- e)); [pose proof (pw_pos (- e)); lra|].
        rewrite <- Qmult_assoc, <- pw_add. replace (e + - e)%Z with 0%Z by lia. change (pw 0) with 1.
        rewrite pw_Z by lia. unfold Qeq, Qmult, inject_Z. cbn [Qnum Qden]. rewrite ?Pos2Z.inj_mul, Z2Pos.id by assumption. lia. }
      unfold signed_Q. destruct s; rewrite <- Ey; [reflexivity|reflexivity].
Qed.

Lemma one_float : binary_normalize 53 1024 1 0 false = S754_finite false 4503599627370496 (-52).
Proof. vm_compute. reflexivity. Qed.
(** The product with 1. is exact. *)
Lemma times_one s r e : (Zpos r < 2 ^ 53)%Z -> (-1074 <= e < 0)%Z ->
  magnitude s (SFmul 53 1024 (S754_finite s r e) (binary_normalize 53 1024 1 0 false)) (inject_Z (Zpos r) * pw e).
Proof.
  intros Hr He. rewrite one_float. cbn [SFmul]. replace (xorb s false) with s by (destruct s; reflexivity).
  set (x := inject_Z (Zpos r) * pw e).
  assert (Ex : x == inject_Z (Z.pos (r * 4503599627370496)) * pw (e + -52)).
  { unfold x. rewrite Pos2Z.inj_mul, inject_Z_mult, pw_add. setoid_replace (inject_Z (Z.pos r) * inject_Z 4503599627370496 * (pw e * pw (-52)))
      with (inject_Z (Z.pos r) * pw e * (inject_Z 4503599627370496 * pw (-52))) by ring.
    setoid_replace (inject_Z 4503599627370496 * pw (-52)) with (1 : Q) by reflexivity. ring. }
  assert (Rp : rep x (shr_record_of_loc (Z.pos (r * 4503599627370496)) loc_Exact) (e + -52)).
  { split; [cbn; lia|]. exists 0. split; [reflexivity|]. cbn [shr_record_of_loc shr_m]. rewrite Qplus_0_r. assumption. }
  assert (Hu : (ulp_exp (Z.pos (r * 4503599627370496)) (e + -52) <= e)%Z).
  { unfold ulp_exp, fexp, emin.
    assert (D : (Zdigits2 (Z.pos (r * 4503599627370496)) <= 105)%Z).
    { apply zdigits_le; [|lia]. rewrite Pos2Z.inj_mul. change (2 ^ 105)%Z with (2 ^ 53 * 4503599627370496)%Z. lia. }
    lia. }
  destruct (round_aux_ok s _ _ _ _ Rp ltac:(lia) ltac:(lia)) as (j & M & _ & _ & _ & X).
  eapply mag_eq; [exact M|]. set (U := ulp_exp _ _) in *.
  assert (Ej : x == inject_Z (Zpos r * 2 ^ (e - U)) * pw U).
  { unfold x. rewrite inject_Z_mult, <- pw_Z by lia. rewrite <- Qmult_assoc, <- pw_add. replace (e - U + U)%Z with e by lia. reflexivity. }
  rewrite (X _ Ej). symmetry. exact Ej.
Qed.

Lemma whole_nearest x n : x == inject_Z n -> nearest_whole x n.
Proof. intros E. left. rewrite E. setoid_replace (inject_Z n - inject_Z n) with 0 by ring. reflexivity. Qed.
Lemma micro_of s m e : canonical m e -> exists us, nearest_whole (float_value s m e) us /\
  timedelta_of 1 (S754_finite s m e) =
    (if ((-999999999 <=? us / day_us) && (us / day_us <=? 999999999))%Z then Ok us else Raise (XPy EOverflowError)).
Proof.
  intros (Hm & He & _). cbn [timedelta_of]. change (float_value s m e) with (signed_Q s (inject_Z (Z.pos m) * pw e)). destruct (Z.leb_spec 0 e) as [H0|H0].
  - eexists. split; [|reflexivity]. apply whole_nearest. rewrite Z.mul_1_r.
    unfold signed_Q. destruct s; rewrite pw_Z, <- inject_Z_mult by assumption; [rewrite inject_Z_opp|]; reflexivity.
  - assert (P : (0 < 2 ^ (- e))%Z) by (apply Z.pow_pos_nonneg; lia).
    pose proof (Z.div_mod (Zpos m) (2 ^ (- e)) ltac:(lia)) as Dm. pose proof (Z.mod_pos_bound (Zpos m) (2 ^ (- e)) P) as Bm.
    pose proof (Z.div_pos (Zpos m) (2 ^ (- e)) ltac:(lia) P) as Pw.
    set (w := (Zpos m / 2 ^ (- e))%Z) in *. set (r := (Zpos m mod 2 ^ (- e))%Z) in *. clearbody w r.
    assert (Ey : inject_Z (Zpos m) * pw e == inject_Z w + inject_Z r * pw e).
    { rewrite Dm, inject_Z_plus, inject_Z_mult, <- pw_Z by lia.
      setoid_replace ((pw (- e) * inject_Z w + inject_Z r) * pw e) with (inject_Z w * (pw (- e) * pw e) + inject_Z r * pw e) by ring.
      rewrite <- pw_add. replace (- e + e)%Z with 0%Z by lia. change (pw 0) with 1. ring. }
    destruct r as [|r|r]; [| |lia].
    + eexists. split; [|reflexivity]. apply whole_nearest. unfold signed_Q. rewrite Z.mul_1_r. change (inject_Z 0) with 0 in Ey.
      destruct s; rewrite Ey; [rewrite inject_Z_opp|]; ring.
    + assert (Hr : (Zpos r < 2 ^ 53)%Z) by (assert (0 <= 2 ^ (- e) * w)%Z by (apply Z.mul_nonneg_nonneg; lia); lia).
      destruct (mag_frac s _ _ (times_one s r e Hr ltac:(lia))) as (n & d & F & Ev). rewrite F.
      eexists. split; [|reflexivity].
      refine (proj1 (nearest_of_frac _ _ _ _ _) eq_refl).
      set (sw := if s then (- w)%Z else w).
      assert (Es : signed_Q s (inject_Z (Z.pos m) * pw e) == inject_Z sw + signed_Q s (inject_Z (Z.pos r) * pw e)).
      { unfold signed_Q, sw. destruct s; rewrite Ey; [rewrite inject_Z_opp|]; ring. }
      rewrite Es, <- Ev. unfold Qeq, Qplus, inject_Z. cbn [Qnum Qden]. rewrite Pos.mul_1_l. lia.
Qed.

Theorem micro_rounded R s m e us : canonical m e ->
  (lf_native (delta_type R Microseconds) (VFloat (S754_finite s m e)) = Ok (VTimedelta us) <->
   nearest_whole (float_value s m e) us /\ (-999999999 <= us / day_us <= 999999999)%Z).
Proof.
  intros C. destruct (micro_of s m e C) as (q & N & E). cbn [lf_native delta_type delta_native py_float rbind unit_us]. rewrite E.
  destruct ((-999999999 <=? q / day_us)%Z && (q / day_us <=? 999999999)%Z) eqn:B.
  - apply andb_true_iff in B as [B1 B2]. apply Z.leb_le in B1, B2. split.
    + intros [= <-]. split; [exact N|lia].
    + intros [N' _]. now rewrite (nearest_unique _ _ _ N' N).
  - split; [discriminate|]. intros [N' Hb]. rewrite (nearest_unique _ _ _ N' N) in Hb.
    apply andb_false_iff in B as [B|B]; apply Z.leb_gt in B; lia.
Qed.
