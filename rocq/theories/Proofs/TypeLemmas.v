(** Facts about the leaf types. *)
From Coq Require Import QArith Qpower Lqa.
From Verif.Model Require Import Py Core Num Text Types.
From Verif.Spec Require Import TextSpec TypeSpec.
From Verif.Proofs Require Import TextLemmas IntText Utf8 NumText DictLemmas EqLemmas.

Ltac brk := repeat match goal with |- context [match ?x with _ => _ end] => destruct x end.

(** ** Numbers *)
Lemma pow_neg (b : positive) e : (e < 0)%Z -> (Zpos b # 1) ^ e == 1 # Z.to_pos (Zpos b ^ - e).
Proof.
  intros He. destruct e as [|p|p]; [lia..|]. cbn [Z.opp Qpower].
  assert (K : forall q : positive, Qpower_positive (Zpos b # 1) q == inject_Z (Zpos b ^ Zpos q)).
  { intros q. rewrite Zpower_Qpower by lia. reflexivity. }
  rewrite K. unfold inject_Z. pose proof (Z.pow_pos_nonneg (Zpos b) (Zpos p)) as P.
  destruct (Zpos b ^ Zpos p)%Z eqn:E; try lia. reflexivity.
Qed.
Lemma pow_pos b e : (0 <= e)%Z -> (Zpos b # 1) ^ e == inject_Z (Zpos b ^ e).
Proof. intros He. now rewrite Zpower_Qpower. Qed.
Lemma num_value v q : value_of v q -> exists n d, num_of v = Some (NFin n d) /\ n # d == q.
Proof.
  destruct 1 as [b|z|s|s m e|c e]; cbn [num_of float_num].
  - exists (if b then 1 else 0)%Z, 1%positive. split; [reflexivity|]. now destruct b.
  - exists z, 1%positive. split; reflexivity.
  - exists 0%Z, 1%positive. split; reflexivity.
  - unfold dyadic. destruct (0 <=? e)%Z eqn:E; [apply Z.leb_le in E|apply Z.leb_gt in E].
    + eexists _, _. split; [reflexivity|]. rewrite (pow_pos 2 e) by assumption. rewrite <- inject_Z_mult. reflexivity.
    + eexists _, _. split; [reflexivity|]. rewrite (pow_neg 2 e) by assumption. unfold inject_Z, Qeq. cbn. lia.
  - unfold decimal_num. destruct (0 <=? e)%Z eqn:E; [apply Z.leb_le in E|apply Z.leb_gt in E].
    + eexists _, _. split; [reflexivity|]. rewrite (pow_pos 10 e) by assumption. rewrite <- inject_Z_mult. reflexivity.
    + eexists _, _. split; [reflexivity|]. rewrite (pow_neg 10 e) by assumption. unfold inject_Z, Qeq. cbn. lia.
Qed.
Lemma value_num v n d : num_of v = Some (NFin n d) -> exists q, value_of v q /\ n # d == q.
Proof.
  intros H. assert (K : exists q, value_of v q).
  { destruct v; try discriminate H; [eexists; constructor|eexists; constructor| |eexists; constructor].
    destruct f; try discriminate H; eexists; constructor. }
  destruct K as [q K]. exists q. split; [assumption|]. destruct (num_value _ _ K) as (n' & d' & E & Q). congruence.
Qed.
Lemma py_lt_value v w p q : value_of v p -> value_of w q -> exists t, py_lt v w = Ok t /\ (t = true <-> p < q).
Proof.
  intros Hv Hw. destruct (num_value _ _ Hv) as (n & d & E1 & Q1). destruct (num_value _ _ Hw) as (m & e & E2 & Q2).
  unfold py_lt. rewrite E1, E2. eexists. split; [reflexivity|]. cbn [num_ltb]. rewrite Z.ltb_lt, <- Q1, <- Q2. reflexivity.
Qed.
Lemma range_iff lo hi v q : value_of v q ->
  (forall m, lo = Some m -> exists r, value_of m r) -> (forall m, hi = Some m -> exists r, value_of m r) ->
  (validate_range lo hi v = None <->
     (forall m r, lo = Some m -> value_of m r -> r <= q) /\ (forall m r, hi = Some m -> value_of m r -> q <= r)) /\
  (validate_range lo hi v = Some (XValid false [u "number_min"]) <-> exists m r, lo = Some m /\ value_of m r /\ q < r) /\
  (validate_range lo hi v = Some (XValid false [u "number_max"]) <->
     (forall m r, lo = Some m -> value_of m r -> r <= q) /\ exists m r, hi = Some m /\ value_of m r /\ r < q).
Proof.
  intros Hv Hlo Hhi. unfold validate_range.
  assert (U : forall m a b, value_of m a -> value_of m b -> a == b).
  { intros m a b A B. destruct (num_value _ _ A) as (n & d & E & Q). destruct (num_value _ _ B) as (n' & d' & E' & Q').
    rewrite E in E'. injection E' as <- <-. now rewrite <- Q, <- Q'. }
  assert (L : exists t, match lo with Some m => py_lt v m | None => Ok false end = Ok t /\
              (t = true -> exists m r, lo = Some m /\ value_of m r /\ q < r) /\
              (t = false -> forall m r, lo = Some m -> value_of m r -> r <= q)).
  { destruct lo as [m|]; [|exists false; repeat split; [discriminate..|]; intros _ m r [=]].
    destruct (Hlo m eq_refl) as [r Hr]. destruct (py_lt_value _ _ _ _ Hv Hr) as (t & E & T). exists t. split; [assumption|]. split.
    - intros ->. exists m, r. repeat split; auto. now apply T.
    - intros -> m' r' [= <-] Hr'. rewrite (U _ _ _ Hr' Hr). apply Qnot_lt_le. intros K. apply T in K. discriminate. }
  assert (H : exists t, match hi with Some m => py_lt m v | None => Ok false end = Ok t /\
              (t = true -> exists m r, hi = Some m /\ value_of m r /\ r < q) /\
              (t = false -> forall m r, hi = Some m -> value_of m r -> q <= r)).
  { destruct hi as [m|]; [|exists false; repeat split; [discriminate..|]; intros _ m r [=]].
    destruct (Hhi m eq_refl) as [r Hr]. destruct (py_lt_value _ _ _ _ Hr Hv) as (t & E & T). exists t. split; [assumption|]. split.
    - intros ->. exists m, r. repeat split; auto. now apply T.
    - intros -> m' r' [= <-] Hr'. rewrite (U _ _ _ Hr' Hr). apply Qnot_lt_le. intros K. apply T in K. discriminate. }
  destruct L as (tl & -> & L1 & L2). destruct H as (th & -> & H1 & H2).
  destruct tl.
  - destruct (L1 eq_refl) as (m & r & Em & Hr & Lt). repeat split; try discriminate.
    + intros [K _]. exfalso. apply (Qlt_not_le _ _ Lt). eauto.
    + intros _. eauto.
    + intros [K _]. exfalso. apply (Qlt_not_le _ _ Lt). eauto.
  - assert (NL : ~ exists m r, lo = Some m /\ value_of m r /\ q < r).
    { intros (m & r & Em & Hr & Lt). apply (Qlt_not_le _ _ Lt). eapply L2; eauto. }
    destruct th.
    + destruct (H1 eq_refl) as (m & r & Em & Hr & Lt). repeat split; try discriminate; try exact (L2 eq_refl); auto; try (intros K; exfalso; exact (NL K)).
      * intros [_ K]. exfalso. apply (Qlt_not_le _ _ Lt). eauto.
    + repeat split; try discriminate; try exact (L2 eq_refl); try exact (H2 eq_refl); auto; try (intros K; exfalso; exact (NL K)).
      intros [_ (m & r & Em & Hr & Lt)]. exfalso. apply (Qlt_not_le _ _ Lt). eapply H2; eauto.
Qed.
Lemma range_nan lo hi : (forall m, lo = Some m -> exists r, value_of m r) -> (forall m, hi = Some m -> exists r, value_of m r) ->
  validate_range lo hi (VFloat S754_nan) = None.
Proof.
  intros Hlo Hhi. unfold validate_range.
  assert (A : match lo with Some m => py_lt (VFloat S754_nan) m | None => Ok false end = Ok false).
  { destruct lo as [m|]; [|reflexivity]. destruct (Hlo m eq_refl) as [r Hr]. destruct (num_value _ _ Hr) as (n & d & E & _).
    unfold py_lt. rewrite E. reflexivity. }
  assert (B : match hi with Some m => py_lt m (VFloat S754_nan) | None => Ok false end = Ok false).
  { destruct hi as [m|]; [|reflexivity]. destruct (Hhi m eq_refl) as [r Hr]. destruct (num_value _ _ Hr) as (n & d & E & _).
    unfold py_lt. rewrite E. reflexivity. }
  now rewrite A, B.
Qed.

(** ** Integers *)
Lemma trunc_equal n d : num_eqb (NFin (Z.quot n (Zpos d)) 1) (NFin n d) = true <-> exists z, n # d == inject_Z z.
Proof.
  cbn [num_eqb]. rewrite Z.eqb_eq. unfold inject_Z, Qeq. cbn [Qnum Qden]. split.
  - intros H. exists (Z.quot n (Zpos d)). lia.
  - intros [z H]. replace n with (z * Zpos d)%Z by lia. rewrite Z.quot_mul by lia. lia.
Qed.
Lemma trunc_value n d z : n # d == inject_Z z -> Z.quot n (Zpos d) = z.
Proof. unfold inject_Z, Qeq. cbn [Qnum Qden]. intros H. replace n with (z * Zpos d)%Z by lia. apply Z.quot_mul. lia. Qed.

Lemma range_inf lo hi s : (forall m, lo = Some m -> exists r, value_of m r) -> (forall m, hi = Some m -> exists r, value_of m r) ->
  validate_range lo hi (VFloat (S754_infinity s)) =
    match (if s then lo else hi) with
    | None => None
    | Some _ => Some (XValid false [u (if s then "number_min" else "number_max")])
    end.
Proof.
  intros Hlo Hhi. unfold validate_range.
  assert (A : match lo with Some m => py_lt (VFloat (S754_infinity s)) m | None => Ok false end = Ok (match lo with Some _ => s | None => false end)).
  { destruct lo as [m|]; [|reflexivity]. destruct (Hlo m eq_refl) as [r Hr]. destruct (num_value _ _ Hr) as (n & d & E & _).
    unfold py_lt. rewrite E. reflexivity. }
  assert (B : match hi with Some m => py_lt m (VFloat (S754_infinity s)) | None => Ok false end = Ok (match hi with Some _ => negb s | None => false end)).
  { destruct hi as [m|]; [|reflexivity]. destruct (Hhi m eq_refl) as [r Hr]. destruct (num_value _ _ Hr) as (n & d & E & _).
    unfold py_lt. rewrite E. reflexivity. }
  rewrite A, B. destruct s, lo, hi; reflexivity.
Qed.
Lemma int_text_ok R strict s z : int_native R strict (VStr s) = Ok (VInt z) <-> int_literal (rt_uni R) 10 s z.
Proof.
  rewrite <- int_text_iff. cbn. destruct (int_text (rt_uni R) 10 s) as [y|]; cbn; [|split; discriminate].
  unfold int_equals. cbn. rewrite andb_false_r. split; congruence.
Qed.
Lemma int_text_fails R strict s : (forall z, ~ int_literal (rt_uni R) 10 s z) ->
  int_native R strict (VStr s) = Raise (XConv [u "number_coerce"]).
Proof.
  intros H. cbn. destruct (int_text (rt_uni R) 10 s) as [y|] eqn:E; [|reflexivity]. apply int_text_iff in E. now apply H in E.
Qed.
Lemma int_of_number R v q : (forall b, v <> VBool b) -> (forall z, v <> VInt z) -> value_of v q ->
  (int_native R true v = Raise (XConv [u "number_coerce"])) /\
  (forall z, int_native R false v = Ok (VInt z) <-> q == inject_Z z) /\
  ((forall z, ~ q == inject_Z z) -> int_native R false v = Raise (XConv [u "number_coerce"])).
Proof.
  intros Hb Hi Hv. destruct (num_value _ _ Hv) as (n & d & E & Q).
  assert (P : exists z, py_int R v = Ok (Some z) /\ z = Z.quot n (Zpos d)).
  { destruct Hv as [b|z|s|s m e|c e]; cbn in E |- *; try (exfalso; now eapply Hb); try (exfalso; now eapply Hi).
    - injection E as <- <-. eauto.
    - injection E as E. rewrite E. cbn. eauto.
    - injection E as E. rewrite E. cbn. eauto. }
  destruct P as (y & P & ->).
  assert (N : match v with VBool b => VInt (if b then 1 else 0) | _ => v end = v) by (destruct v; try reflexivity; exfalso; now eapply Hb).
  assert (K : forall strict, int_native R strict v = if negb strict && int_equals (Z.quot n (Zpos d)) v then Ok (VInt (Z.quot n (Zpos d))) else conv_err "number_coerce").
  { intros strict. unfold int_native. rewrite N. destruct Hv; try (exfalso; now eapply Hb); try (exfalso; now eapply Hi); now rewrite P. }
  assert (I : int_equals (Z.quot n (Zpos d)) v = true <-> exists z, n # d == inject_Z z).
  { unfold int_equals. rewrite E. apply trunc_equal. }
  split; [now rewrite K|]. rewrite K. cbn [negb andb]. split.
  - intros z. destruct (int_equals (Z.quot n (Zpos d)) v) eqn:B.
    + destruct (proj1 I eq_refl) as [y Y]. split.
      * intros [= <-]. rewrite <- Q. rewrite (trunc_value _ _ _ Y). assumption.
      * intros Hz. rewrite <- Q in Hz. now rewrite (trunc_value _ _ _ Hz).
    + split; [discriminate|]. intros Hz. rewrite <- Q in Hz. assert (false = true) by (apply I; eauto). discriminate.
  - intros H. destruct (int_equals (Z.quot n (Zpos d)) v) eqn:B; [|reflexivity]. exfalso.
    destruct (proj1 I eq_refl) as [y Y]. apply (H y). now rewrite <- Q.
Qed.
Lemma int_result R strict v w : int_native R strict v = Ok w -> exists z, w = VInt z.
Proof.
  unfold int_native. destruct v; cbn -[int_equals int_text num_trunc dyadic decimal_num andb negb]; try discriminate;
    try (intros [= <-]; eauto; fail); try destruct f;
    cbn -[int_equals int_text num_trunc dyadic decimal_num andb negb]; brk; try discriminate; intros [= <-]; eauto.
Qed.

(** ** Text *)
Lemma string_result v w : string_native v = Ok w <->
  (exists s, v = VStr s /\ w = VStr s) \/ (exists b s, v = VBytes b /\ utf8_encode s = Some b /\ w = VStr s) \/
  (exists z, v = VInt z /\ w = VStr (dec_text z)).
Proof.
  split.
  - destruct v; cbn; try discriminate; try (intros [= <-]; eauto 10).
    destruct (utf8_decode s) as [t|] eqn:D; [|discriminate]. intros [= <-]. apply utf8_inverse in D. eauto 10.
  - intros [(s & -> & ->)|[(b & s & -> & E & ->)|(z & -> & ->)]]; cbn; [reflexivity| |reflexivity].
    apply utf8_inverse in E. now rewrite E.
Qed.
Lemma length_iff lo hi s :
  (validate_length lo hi (VStr s) = None <->
     (forall m, hi = Some m -> (Z.of_nat (length s) <= m)%Z) /\ (forall m, lo = Some m -> (m <= Z.of_nat (length s))%Z)) /\
  (validate_length lo hi (VStr s) = Some (XValid false [u "max_length"]) <->
     exists m, hi = Some m /\ (m < Z.of_nat (length s))%Z) /\
  (validate_length lo hi (VStr s) = Some (XValid false [u "min_length"]) <->
     (forall m, hi = Some m -> (Z.of_nat (length s) <= m)%Z) /\ exists m, lo = Some m /\ (Z.of_nat (length s) < m)%Z).
Proof.
  unfold validate_length. cbn [py_len]. set (n := Z.of_nat (length s)).
  assert (H : (match hi with Some m => (m <? n)%Z | None => false end = true <-> exists m, hi = Some m /\ (m < n)%Z) /\
              (match hi with Some m => (m <? n)%Z | None => false end = false <-> forall m, hi = Some m -> (n <= m)%Z)).
  { destruct hi as [m|].
    - rewrite Z.ltb_lt, Z.ltb_ge. split; split; [eauto|intros (m' & [= <-] & K); exact K|intros K m' [= <-]; exact K|auto].
    - split; split; [discriminate|intros (m & [=] & _)|intros _ m; discriminate|auto]. }
  assert (L : (match lo with Some m => (n <? m)%Z | None => false end = true <-> exists m, lo = Some m /\ (n < m)%Z) /\
              (match lo with Some m => (n <? m)%Z | None => false end = false <-> forall m, lo = Some m -> (m <= n)%Z)).
  { destruct lo as [m|].
    - rewrite Z.ltb_lt, Z.ltb_ge. split; split; [eauto|intros (m' & [= <-] & K); exact K|intros K m' [= <-]; exact K|auto].
    - split; split; [discriminate|intros (m & [=] & _)|intros _ m; discriminate|auto]. }
  destruct H as [H1 H2]. destruct L as [L1 L2]. rewrite <- H1, <- H2, <- L1, <- L2.
  destruct (match hi with Some m => (m <? n)%Z | None => false end); destruct (match lo with Some m => (n <? m)%Z | None => false end);
    repeat split; try discriminate; try reflexivity; try (intros [? ?]; discriminate).
Qed.
Lemma regex_iff p s : (validate_regex (Some p) (VStr s) = None <-> p s = true) /\
  (validate_regex (Some p) (VStr s) = Some (XValid false [u "regex"]) <-> p s = false) /\
  (forall v, validate_regex None v = None).
Proof. cbn. destruct (p s); repeat split; try discriminate; reflexivity. Qed.

(** ** Booleans *)
Lemma in_texts s l : existsb (pstr_eqb s) l = true <-> In s l.
Proof.
  rewrite existsb_exists. split.
  - intros (x & Hx & E). apply pstr_eqb_eq in E. now subst.
  - intros H. exists s. split; [assumption|]. now apply pstr_eqb_eq.
Qed.
Lemma bool_iff v b : bool_native v = Ok (VBool b) <-> says b v.
Proof.
  unfold says. split.
  - destruct v; cbn -[existsb true_texts false_texts]; try discriminate.
    + intros [= <-]. auto.
    + destruct (Z.eqb z 0) eqn:A; [apply Z.eqb_eq in A; intros [= <-]; subst; auto|].
      destruct (Z.eqb z 1) eqn:B; [apply Z.eqb_eq in B; intros [= <-]; subst; auto|discriminate].
    + destruct (existsb (pstr_eqb s) true_texts) eqn:A; [intros [= <-]; apply in_texts in A; eauto 10|].
      destruct (existsb (pstr_eqb s) false_texts) eqn:B; [intros [= <-]; apply in_texts in B; eauto 10|discriminate].
  - intros [->|[->|(s & -> & H)]]; [reflexivity|now destruct b|]. cbn -[existsb true_texts false_texts].
    destruct b.
    + apply in_texts in H. unfold true_texts. now rewrite H.
    + assert (T : existsb (pstr_eqb s) true_texts = false).
      { cbn in H. destruct H as [<-|[<-|[<-|[]]]]; reflexivity. }
      rewrite T. apply in_texts in H. unfold false_texts. now rewrite H.
Qed.
Lemma bool_total v : (exists b, bool_native v = Ok (VBool b)) \/ bool_native v = Raise (XConv [u "Must be either true or false."]).
Proof.
  destruct v; cbn -[existsb true_texts false_texts]; eauto.
  - destruct (Z.eqb z 0); [eauto|]. destruct (Z.eqb z 1); eauto.
  - destruct (existsb _ _); [eauto|]. destruct (existsb _ _); eauto.
Qed.

(** ** Hashes *)
Lemma hash_iff R n s : (exists w, hash_native R n (VStr s) = Ok w) <-> length s = n /\ exists z, int_literal (rt_uni R) 16 s z.
Proof.
  unfold hash_native. cbn. destruct (Nat.eqb (length s) n) eqn:A.
  - apply Nat.eqb_eq in A. destruct (int_text (rt_uni R) 16 s) as [z|] eqn:E.
    + apply int_text_iff in E. split; eauto.
    + split; [intros [w [=]]|]. intros [_ [z Hz]]. apply int_text_iff in Hz. congruence.
  - apply Nat.eqb_neq in A. split; [intros [w [=]]|]. intros [? _]. contradiction.
Qed.
Lemma hash_keeps R n v w : hash_native R n v = Ok w -> string_native v = Ok w.
Proof.
  unfold hash_native. destruct (string_native v) as [x|e]; cbn; [|discriminate].
  destruct x; try (intros [= <-]; reflexivity). destruct (Nat.eqb _ _); [|discriminate]. destruct (int_text _ _ _); [|discriminate].
  now intros [= <-].
Qed.
Lemma hash_digest R n s : length s = n -> s <> [] -> Forall hex_digit s -> hash_native R n (VStr s) = Ok (VStr s).
Proof.
  intros <- Hn H. unfold hash_native. cbn. rewrite Nat.eqb_refl. rewrite int_of_digits by (auto using hex_digits). reflexivity.
Qed.

(** ** Points *)
Lemma point_elems v : geo_elems v = match v with VTuple l | VList l => Some l | VDict d => Some (map snd d) | _ => None end.
Proof. reflexivity. Qed.
Lemma geo_iff v w : geo_native v = Ok w <-> w = v /\ exists x y, point v x y /\ real_number x /\ real_number y.
Proof.
  assert (RN : forall x, is_float_or_int x = true <-> real_number x).
  { intros x. split; [destruct x; try discriminate; intros _; constructor|]. destruct 1; reflexivity. }
  assert (PE : forall x y, point v x y <-> geo_elems v = Some [x; y]).
  { intros x y. split.
    - destruct 1; reflexivity.
    - destruct v; cbn; try discriminate.
      + intros [= ->]. constructor.
      + intros [= ->]. constructor.
      + destruct d as [|[k1 a] [|[k2 b] [|]]]; try discriminate. intros [= -> ->]. constructor. }
  unfold geo_native. destruct (geo_elems v) as [l|] eqn:E.
  - destruct l as [|x [|y [|z l]]]; cbn [length Nat.eqb negb].
    + split; [discriminate|]. intros (_ & x & y & P & _). apply PE in P. congruence.
    + split; [discriminate|]. intros (_ & x' & y & P & _). apply PE in P. congruence.
    + cbn [forallb]. rewrite andb_true_r. split.
      * destruct (is_float_or_int x && is_float_or_int y) eqn:B; [|discriminate]. apply andb_prop in B as [B1 B2]. intros [= <-].
        split; [reflexivity|]. exists x, y. repeat split; [now apply PE|now apply RN..].
      * intros (-> & x' & y' & P & Hx & Hy). pose proof (proj1 (PE _ _) P) as P'.
        injection P' as <- <-. apply RN in Hx, Hy. now rewrite Hx, Hy.
    + split; [discriminate|]. intros (_ & x' & y' & P & _). apply PE in P. congruence.
  - split; [discriminate|]. intros (_ & x' & y' & P & _). apply PE in P. congruence.
Qed.
Lemma geo_unfit v : (forall x y, ~ point v x y) ->
  match v with
  | VList _ | VTuple _ | VDict _ => geo_range v = Some (XPy EValueError)
  | VStr s => geo_range v = Some (XPy (if Nat.eqb (length s) 2 then ETypeError else EValueError))
  | VBytes _ | VModel _ _ => True
  | _ => geo_range v = Some (XPy ETypeError)
  end.
Proof.
  intros H. destruct v as [| | | | |s|b|l|l|d| | | | | | | |]; try exact I; try reflexivity.
  - destruct s as [|? [|? [|]]]; reflexivity.
  - destruct l as [|x [|y [|]]]; try reflexivity. destruct (H x y). constructor.
  - destruct l as [|x [|y [|]]]; try reflexivity. destruct (H x y). constructor.
  - destruct d as [|[k1 x] [|[k2 y] [|]]]; try reflexivity. destruct (H x y). constructor.
Qed.
Lemma geo_range_iff v x y p q : point v x y -> value_of x p -> value_of y q ->
  (geo_range v = None <-> -(90#1) <= p <= 90#1 /\ -(180#1) <= q <= 180#1) /\
  (geo_range v <> None -> exists m, geo_range v = Some (XValid false [m])).
Proof.
  intros P Hx Hy. assert (E : geo_normalize v = Ok [x; y]) by (destruct P; reflexivity). unfold geo_range. rewrite E.
  destruct (py_lt_value x (VInt (-90)) p _ Hx (vo_int _)) as (t1 & -> & T1).
  destruct (py_lt_value (VInt 90) x _ p (vo_int _) Hx) as (t2 & -> & T2).
  destruct (py_lt_value y (VInt (-180)) q _ Hy (vo_int _)) as (t3 & -> & T3).
  destruct (py_lt_value (VInt 180) y _ q (vo_int _) Hy) as (t4 & -> & T4).
  assert (N : forall (t : bool) a b, (t = true <-> a < b) -> t = false -> b <= a).
  { intros t a b T ->. apply Qnot_lt_le. intros K. apply T in K. discriminate. }
  unfold geo_check, valid_err.
  destruct t1; [split; [split; [discriminate|]|eauto]; intros [[A _] _]; exfalso; apply (Qlt_not_le _ _ (proj1 T1 eq_refl)); assumption|].
  destruct t2; [split; [split; [discriminate|]|eauto]; intros [[_ A] _]; exfalso; apply (Qlt_not_le _ _ (proj1 T2 eq_refl)); assumption|].
  destruct t3; [split; [split; [discriminate|]|eauto]; intros [_ [A _]]; exfalso; apply (Qlt_not_le _ _ (proj1 T3 eq_refl)); assumption|].
  destruct t4; [split; [split; [discriminate|]|eauto]; intros [_ [_ A]]; exfalso; apply (Qlt_not_le _ _ (proj1 T4 eq_refl)); assumption|].
  split; [|congruence]. split; [intros _|reflexivity].
  repeat split; [exact (N _ _ _ T1 eq_refl)|exact (N _ _ _ T2 eq_refl)|exact (N _ _ _ T3 eq_refl)|exact (N _ _ _ T4 eq_refl)].
Qed.

(** ** Localized text *)
Lemma cast_iff v s : multi_cast v = Ok (VStr s) <-> text_of v s.
Proof.
  split.
  - destruct v; cbn; try discriminate.
    + intros [= <-]. destruct b; constructor.
    + intros [= <-]. constructor.
    + intros [= <-]. constructor.
    + destruct (utf8_decode s0) as [t|] eqn:D; [|discriminate]. intros [= <-]. constructor. now apply utf8_inverse.
  - destruct 1 as [s|b s E|z| |]; cbn; try reflexivity. apply utf8_inverse in E. now rewrite E.
Qed.
Lemma multi_accepts (ctx dflt : locales) v w : (multi_native v = Ok w <-> w = v /\ (v = VNone \/ exists d, v = VDict d)) /\
  ((v <> VNone /\ forall d, v <> VDict d) -> multi_native v = Raise (XConv [u "Value must be a dict or None"])).
Proof.
  split.
  - split.
    + destruct v; try discriminate; intros [= <-]; split; eauto.
    + intros (-> & [->|(d & ->)]); reflexivity.
  - intros [H1 H2]. destruct v; try reflexivity; [now destruct H1|now destruct (H2 d)].
Qed.
Lemma pick_iff d ls v : pick_locale d ls = Some v <->
  exists before x after, ls = before ++ x :: after /\ dget x d = Some v /\ (forall y, In y before -> dget y d = None).
Proof.
  induction ls as [|l ls IH]; cbn.
  - split; [discriminate|]. intros (b & x & a & E & _). now destruct b.
  - destruct (dget l d) as [w|] eqn:G.
    + split.
      * intros [= <-]. exists [], l, ls. repeat split; auto. intros y [].
      * intros (b & x & a & E & Hx & Hb). destruct b as [|b0 b]; cbn in E; injection E as -> ->; [congruence|].
        specialize (Hb b0 (or_introl eq_refl)). congruence.
    + rewrite IH. split.
      * intros (b & x & a & -> & Hx & Hb). exists (l :: b), x, a. repeat split; auto. intros y [<-|Hy]; auto.
      * intros (b & x & a & E & Hx & Hb). destruct b as [|b0 b]; cbn in E; injection E as -> ->; [congruence|].
        exists b, x, a. repeat split; auto. intros y Hy. apply Hb. now right.
Qed.
Lemma pick_none d ls : pick_locale d ls = None <-> forall y, In y ls -> dget y d = None.
Proof.
  induction ls as [|l ls IH]; cbn; [split; [intros _ y []|reflexivity]|].
  destruct (dget l d) eqn:G; [split; [discriminate|]; intros H; specialize (H l (or_introl eq_refl)); congruence|].
  rewrite IH. split; [intros H y [<-|Hy]; auto|auto].
Qed.
Lemma multi_prim_iff ctx dflt d s : multi_prim ctx dflt (VDict d) = Ok (VStr s) <->
  exists before x after v, locale_list ctx ++ locale_list dflt = before ++ x :: after /\ dget x d = Some v /\
    (forall y, In y before -> dget y d = None) /\ text_of v s.
Proof.
  unfold multi_prim. destruct (locale_list ctx ++ locale_list dflt) as [|l ls] eqn:E.
  - split; [discriminate|]. intros (b & x & a & v & H & _). now destruct b.
  - destruct (pick_locale d (l :: ls)) as [v|] eqn:P.
    + rewrite cast_iff. pose proof (proj1 (pick_iff _ _ _) P) as (b & x & a & E' & Hx & Hb). split.
      * intros T. exists b, x, a, v. auto.
      * intros (b' & x' & a' & v' & E2 & Hx' & Hb' & T). assert (P' : pick_locale d (l :: ls) = Some v') by (apply pick_iff; eauto 10). congruence.
    + split; [discriminate|]. intros (b & x & a & v & E' & Hx & Hb & _). assert (P' : pick_locale d (l :: ls) = Some v) by (apply pick_iff; eauto 10). congruence.
Qed.
Lemma multi_missing ctx dflt d :
  (multi_prim ctx dflt (VDict d) = Raise (XConv [u "no_locale"]) <-> locale_list ctx ++ locale_list dflt = []) /\
  (multi_prim ctx dflt (VDict d) = Raise (XConv [u "locale_not_found"]) <->
     locale_list ctx ++ locale_list dflt <> [] /\ forall y, In y (locale_list ctx ++ locale_list dflt) -> dget y d = None).
Proof.
  assert (C : forall v m, multi_cast v = Raise (XConv [m]) -> m = u "convert").
  { intros v m. destruct v; cbn; try discriminate; try (intros [= <-]; reflexivity). destruct (utf8_decode s); discriminate. }
  unfold multi_prim. destruct (locale_list ctx ++ locale_list dflt) as [|l ls] eqn:E.
  - split; split; auto; try discriminate. intros [K _]. congruence.
  - destruct (pick_locale d (l :: ls)) as [v|] eqn:P.
    + split; split; try discriminate; try (intros K; apply C in K; discriminate).
      intros [_ K]. apply pick_none in K. congruence.
    + split; split; try discriminate. { intros _. split; [discriminate|]. now apply pick_none. } reflexivity.
Qed.

(** The value found is no text and cannot be cast. *)
Lemma multi_unfit ctx dflt d before x after v : locale_list ctx ++ locale_list dflt = before ++ x :: after -> dget x d = Some v ->
  (forall y, In y before -> dget y d = None) -> (forall s, ~ text_of v s) ->
  multi_prim ctx dflt (VDict d) = Raise (match v with VBytes _ => XPy EValueError | _ => XConv [u "convert"] end).
Proof.
  intros E Hx Hb T. assert (P : pick_locale d (locale_list ctx ++ locale_list dflt) = Some v) by (apply pick_iff; eauto 10).
  unfold multi_prim. destruct (locale_list ctx ++ locale_list dflt) as [|l ls] eqn:Q; [now destruct before|]. rewrite P.
  destruct v; cbn [multi_cast]; try reflexivity.
  - destruct b; exfalso; eapply T; constructor.
  - exfalso; eapply T; constructor.
  - exfalso; eapply T; constructor.
  - destruct (utf8_decode s) as [t|] eqn:D; [|reflexivity]. exfalso. apply (T t). constructor. now apply utf8_inverse.
Qed.

(** ** Idempotence *)
Lemma basic_idempotent R l v w : basic_leaf R l -> lf_native l v = Ok w -> lf_native l w = Ok w.
Proof.
  destruct 1; cbn [lf_native string_leaf int_type float_type decimal_type hash_type bool_type uuid_type geo_type multi_type].
  - intros H. apply string_result in H as [(s & -> & ->)|[(b & s & -> & _ & ->)|(z & -> & ->)]]; reflexivity.
  - intros H. apply int_result in H as [z ->]. reflexivity.
  - unfold float_native at 1. destruct v; cbn; try discriminate; try (intros [= <-]; reflexivity).
    + destruct (float_of_int _); cbn; [|discriminate]. now intros [= <-].
    + destruct (float_of_int _); cbn; [|discriminate]. now intros [= <-].
    + destruct (float_text _ _); [|discriminate]. now intros [= <-].
    + destruct (float_ascii _); [|discriminate]. now intros [= <-].
  - unfold decimal_native. intros H.
    assert (K : (exists c e, w = VDecimal c e) \/ w = VObj 0).
    { destruct v; try (injection H as <-; eauto; fail);
        try (destruct (decimal_text _ _) as [[? ?|]|]; [injection H as <-..|discriminate]; eauto; fail).
      destruct n; [injection H as <-; auto|]. destruct (decimal_text _ _) as [[? ?|]|]; [injection H as <-..|discriminate]; eauto. }
    destruct K as [(c & e & ->)| ->]; reflexivity.
  - intros H. pose proof (hash_keeps _ _ _ _ H) as S. unfold hash_native in *. rewrite S in H. cbn [rbind] in H.
    apply string_result in S as [(s & -> & ->)|[(b & s & -> & _ & ->)|(z & -> & ->)]]; exact H.
  - intros H. unfold bool_native. destruct (bool_total v) as [[b E]|E]; rewrite E in H; [|discriminate]. now injection H as <-.
  - destruct v; cbn; try discriminate; [|intros [= <-]; reflexivity]. destruct (uuid_text _ _); [|discriminate]. now intros [= <-].
  - intros H. pose proof (proj1 (geo_iff v w) H) as [-> _]. assumption.
  - destruct v; cbn; try discriminate; intros [= <-]; reflexivity.
Qed.

(** ** Errors *)
Lemma basic_errors R l v e : basic_leaf R l -> lf_native l v = Raise e ->
  field_error e \/ (exists strict s, l = int_type R strict /\ v = VFloat (S754_infinity s) /\ e = XPy EOverflowError) \/
  (exists z, l = float_type R /\ v = VInt z /\ float_of_int z = Raise (XPy EOverflowError) /\ e = XPy EOverflowError) \/
  (l = uuid_type R /\ (forall s, v <> VStr s) /\ e = XPy EAttributeError).
Proof.
  assert (FE : forall m, field_error (XConv [m])) by (intros m; exists [m]; auto).
  destruct 1; cbn [lf_native string_leaf int_type float_type decimal_type hash_type bool_type uuid_type geo_type multi_type].
  - destruct v; cbn; try discriminate; try (intros [= <-]; left; apply FE). destruct (utf8_decode _); [discriminate|]. intros [= <-]; left; apply FE.
  - unfold int_native. destruct v; cbn -[int_equals int_text num_trunc dyadic decimal_num andb negb]; try discriminate;
      try (intros [= <-]; left; apply FE; fail); try destruct f;
      cbn -[int_equals int_text num_trunc dyadic decimal_num andb negb]; brk; try discriminate; intros [= <-];
      try (left; apply FE; fail); right; left; eauto.
  - unfold float_native. assert (FI : forall z e', float_of_int z = Raise e' -> e' = XPy EOverflowError).
    { intros z e'. unfold float_of_int. destruct (binary_normalize _ _ _ _ _); try discriminate. now intros [= <-]. }
    destruct v; cbn; try discriminate; try (intros [= <-]; left; apply FE; fail).
    + destruct b; cbn; discriminate.
    + destruct (float_of_int z) eqn:F; cbn; [discriminate|]. intros [= <-]. pose proof (FI _ _ F). subst. right. right. left. eauto 10.
    + destruct (float_text _ _); [discriminate|]. intros [= <-]; left; apply FE.
    + destruct (float_ascii _); [discriminate|]. intros [= <-]; left; apply FE.
  - unfold decimal_native. intros H. left.
    assert (K : e = XConv [u "number_coerce"]).
    { destruct v; try discriminate H; try (destruct (decimal_text _ _) as [[? ?|]|]; [discriminate H..|]; now injection H as <-).
      destruct n; [discriminate H|]. destruct (decimal_text _ _) as [[? ?|]|]; [discriminate H..|]; now injection H as <-. }
    subst. apply FE.
  - unfold hash_native. destruct (string_native v) as [x|e'] eqn:S; cbn.
    + destruct x; try discriminate. destruct (Nat.eqb _ _); [destruct (int_text _ _ _); [discriminate|]|]; intros [= <-]; left; [apply FE|].
      exists [u "hash_length"]. auto.
    + intros [= <-]. left. destruct v; cbn in S; try discriminate; try (injection S as <-; apply FE).
      destruct (utf8_decode _); [discriminate|]. injection S as <-; apply FE.
  - intros H. destruct (bool_total v) as [[b E]|E]; rewrite E in H; [discriminate|]. injection H as <-. left. apply FE.
  - destruct v; cbn; try discriminate; try (intros [= <-]; (left; apply FE) || (right; right; right; repeat split; discriminate); fail).
    destruct (uuid_text _ _); [discriminate|]. intros [= <-]. left; apply FE.
  - unfold geo_native. destruct (geo_elems v); [destruct (negb _); [|destruct (negb _); [|discriminate]]|]; intros [= <-]; left; apply FE.
  - destruct v; cbn; try discriminate; intros [= <-]; left; apply FE.
Qed.

(** ** Round trips *)
Lemma uuid_round R n : (n < 2 ^ 128)%N -> rbind (uuid_prim R (VUUID n)) (uuid_native R) = Ok (VUUID n).
Proof. intros H. cbn [uuid_prim rbind]. unfold uuid_native. now rewrite uuid_str_text. Qed.
Lemma decimal_round R c e : rbind (decimal_prim R (VDecimal c e)) (decimal_native R) = Ok (VDecimal c e).
Proof. cbn [decimal_prim rbind]. unfold decimal_native. now rewrite decimal_str_text. Qed.
Lemma decimal_bool R : decimal_native R (VBool true) = Ok (VDecimal 1 0) /\ decimal_native R (VBool false) = Ok (VDecimal 0 0).
Proof. split; reflexivity. Qed.
Lemma decimal_int R z : decimal_native R (VInt z) = Ok (VDecimal z 0).
Proof. unfold decimal_native. now rewrite decimal_of_int. Qed.
Lemma int_round R strict z : int_native R strict (VStr (dec_text z)) = Ok (VInt z).
Proof. apply int_text_ok. apply int_text_iff. apply int_dec_text. Qed.
Lemma string_utf8 s b : utf8_encode s = Some b -> string_native (VBytes b) = Ok (VStr s).
Proof. intros H. apply string_result. eauto 10. Qed.
Lemma string_invalid b : (forall s, utf8_encode s <> Some b) -> string_native (VBytes b) = Raise (XConv [u "decode"]).
Proof.
  intros H. cbn. destruct (utf8_decode b) as [s|] eqn:E; [|reflexivity]. apply utf8_inverse in E. now apply H in E.
Qed.

Lemma int_refuses R strict v : (forall s, v <> VStr s) -> (forall q, ~ value_of v q) -> (forall s, v <> VFloat (S754_infinity s)) ->
  int_native R strict v = Raise (XConv [u "number_coerce"]).
Proof.
  intros Ns Nv Ni. destruct v; try reflexivity.
  - exfalso. eapply Nv. apply vo_bool.
  - exfalso. eapply Nv. apply vo_int.
  - destruct f; try reflexivity; exfalso; try (now eapply Ni); eapply Nv; constructor.
  - exfalso. now eapply Ns.
  - cbn. destruct (int_text _ 10 s); [|reflexivity]. unfold int_equals. cbn. now rewrite andb_false_r.
  - cbn. unfold int_equals. cbn. now rewrite andb_false_r.
  - exfalso. eapply Nv. apply vo_decimal.
Qed.

(** ** Validation of localized text *)

Lemma bounded_iff lo hi n :
  (if match hi with Some m => (m <? n)%Z | None => false end then Some (XValid false [u "max_length"])
   else if match lo with Some m => (n <? m)%Z | None => false end then Some (XValid false [u "min_length"]) else None) = None
  <-> bounded lo hi n.
Proof.
  unfold bounded. split.
  - destruct hi as [h|]; destruct lo as [l|]; repeat match goal with |- context [(?a <? ?b)%Z] => destruct (Z.ltb_spec a b) end;
      intros E; try discriminate E; split; intros m [= <-]; lia.
  - intros [H1 H2]. destruct hi as [h|]; [specialize (H2 h eq_refl); destruct (Z.ltb_spec h n); [lia|]|];
      (destruct lo as [l|]; [specialize (H1 l eq_refl); destruct (Z.ltb_spec n l); [lia|]|]); reflexivity.
Qed.

Lemma local_len_text v : v = VNone \/ (exists s, v = VStr s) -> exists n, local_len v = Ok n /\ characters v n.
Proof.
  intros [->|[s ->]].
  - exists 0%Z. split; [reflexivity|constructor].
  - exists (Z.of_nat (length s)). split; [|constructor]. destruct s; reflexivity.
Qed.
Lemma characters_fun v n m : characters v n -> characters v m -> n = m.
Proof. destruct 1; inversion 1; reflexivity. Qed.

Lemma multi_length_iff lo hi d : localized d ->
  (multi_length lo hi (VDict d) = None <-> forall x v n, In (x, v) d -> characters v n -> bounded lo hi n).
Proof.
  cbn [multi_length]. induction d as [|[x v] d IH]; intros L.
  - split; [intros _ ? ? ? []|reflexivity].
  - cbn [multi_length_items]. destruct (L x v (or_introl eq_refl)) as [_ Hv].
    destruct (local_len_text v Hv) as (n & -> & Hn).
    assert (L' : localized d) by (intros y w K; apply L; now right). specialize (IH L').
    pose proof (bounded_iff lo hi n) as B.
    destruct (match hi with Some m => (m <? n)%Z | None => false end).
    { split; [discriminate|]. intros H. specialize (H x v n (or_introl eq_refl) Hn). apply B in H. discriminate H. }
    destruct (match lo with Some m => (n <? m)%Z | None => false end).
    { split; [discriminate|]. intros H. specialize (H x v n (or_introl eq_refl) Hn). apply B in H. discriminate H. }
    rewrite IH. split.
    + intros H y w m [[= <- <-]|K] Hm; [|eauto]. rewrite (characters_fun _ _ _ Hm Hn). now apply B.
    + intros H y w m K. apply (H y w m). now right.
Qed.

Lemma multi_regex_iff re lre d : (forall x v, In (x, v) d -> (exists n, x = KStr n) /\ exists s, v = VStr s) ->
  (multi_regex re lre (VDict d) = None <->
   forall n s, In (KStr n, VStr s) d -> (forall p, re = Some p -> p s = true) /\ (forall p, lre = Some p -> p n = true)).
Proof.
  intros L. transitivity (multi_regex_items re lre d = None).
  - unfold multi_regex. destruct re, lre; try reflexivity.
    split; [intros _|reflexivity]. clear L. induction d as [|[x v] d IH]; [reflexivity|exact IH].
  - induction d as [|[x v] d IH]; [split; [intros _ ? ? []|reflexivity]|].
    destruct (L x v (or_introl eq_refl)) as [[n ->] [s ->]].
    assert (IH' := IH (fun y w K => L y w (or_intror K))). clear IH. cbn [multi_regex_items key_val].
    unfold no_match at 1. destruct re as [p|].
    + destruct (p s) eqn:Ps.
      * unfold no_match. destruct lre as [q|].
        -- destruct (q n) eqn:Qn.
           ++ rewrite IH'. split.
              ** intros H m t [[= <- <-]|K]; [|auto]. split; intros ? [= <-]; assumption.
              ** intros H m t K. apply H. now right.
           ++ split; [discriminate|]. intros H. destruct (H n s (or_introl eq_refl)) as [_ H2]. now rewrite (H2 q eq_refl) in Qn.
        -- rewrite IH'. split.
           ++ intros H m t [[= <- <-]|K]; [|auto]. split; [intros ? [= <-]; assumption|discriminate].
           ++ intros H m t K. apply H. now right.
      * split; [discriminate|]. intros H. destruct (H n s (or_introl eq_refl)) as [H1 _]. now rewrite (H1 p eq_refl) in Ps.
    + unfold no_match. destruct lre as [q|].
      * destruct (q n) eqn:Qn.
        -- rewrite IH'. split.
           ++ intros H m t [[= <- <-]|K]; [|auto]. split; [discriminate|intros ? [= <-]; assumption].
           ++ intros H m t K. apply H. now right.
        -- split; [discriminate|]. intros H. destruct (H n s (or_introl eq_refl)) as [_ H2]. now rewrite (H2 q eq_refl) in Qn.
      * rewrite IH'. split.
        -- intros H m t [[= <- <-]|K]; [|auto]. split; discriminate.
        -- intros H m t K. apply H. now right.
Qed.

Lemma is_lower_iff c : is_lower c = true <-> lower_letter c.
Proof. unfold is_lower, lower_letter. rewrite andb_true_iff, !N.leb_le. reflexivity. Qed.
Lemma is_upper_iff c : is_upper c = true <-> upper_letter c.
Proof. unfold is_upper, upper_letter. rewrite andb_true_iff, !N.leb_le. reflexivity. Qed.
Lemma at_end_iff l : at_end l = true <-> l = [] \/ l = [10%N].
Proof.
  destruct l as [|c [|d l]]; cbn.
  - split; auto.
  - rewrite N.eqb_eq. split; [intros ->; now right|intros [H|H]; [discriminate|now injection H]].
  - split; [discriminate|intros [H|H]; discriminate].
Qed.

Lemma locale_ok_iff s : locale_ok s = true <-> exists t, locale_name t /\ (s = t \/ s = (t ++ [10%N])%list).
Proof.
  split.
  - destruct s as [|a [|b r]]; try discriminate. cbn [locale_ok]. rewrite !andb_true_iff, orb_true_iff, !is_lower_iff, at_end_iff.
    intros [[Ha Hb] [Hr|Hr]].
    { exists [a; b]. split; [now constructor|]. destruct Hr as [->| ->]; [now left|now right]. }
    assert (K : forall q, match q with us :: x :: y :: r' => (us =? 95)%N && is_upper x && is_upper y && at_end r' | _ => false end = true ->
      exists x y r', q = 95%N :: x :: y :: r' /\ upper_letter x /\ upper_letter y /\ (r' = [] \/ r' = [10%N])).
    { intros [|us [|x [|y r']]]; try discriminate. rewrite !andb_true_iff, N.eqb_eq, !is_upper_iff, at_end_iff.
      intros [[[-> Hx] Hy] He]. exists x, y, r'. auto. }
    destruct r as [|c r]; [discriminate|]. destruct (c =? 58)%N eqn:Ec.
    + apply N.eqb_eq in Ec. subst c. apply K in Hr. destruct Hr as (x & y & r' & -> & Hx & Hy & He).
      exists [a; b; 58%N; 95%N; x; y]. split; [now constructor|]. destruct He as [->| ->]; [now left|now right].
    + apply (K (c :: r)) in Hr. destruct Hr as (x & y & r' & [= -> ->] & Hx & Hy & He).
      exists [a; b; 95%N; x; y]. split; [now constructor|]. destruct He as [->| ->]; [now left|now right].
  - intros (t & Ht & Hs).
    destruct Ht as [a b Ha Hb|a b x y Ha Hb Hx Hy|a b x y Ha Hb Hx Hy]; apply is_lower_iff in Ha, Hb;
      try (apply is_upper_iff in Hx, Hy); destruct Hs as [->| ->]; cbn [locale_ok app]; rewrite Ha, Hb;
      try (change (95 =? 58)%N with false; change (58 =? 58)%N with true; cbv iota; rewrite Hx, Hy); reflexivity.
Qed.

(** Patterns are only for texts. *)
Lemma multi_regex_mapping re lre v : re <> None \/ lre <> None -> (forall d, v <> VDict d) -> multi_regex re lre v = Some (XPy EAttributeError).
Proof. intros H N. unfold multi_regex. destruct re, lre; try (destruct H; congruence); destruct v; try reflexivity; now destruct (N d). Qed.
Lemma multi_length_mapping lo hi v : (forall d, v <> VDict d) -> multi_length lo hi v = Some (XPy EAttributeError).
Proof. intros N. destruct v; try reflexivity. now destruct (N d). Qed.
Lemma multi_regex_text p lre d x v r : (forall y w, In (y, w) d -> exists s, w = VStr s /\ p s = true) ->
  (forall q, lre = Some q -> forall y w, In (y, w) d -> exists n, y = KStr n /\ q n = true) ->
  (forall s, v <> VStr s) -> multi_regex (Some p) lre (VDict (d ++ (x, v) :: r)) = Some (XPy ETypeError).
Proof.
  intros H K N. cbn [multi_regex]. induction d as [|[y w] d IH].
  - cbn. destruct v; try reflexivity. now destruct (N s).
  - cbn [app multi_regex_items]. destruct (H y w (or_introl eq_refl)) as (s & -> & P). cbn [no_match]. rewrite P.
    assert (IH' : multi_regex_items (Some p) lre (d ++ (x, v) :: r) = Some (XPy ETypeError)).
    { apply IH; [intros z t I; apply (H z t); now right|intros q Q z t I; apply (K q Q z t); now right]. }
    unfold no_match. destruct lre as [q|]; [|exact IH'].
    destruct (K q eq_refl y _ (or_introl eq_refl)) as (n & -> & Q). cbn [key_val]. now rewrite Q.
Qed.

Lemma length_unsized lo hi v : match v with VStr _ | VBytes _ | VList _ | VTuple _ | VDict _ | VModel _ _ => False | _ => True end ->
  validate_length lo hi v = Some (XPy ETypeError).
Proof. destruct v; cbn; try contradiction; reflexivity. Qed.
Lemma regex_text p v : (forall s, v <> VStr s) -> validate_regex (Some p) v = Some (XPy ETypeError).
Proof. intros H. destruct v; try reflexivity. now destruct (H s). Qed.
