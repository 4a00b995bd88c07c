(** Which texts are read as dates; the parsers given by the user; rounding. *)
From Coq Require Import ZArith NArith List Bool Lia.
From Verif.Model Require Import Py Core Num Calendar Text Types DateTime.
From Verif.Spec Require Import TextSpec TypeSpec DateSpec.
From Verif.Proofs Require Import CalendarLemmas DateTimeLemmas IsoText.
Local Open Scope N_scope.

Lemma digit_in_iff a b s v r : digit_in a b s = Some (v, r) <-> exists c, s = c :: r /\ 48 + a <= c <= 48 + b /\ v = Z.of_N (c - 48).
Proof.
  destruct s as [|c s]; cbn; [split; [discriminate|intros (c & H & _); discriminate]|].
  destruct (N.leb_spec (48 + a) c); cbn [andb].
  - destruct (N.leb_spec c (48 + b)).
    + split; [intros [= <- <-]; eauto 6|]. intros (c' & [= <- <-] & _ & ->). reflexivity.
    + split; [discriminate|]. intros (c' & [= <- <-] & ? & _). lia.
  - split; [discriminate|]. intros (c' & [= <- <-] & ? & _). lia.
Qed.
Lemma take_char_iff x s r : take_char x s = Some r <-> s = x :: r.
Proof.
  destruct s as [|c s]; cbn; [split; discriminate|]. destruct (N.eqb_spec c x) as [->|H].
  - split; intros [= <-]; reflexivity.
  - split; [discriminate|]. intros [= -> _]. contradiction.
Qed.
Lemma obind_Some {A B} (o : option A) (f : A -> option B) y : obind o f = Some y <-> exists x, o = Some x /\ f x = Some y.
Proof. destruct o; cbn; [|split; [discriminate|intros (x & H & _); discriminate]]. split; [eauto|]. intros (x & [= <-] & H). exact H. Qed.

Lemma month_dash_iff s v r : month_dash s = Some (v, r) <-> exists l, s = (l ++ 45 :: r)%list /\ month_text l v.
Proof.
  unfold month_dash. split.
  - destruct (obind (digit_in 1 1 s) _) as [[v1 r1]|] eqn:A.
    { intros [= -> ->]. apply obind_Some in A as ([t r0] & A1 & A). apply obind_Some in A as ([w r2] & A2 & A).
      apply obind_Some in A as (r3 & A3 & [= <- <-]). apply digit_in_iff in A1 as (c1 & -> & H1 & _).
      apply digit_in_iff in A2 as (c2 & -> & H2 & ->). apply take_char_iff in A3 as ->.
      assert (c1 = 49) as -> by lia. exists [49; c2]. split; [reflexivity|]. now apply mt_ten. }
    destruct (obind (digit_in 0 0 s) _) as [[v1 r1]|] eqn:B.
    { intros [= -> ->]. apply obind_Some in B as ([t r0] & A1 & B). apply obind_Some in B as ([w r2] & A2 & B).
      apply obind_Some in B as (r3 & A3 & [= <- <-]). apply digit_in_iff in A1 as (c1 & -> & H1 & _).
      apply digit_in_iff in A2 as (c2 & -> & H2 & ->). apply take_char_iff in A3 as ->.
      assert (c1 = 48) as -> by lia. exists [48; c2]. split; [reflexivity|]. now apply mt_zero. }
    intros C. apply obind_Some in C as ([w r2] & A2 & C). apply obind_Some in C as (r3 & A3 & [= <- <-]).
    apply digit_in_iff in A2 as (c2 & -> & H2 & ->). apply take_char_iff in A3 as ->. exists [c2]. split; [reflexivity|]. now apply mt_one.
  - intros (l & -> & M). destruct M as [c H|c H|c H]; cbn [app].
    + assert (A : obind (digit_in 1 1 (c :: 45 :: r)) (fun '(_, r) => obind (digit_in 0 2 r) (fun '(v, r) => obind (take_char 45 r) (fun r => Some ((10 + v)%Z, r)))) = None).
      { unfold digit_in at 1. destruct (_ && _); reflexivity. }
      rewrite A. unfold digit_in at 1. replace (48 + 0 <=? c) with true by (symmetry; apply N.leb_le; lia).
      replace (c <=? 48 + 0) with false by (symmetry; apply N.leb_gt; lia). cbn [andb obind].
      apply obind_Some. exists (Z.of_N (c - 48), 45 :: r). split; [apply digit_in_iff; exists c; repeat split; lia|reflexivity].
    + change (obind (digit_in 1 1 (48 :: c :: 45 :: r)) _) with (@None (Z * pstr)). cbv iota.
      replace (obind (digit_in 0 0 (48 :: c :: 45 :: r)) _) with (Some (Z.of_N (c - 48), r)); [reflexivity|].
      symmetry. apply obind_Some. exists (0%Z, c :: 45 :: r). split; [reflexivity|].
      apply obind_Some. exists (Z.of_N (c - 48), 45 :: r). split; [apply digit_in_iff; exists c; repeat split; lia|reflexivity].
    + replace (obind (digit_in 1 1 (49 :: c :: 45 :: r)) _) with (Some ((10 + Z.of_N (c - 48))%Z, r)); [reflexivity|].
      symmetry. apply obind_Some. exists (1%Z, c :: 45 :: r). split; [reflexivity|].
      apply obind_Some. exists (Z.of_N (c - 48), 45 :: r). split; [apply digit_in_iff; exists c; repeat split; lia|reflexivity].
Qed.

Lemma day_part_iff U s v : day_part U s = Some (v, []) <-> day_text U s v.
Proof.
  unfold day_part. split.
  - destruct (obind (digit_in 3 3 s) _) as [[v1 r1]|] eqn:A.
    { intros [= -> ->]. apply obind_Some in A as ([t r0] & A1 & A). apply obind_Some in A as ([w r2] & A2 & [= <- ->]).
      apply digit_in_iff in A1 as (c1 & -> & H1 & _). apply digit_in_iff in A2 as (c2 & -> & H2 & ->).
      assert (c1 = 51) as -> by lia. now apply dy_thirty. }
    destruct (obind (digit_in 1 2 s) _) as [[v1 r1]|] eqn:B.
    { intros [= -> ->]. apply obind_Some in B as ([t r0] & A1 & B). apply obind_Some in B as ([w r2] & A2 & [= <- ->]).
      apply digit_in_iff in A1 as (c1 & -> & H1 & ->). apply take_digit_iff in A2 as (c2 & -> & H2). now apply dy_tens. }
    destruct (obind (digit_in 0 0 s) _) as [[v1 r1]|] eqn:C.
    { intros [= -> ->]. apply obind_Some in C as ([t r0] & A1 & A2).
      apply digit_in_iff in A1 as (c1 & -> & H1 & _). apply digit_in_iff in A2 as (c2 & -> & H2 & ->).
      assert (c1 = 48) as -> by lia. now apply dy_zero. }
    destruct (digit_in 1 9 s) as [[v1 r1]|] eqn:D.
    { intros [= -> ->]. apply digit_in_iff in D as (c & -> & H & ->). now apply dy_one. }
    intros F. apply obind_Some in F as (r & H & F). apply take_char_iff in H as ->.
    apply digit_in_iff in F as (c & -> & H & ->). now apply dy_blank.
  - intros D. destruct D as [c H|c H|c H|t c v Ht H|c H].
    + replace (obind (digit_in 3 3 [c]) _) with (@None (Z * pstr)) by (unfold digit_in at 1; destruct (_ && _); reflexivity).
      replace (obind (digit_in 1 2 [c]) _) with (@None (Z * pstr)) by (unfold digit_in at 1; destruct (_ && _); reflexivity).
      replace (obind (digit_in 0 0 [c]) _) with (@None (Z * pstr)) by (unfold digit_in at 1; destruct (_ && _); reflexivity).
      replace (digit_in 1 9 [c]) with (Some (Z.of_N (c - 48), @nil N)); [reflexivity|].
      symmetry. apply digit_in_iff. exists c. repeat split; lia.
    + change (obind (digit_in 3 3 [48; c]) _) with (@None (Z * pstr)). change (obind (digit_in 1 2 [48; c]) _) with (@None (Z * pstr)). cbv iota.
      replace (obind (digit_in 0 0 [48; c]) _) with (Some (Z.of_N (c - 48), @nil N)); [reflexivity|].
      symmetry. apply obind_Some. exists (0%Z, [c]). split; [reflexivity|]. apply digit_in_iff. exists c. repeat split; lia.
    + change (obind (digit_in 3 3 [32; c]) _) with (@None (Z * pstr)). change (obind (digit_in 1 2 [32; c]) _) with (@None (Z * pstr)).
      change (obind (digit_in 0 0 [32; c]) _) with (@None (Z * pstr)). change (digit_in 1 9 [32; c]) with (@None (Z * pstr)). cbv iota.
      apply obind_Some. exists [c]. split; [reflexivity|]. apply digit_in_iff. exists c. repeat split; lia.
    + replace (obind (digit_in 3 3 [t; c]) _) with (@None (Z * pstr)).
      2:{ unfold digit_in at 1. replace (48 + 3 <=? t) with false by (symmetry; apply N.leb_gt; lia). reflexivity. }
      replace (obind (digit_in 1 2 [t; c]) _) with (Some ((10 * Z.of_N (t - 48) + v)%Z, @nil N)); [reflexivity|].
      symmetry. apply obind_Some. exists (Z.of_N (t - 48), [c]). split; [apply digit_in_iff; exists t; repeat split; lia|].
      apply obind_Some. exists (v, @nil N). split; [apply take_digit_iff; eauto|reflexivity].
    + replace (obind (digit_in 3 3 [51; c]) _) with (Some ((30 + Z.of_N (c - 48))%Z, @nil N)); [reflexivity|].
      symmetry. apply obind_Some. exists (3%Z, [c]). split; [reflexivity|].
      apply obind_Some. exists (Z.of_N (c - 48), @nil N). split; [apply digit_in_iff; exists c; repeat split; lia|reflexivity].
Qed.

Lemma ymd_parse_iff U s d : ymd_parse U s = Some d <-> date_text U s d /\ valid_date d = true.
Proof.
  unfold ymd_parse. split.
  - intros H. apply obind_Some in H as ([y r1] & H1 & H). apply obind_Some in H as (r2 & H2 & H).
    apply obind_Some in H as ([m r3] & H3 & H). apply obind_Some in H as ([dd r4] & H4 & H).
    destruct r4 as [|? ?]; [|discriminate]. destruct (valid_date (PyDate y m dd)) eqn:V; [|discriminate]. injection H as <-.
    split; [|exact V]. apply digits_of_take in H1 as (ys & -> & Y). apply take_char_iff in H2 as ->.
    apply month_dash_iff in H3 as (ms & -> & M). apply day_part_iff in H4. exists ys, ms, r3. auto.
  - intros [(ys & ms & ds & -> & Y & M & D) V]. apply obind_Some. exists (d_year d, (45 :: ms ++ 45 :: ds)%list).
    split; [now apply digits_take|]. apply obind_Some. eexists. split; [reflexivity|].
    apply obind_Some. exists (d_month d, ds). split; [apply month_dash_iff; eauto|].
    apply obind_Some. exists (d_day d, @nil N). split; [now apply day_part_iff|]. destruct d as [y m dd]. cbn in *. now rewrite V.
Qed.

(** A text without formats given. *)
Lemma date_accepts R s w : date_native R [] (VStr s) = Ok w <->
  exists d, date_text (rt_uni R) s d /\ valid_date d = true /\ w = VDate d.
Proof.
  unfold date_native. cbn [date_formats first_format ymd_format]. destruct (ymd_parse (rt_uni R) s) as [d|] eqn:P.
  - apply ymd_parse_iff in P as [T V]. split; [intros [= <-]; eauto|]. intros (d' & T' & V' & ->).
    assert (P : ymd_parse (rt_uni R) s = Some d) by (apply ymd_parse_iff; auto).
    assert (P' : ymd_parse (rt_uni R) s = Some d') by (apply ymd_parse_iff; auto). congruence.
  - split; [discriminate|]. intros (d' & T' & V' & _). assert (P' : ymd_parse (rt_uni R) s = Some d') by (apply ymd_parse_iff; auto). congruence.
Qed.
Lemma date_refuses R v : (forall d, v <> VDate d) -> ~ is_datetime v ->
  (date_native R [] v = conv_err "parse" <-> forall s d, v = VStr s -> date_text (rt_uni R) s d -> valid_date d = false).
Proof.
  intros Nd Nt. destruct v; try (split; [intros _ ? ? [=]|reflexivity]); try (exfalso; now eapply Nd).
  - unfold date_native. cbn [date_formats first_format ymd_format]. destruct (ymd_parse (rt_uni R) s) as [d|] eqn:P.
    + apply ymd_parse_iff in P as [T V]. split; [discriminate|]. intros H. now rewrite (H s d eq_refl T) in V.
    + split; [|reflexivity]. intros _ s' d [= <-] T. destruct (valid_date d) eqn:V; [|reflexivity].
      assert (P' : ymd_parse (rt_uni R) s = Some d) by (apply ymd_parse_iff; auto). congruence.
  - exfalso. apply Nt. eexists _, _, _. reflexivity.
Qed.
Lemma date_export R d t z : date_prim R (VDateTime d t z) = date_prim R (VDate d).
Proof. reflexivity. Qed.

Lemma date_in_datetime_field R o d :
  (exists s, lf_prim (dt_type R o XIso) (VDate d) = Ok (VStr s) /\ lf_prim (dt_type R o XIso) (VDateTime d (PyTime 0 0 0 0) None) = Ok (VStr s)) /\
  (exists s, lf_prim (dt_type R o XIsoZ) (VDate d) = Ok (VStr s) /\ lf_prim (dt_type R o XIsoZ) (VDateTime d (PyTime 0 0 0 0) None) = Ok (VStr s)) /\
  lf_prim (dt_type R o XTimestamp) (VDate d) = Raise (XPy EAttributeError).
Proof. split; [|split]; try (eexists; split; [reflexivity|]); try reflexivity. cbn. now rewrite app_nil_r. Qed.
Lemma date_unfit R fmts v : (forall d, v <> VDate d) -> ~ is_datetime v -> lf_prim (date_type R fmts) v = Raise (XPy EAttributeError).
Proof. intros A B. destruct v; try reflexivity; [now destruct (A d)|]. destruct B. do 3 eexists. reflexivity. Qed.
Lemma dt_unfit R o e v : (forall d, v <> VDate d) -> ~ is_datetime v -> (forall f, e <> XCustom f) ->
  lf_prim (dt_type R o e) v = Raise (XPy EAttributeError).
Proof.
  intros A B C. destruct e as [| |f|]; [| |now destruct (C f)|];
    (destruct v; try reflexivity; try (now destruct (A d)); destruct B; do 3 eexists; reflexivity).
Qed.
Lemma delta_unfit R p v : (forall us, v <> VTimedelta us) -> lf_prim (delta_type R p) v = Raise (XPy EAttributeError).
Proof. intros A. destruct v; try reflexivity. now destruct (A us). Qed.

Lemma external_parser R o f v : dt_how o = PExternal f ->
  (forall x, dt_read R (dt_how o) v = Ok x <-> f v = Some x) /\ (dt_read R (dt_how o) v = conv_err "parse_external" <-> f v = None).
Proof. intros ->. cbn. destruct (f v) as [x|]; (split; [intros y; split|split]); intros H; try discriminate; congruence. Qed.

Lemma utc_fields R v w : dt_native R utc_opts v = Ok w -> exists d t, w = VDateTime d t None.
Proof. intros H. apply native_shape in H as (d & t & z & -> & H & _). exists d, t. now rewrite (H eq_refl). Qed.
Lemma utc_instant R v d t off w : reads R utc_opts v d t (Some off) -> valid_date d = true -> valid_time t = true ->
  dt_native R utc_opts v = Ok w -> exists d' t', w = VDateTime d' t' None /\ instant d' t' 0 = instant d t off.
Proof.
  intros Hr Hd Ht H. destruct (convert_keeps_instant R utc_opts v d t off w Hr Hd Ht eq_refl H) as (d' & t' & -> & I & _). eauto.
Qed.
Lemma timestamp_fields R drop v d t : reads R (timestamp_opts drop) v d t None ->
  ((exists w, dt_native R (timestamp_opts drop) v = Ok w) <-> drop = true /\ is_datetime v).
Proof. intros H. rewrite (accepts_naive R (timestamp_opts drop) v d t H). cbn. intuition. Qed.
Lemma timestamp_fields_utc R drop v w : dt_native R (timestamp_opts drop) v = Ok w ->
  exists d t, w = VDateTime d t (if drop then None else Some 0%Z).
Proof.
  intros H. apply native_shape in H as (d & t & z & -> & H1 & _ & H2 & H3). exists d, t. cbn in *. destruct drop.
  - now rewrite H1.
  - destruct (H3 eq_refl) as [->| ->]; [now elim (H2 (or_introl eq_refl) eq_refl)|reflexivity].
Qed.

Local Open Scope Z_scope.
Lemma round_half_even_iff n d q : round_half_even n d = q <->
  2 * Z.abs (n - q * Zpos d) < Zpos d \/ (2 * Z.abs (n - q * Zpos d) = Zpos d /\ Z.even q = true).
Proof.
  assert (E : n = Zpos d * (n / Zpos d) + n mod Zpos d) by (apply Z.div_mod; lia).
  assert (B : 0 <= n mod Zpos d < Zpos d) by (apply Z.mod_pos_bound; lia).
  assert (U : forall p, 2 * Z.abs (n - p * Zpos d) < Zpos d \/ (2 * Z.abs (n - p * Zpos d) = Zpos d /\ Z.even p = true) ->
    forall p', 2 * Z.abs (n - p' * Zpos d) < Zpos d \/ (2 * Z.abs (n - p' * Zpos d) = Zpos d /\ Z.even p' = true) -> p = p').
  { intros p Hp p' Hp'.
    assert (K : (p - p') * Zpos d = (n - p' * Zpos d) - (n - p * Zpos d)) by ring.
    assert (S : Z.abs ((p - p') * Zpos d) <= Zpos d) by (rewrite K; lia).
    rewrite Z.abs_mul in S. change (Z.abs (Z.pos d)) with (Z.pos d) in S.
    assert (T : Z.abs (p - p') <= 1) by nia.
    destruct (Z.eq_dec p p') as [|Ne]; [assumption|exfalso].
    destruct Hp as [Hp|[Hp Ep]], Hp' as [Hp'|[Hp' Ep']]; try nia.
    assert (p = p' + 1 \/ p' = p + 1) as [->| ->] by lia; rewrite Z.even_add in *; cbn in *;
      [rewrite Ep' in Ep|rewrite Ep in Ep']; discriminate. }
  assert (P : let q := round_half_even n d in 2 * Z.abs (n - q * Zpos d) < Zpos d \/ (2 * Z.abs (n - q * Zpos d) = Zpos d /\ Z.even q = true)).
  { cbv zeta. unfold round_half_even. set (a := n / Zpos d) in *. set (r := n mod Zpos d) in *.
    destruct (Z.ltb_spec (2 * r) (Zpos d)); [left; nia|]. destruct (Z.ltb_spec (Zpos d) (2 * r)); [left; nia|].
    destruct (Z.even a) eqn:Ev; [right; split; [nia|exact Ev]|]. right. split; [nia|]. rewrite Z.even_add, Ev. reflexivity. }
  split; [intros <-; exact P|]. intros H. exact (U _ P _ H).
Qed.
