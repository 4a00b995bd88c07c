(** Texts of dates and datetimes are read back. *)
From Verif.Model Require Import Py Core Num Calendar Text Types DateTime.
From Verif.Proofs Require Import TextLemmas NumText CalendarLemmas.
Local Open Scope N_scope.

Lemma udigit_of U c v : base_digit 10 c = Some v -> udigit U c = Some v /\ 48 <= c <= 57 /\ digit_val c = Some v.
Proof.
  intros H. apply base_digit_some in H as [H L]. unfold digit_val in H. unfold udigit.
  destruct ((48 <=? c) && (c <=? 57)) eqn:E.
  - apply andb_prop in E as [E1 E2]. apply N.leb_le in E1, E2. destruct (N.ltb_spec c 128); [|lia].
    split; [assumption|]. split; [lia|]. unfold digit_val. rewrite (proj2 (N.leb_le 48 c)), (proj2 (N.leb_le c 57)) by lia. assumption.
  - exfalso. destruct ((97 <=? c) && (c <=? 122)) eqn:E1.
    + injection H as <-. apply andb_prop in E1 as [E1 E2]. apply N.leb_le in E1, E2. lia.
    + destruct ((65 <=? c) && (c <=? 90)) eqn:E2; [|discriminate].
      injection H as <-. apply andb_prop in E2 as [E2 E3]. apply N.leb_le in E2, E3. lia.
Qed.
Lemma take_digits_ok U l : forall acc rest, all_digits 10 l ->
  take_digits U (length l) (Z.of_N acc) (l ++ rest) = Some (Z.of_N (dval 10 l acc), rest).
Proof.
  induction l as [|c l IH]; intros acc rest H; [reflexivity|]. inversion H as [|? ? [v Hv] Hl]; subst.
  destruct (udigit_of U c v Hv) as (Hu & Hc & Hd). cbn [length take_digits app take_digit]. rewrite Hu.
  replace (Z.of_N acc * 10 + Z.of_N v)%Z with (Z.of_N (acc * 10 + v)) by lia. rewrite IH by assumption.
  do 3 f_equal. unfold dval. cbn [fold_left]. now rewrite Hd.
Qed.
Lemma padded_read U w n rest : n < 10 ^ N.of_nat w -> take_digits U w 0 (padded w 10 n ++ rest) = Some (Z.of_N n, rest).
Proof.
  intros H. destruct (padded_ok 10 w ltac:(lia) n H) as (A & D & L).
  pose proof (take_digits_ok U (padded w 10 n) 0 rest A) as T. rewrite L, D in T. exact T.
Qed.
Lemma two_read U z rest : (0 <= z <= 99)%Z -> take_digits U 2 0 (two_digits z ++ rest) = Some (z, rest).
Proof. intros H. unfold two_digits. rewrite padded_read by (change (10 ^ N.of_nat 2) with 100; lia). do 2 f_equal. lia. Qed.

(** ** Years *)
Definition year_ok (R : runtime) (y : Z) : Prop := rt_pad_year R = true \/ (1000 <= y)%Z.
Lemma digits_len fuel : forall k n, (k < fuel)%nat -> 10 ^ N.of_nat k <= n < 10 ^ N.of_nat (S k) \/ (k = 0%nat /\ n = 0) ->
  length (digits_of fuel 10 n) = S k.
Proof.
  induction fuel as [|fuel IH]; intros k n Hk H; [lia|]. cbn [digits_of]. destruct k as [|k].
  - change (10 ^ N.of_nat 0) with 1 in H. change (10 ^ N.of_nat 1) with 10 in H. destruct (N.ltb_spec n 10); [reflexivity|lia].
  - assert (P : 10 ^ N.of_nat (S k) = 10 * 10 ^ N.of_nat k) by (rewrite Nat2N.inj_succ, N.pow_succ_r'; reflexivity).
    assert (P' : 10 ^ N.of_nat (S (S k)) = 10 * 10 ^ N.of_nat (S k)) by (rewrite (Nat2N.inj_succ (S k)), N.pow_succ_r'; reflexivity).
    assert (1 <= 10 ^ N.of_nat k) by (apply N.neq_0_lt_0 || idtac; pose proof (N.pow_nonzero 10 (N.of_nat k) ltac:(lia)); lia).
    destruct H as [H|[? _]]; [|discriminate]. destruct (N.ltb_spec n 10); [lia|]. rewrite app_length, (IH k); [cbn; lia|lia|].
    left. split; [apply N.div_le_lower_bound; lia|apply N.div_lt_upper_bound; lia].
Qed.
Lemma year_chars R y : (1 <= y <= 9999)%Z -> year_ok R y ->
  all_digits 10 (year_text R y) /\ length (year_text R y) = 4%nat /\ dval 10 (year_text R y) 0 = Z.to_N y.
Proof.
  intros H K. unfold year_text. destruct (rt_pad_year R) eqn:E.
  - destruct (padded_ok 10 4 ltac:(lia) (Z.to_N y)) as (A & D & L); [change (10 ^ N.of_nat 4) with 10000; lia|]. auto.
  - destruct K as [K|K]; [congruence|]. destruct (nat_text_ok 10 (Z.to_N y) ltac:(lia)) as (A & D & _).
    split; [assumption|]. split; [|assumption]. unfold nat_text. apply digits_len.
    + pose proof (size_pow (Z.to_N y)) as Sz. destruct (Nat.lt_ge_cases 3 (S (N.size_nat (Z.to_N y)))) as [|G]; [assumption|exfalso].
      assert (2 ^ N.of_nat (N.size_nat (Z.to_N y)) <= 2 ^ 2) by (apply N.pow_le_mono_r; lia). change (2 ^ 2) with 4 in *. lia.
    + left. change (10 ^ N.of_nat 3) with 1000. change (10 ^ N.of_nat 4) with 10000. lia.
Qed.
Lemma year_read U R y rest : (1 <= y <= 9999)%Z -> year_ok R y -> take_digits U 4 0 (year_text R y ++ rest) = Some (y, rest).
Proof.
  intros H K. destruct (year_chars R y H K) as (A & L & D). pose proof (take_digits_ok U _ 0 rest A) as T. rewrite L, D in T.
  etransitivity; [exact T|]. do 2 f_equal. lia.
Qed.
(** Without padding a year before 1000 is written with less than four digits. *)
Lemma short_year U R y rest : (1 <= y <= 999)%Z -> rt_pad_year R = false -> take_digits U 4 0 (year_text R y ++ 45 :: rest) = None.
Proof.
  intros H K. unfold year_text. rewrite K. destruct (nat_text_ok 10 (Z.to_N y) ltac:(lia)) as (A & D & _).
  assert (L : (1 <= length (nat_text 10 (Z.to_N y)) <= 3)%nat).
  { pose proof (size_pow (Z.to_N y)) as Sz. unfold nat_text.
    assert (C : (1 <= Z.to_N y < 10 \/ 10 <= Z.to_N y < 100 \/ 100 <= Z.to_N y < 1000)) by lia.
    destruct C as [C|[C|C]].
    - rewrite (digits_len _ 0); [lia|lia|left; exact C].
    - rewrite (digits_len _ 1); [lia| |left; exact C]. destruct (N.size_nat (Z.to_N y)); [cbn in Sz; lia|lia].
    - rewrite (digits_len _ 2); [lia| |left; exact C]. destruct (N.size_nat (Z.to_N y)) as [|[|]]; cbn in Sz; lia. }
  revert A L. generalize (nat_text 10 (Z.to_N y)). intros l A L.
  assert (N45 : take_digit U (45 :: rest) = None) by reflexivity.
  destruct l as [|a [|b [|c [|]]]]; cbn [length] in L; try lia; cbn [app].
  all: repeat match goal with H : all_digits 10 (_ :: _) |- _ => inversion H as [|? ? [? ?] ?]; clear H; subst end.
  all: repeat match goal with H : Forall _ (_ :: _) |- _ => inversion H as [|? ? [? ?] ?]; clear H; subst end.
  all: repeat match goal with H : base_digit 10 ?c = Some ?v |- _ => apply (udigit_of U) in H as (? & _ & _) end.
  all: cbn [take_digits]; unfold take_digit at 1; repeat match goal with H : udigit _ _ = _ |- _ => rewrite H; cbn [take_digits]; unfold take_digit at 1 end; reflexivity.
Qed.

(** ** Dates *)
Lemma month_read m rest : (1 <= m <= 12)%Z -> month_dash (two_digits m ++ 45 :: rest) = Some (m, rest).
Proof. intros H. pattern m. revert m H. apply month_cases; reflexivity. Qed.
Lemma day_cases (P : Z -> Prop) : Forall P (map Z.of_nat (seq 1 31)) -> forall d, (1 <= d <= 31)%Z -> P d.
Proof.
  intros H d Hd. rewrite Forall_forall in H. apply H. replace d with (Z.of_nat (Z.to_nat d)) by lia. apply in_map, in_seq. lia.
Qed.
Lemma day_read U d : (1 <= d <= 31)%Z -> day_part U (two_digits d) = Some (d, []).
Proof. intros H. pattern d. revert d H. apply day_cases. repeat (constructor; [reflexivity|]). constructor. Qed.
Lemma day_31 d : valid_date d = true -> (1 <= d_year d <= 9999 /\ 1 <= d_month d <= 12 /\ 1 <= d_day d <= 31)%Z.
Proof.
  intros V. apply valid_date_iff in V as (Y & M & D). repeat split; try lia. destruct D as [_ D].
  unfold days_in_month in D. destruct (_ =? 2)%Z; [destruct (is_leap _)|destruct (_ || _)%bool]; lia.
Qed.
Lemma ymd_round U R d : valid_date d = true -> year_ok R (d_year d) -> ymd_parse U (ymd_text R d) = Some d.
Proof.
  intros V Y. pose proof (day_31 d V) as (Y9 & M & D). unfold ymd_parse, ymd_text. rewrite year_read by assumption. cbn [obind].
  cbn [obind take_char]. rewrite ?N.eqb_refl. cbn [obind].
  rewrite month_read by assumption. cbn [obind]. rewrite day_read by assumption. cbn [obind].
  destruct d as [y m x]. cbn in V |- *. now rewrite V.
Qed.
Lemma ymd_short U R d : valid_date d = true -> (d_year d < 1000)%Z -> rt_pad_year R = false -> ymd_parse U (ymd_text R d) = None.
Proof.
  intros V Y K. pose proof (day_31 d V) as (Y9 & M & D). unfold ymd_parse, ymd_text. rewrite short_year by (assumption || lia). reflexivity.
Qed.

(** ** Datetimes *)
Lemma frac_read U n rest : n < 1000000 -> (match rest with c :: _ => c = 90 \/ c = 43 \/ c = 45 | [] => True end) ->
  take_frac U (46 :: padded 6 10 n ++ rest) = (Z.of_N n, rest).
Proof.
  intros H _. destruct (padded_ok 10 6 ltac:(lia) n H) as (A & D & L). revert A D L. generalize (padded 6 10 n). intros l A D L.
  destruct l as [|a [|b [|c [|d [|e [|f [|]]]]]]]; try discriminate L.
  repeat match goal with H : all_digits 10 (_ :: _) |- _ => inversion H as [|? ? [? ?] ?]; clear H; subst end.
  repeat match goal with H : Forall _ (_ :: _) |- _ => inversion H as [|? ? [? ?] ?]; clear H; subst end.
  repeat match goal with H : base_digit 10 ?c = Some ?v |- _ => apply (udigit_of U) in H as (? & _ & ?) end.
  unfold take_frac, take_digit. cbn [app]. change ((46 =? 46) || (46 =? 44)) with true. cbv iota.
  unfold dval. cbn [fold_left].
  repeat match goal with H : udigit _ _ = _ |- _ => rewrite H; clear H end.
  repeat match goal with H : digit_val _ = _ |- _ => rewrite H; clear H end.
  f_equal. change (1000000 / 10 / 10 / 10 / 10 / 10 / 10)%Z with 1%Z. lia.
Qed.
Lemma zone_read U z : (forall off, z = Some off -> (Z.abs off < 86400)%Z /\ (off mod 60 = 0)%Z) ->
  exists zt, zone_text z = Ok zt /\ take_zone U zt = (z, []) /\
    Forall (fun c => c = 43 \/ c = 45 \/ 48 <= c <= 57) zt /\ (match zt with c :: _ => c = 90 \/ c = 43 \/ c = 45 | [] => True end).
Proof.
  intros H. destruct z as [off|]; [|exists []; repeat split; auto; constructor]. destruct (H off eq_refl) as [B M]. clear H.
  unfold zone_text. destruct (Z.ltb_spec (Z.abs off) 86400) as [_|]; [|lia].
  assert (Ma : (Z.abs off mod 60 = 0)%Z) by (apply Z.mod_divide; [lia|]; apply Z.mod_divide in M; [|lia]; now apply Z.divide_abs_r).
  pose proof (Z.div_mod (Z.abs off) 60 ltac:(lia)) as Dm. rewrite Ma in Dm.
  set (q := (Z.abs off / 60)%Z) in *. assert (Q3600 : (Z.abs off / 3600 = q / 60)%Z) by (unfold q; now rewrite Z.div_div by lia).
  rewrite Q3600, Ma. clearbody q. cbn [Z.eqb]. rewrite app_nil_r.
  pose proof (Z.div_mod q 60 ltac:(lia)) as D2. pose proof (Z.mod_pos_bound q 60 ltac:(lia)) as B2.
  set (h := (q / 60)%Z) in *. set (m := (q mod 60)%Z) in *. clearbody h m.
  eexists. split; [reflexivity|]. split.
  - unfold take_zone. destruct (Z.ltb_spec off 0) as [Neg|Pos]; cbn [N.eqb Pos.eqb orb].
    + rewrite two_read by lia. assert (T : take_char 58 (two_digits m) = None).
      { unfold two_digits. destruct (padded_ok 10 2 ltac:(lia) (Z.to_N m)) as (A & _ & L); [change (10 ^ N.of_nat 2) with 100; lia|].
        revert A L. generalize (padded 2 10 (Z.to_N m)). intros [|c l] A L; [reflexivity|]. inversion A as [|? ? [v Hv] _]; subst.
        apply (udigit_of U) in Hv as (_ & Hc & _). cbn [take_char]. destruct (N.eqb_spec c 58); [lia|reflexivity]. }
      rewrite T. rewrite <- (app_nil_r (two_digits m)), two_read by lia. f_equal. f_equal. lia.
    + rewrite two_read by lia. assert (T : take_char 58 (two_digits m) = None).
      { unfold two_digits. destruct (padded_ok 10 2 ltac:(lia) (Z.to_N m)) as (A & _ & L); [change (10 ^ N.of_nat 2) with 100; lia|].
        revert A L. generalize (padded 2 10 (Z.to_N m)). intros [|c l] A L; [reflexivity|]. inversion A as [|? ? [v Hv] _]; subst.
        apply (udigit_of U) in Hv as (_ & Hc & _). cbn [take_char]. destruct (N.eqb_spec c 58); [lia|reflexivity]. }
      rewrite T. rewrite <- (app_nil_r (two_digits m)), two_read by lia. f_equal. f_equal. lia.
  - split.
    + constructor; [destruct (off <? 0)%Z; auto|]. apply Forall_app. split.
      * destruct (padded_ok 10 2 ltac:(lia) (Z.to_N h)) as (A & _ & _); [change (10 ^ N.of_nat 2) with 100; lia|].
        eapply Forall_impl; [|exact A]. intros c [v Hv]. apply (udigit_of U) in Hv as (_ & Hc & _). auto.
      * destruct (padded_ok 10 2 ltac:(lia) (Z.to_N m)) as (A & _ & _); [change (10 ^ N.of_nat 2) with 100; lia|].
        eapply Forall_impl; [|exact A]. intros c [v Hv]. apply (udigit_of U) in Hv as (_ & Hc & _). auto.
    + destruct (off <? 0)%Z; auto.
Qed.
Lemma time_99 t : valid_time t = true -> (0 <= t_hour t <= 99 /\ 0 <= t_minute t <= 99 /\ 0 <= t_second t <= 99 /\ 0 <= t_micro t <= 999999)%Z.
Proof. intros V. apply valid_time_iff in V. lia. Qed.

(** Reading the stamp, then whatever follows it. *)
Lemma stamp_read U R d t rest z r : valid_date d = true -> valid_time t = true -> year_ok R (d_year d) ->
  (match rest with c :: _ => c = 90 \/ c = 43 \/ c = 45 | [] => True end) -> take_zone U rest = (z, r) ->
  dt_parse U (stamp_text R d t ++ rest) = if at_end r then Some (d, t, z) else None.
Proof.
  intros Vd Vt Y Hr Hz. pose proof (day_31 d Vd) as (Y9 & M & D). pose proof (time_99 t Vt) as (T1 & T2 & T3 & T4).
  unfold dt_parse, stamp_text, ymd_text. repeat (rewrite <- app_assoc; cbn [app]).
  rewrite year_read by assumption. cbn [obind take_char]. rewrite ?N.eqb_refl. cbn [obind].
  rewrite two_read by lia. cbn [obind take_char]. rewrite ?N.eqb_refl. cbn [obind].
  rewrite two_read by lia. cbn [obind take_char]. rewrite ?N.eqb_refl. cbn [obind].
  rewrite two_read by lia. cbn [obind take_char]. rewrite ?N.eqb_refl. cbn [obind].
  rewrite two_read by lia. cbn [obind]. unfold take_seconds. cbn [obind take_char]. rewrite ?N.eqb_refl. cbn [obind].
  rewrite two_read by lia. rewrite frac_read by (assumption || lia). rewrite Hz.
  replace (Z.of_N (Z.to_N (t_micro t))) with (t_micro t) by lia. destruct d as [y mo dd], t as [h mi s us]. cbn [d_year d_month d_day t_hour t_minute t_second t_micro].
  rewrite Vd, Vt, !andb_true_r. reflexivity.
Qed.

(** The text is no number, so that it is not taken for a timestamp. *)
Lemma strip_us_none l : forall prev, Forall (fun c => c <> 95) l -> prev <> 95 -> strip_us prev l = Some l.
Proof.
  induction l as [|c l IH]; intros prev H P; cbn [strip_us].
  - now rewrite (proj2 (N.eqb_neq prev 95)).
  - inversion H; subst. rewrite (proj2 (N.eqb_neq c 95)), (proj2 (N.eqb_neq prev 95)) by assumption. cbn [andb]. now rewrite IH.
Qed.
Lemma not_number U ds rest : all_digits 10 ds -> ds <> [] -> Forall (fun c => 33 <= c < 95) rest ->
  float_text U (ds ++ 45 :: rest) = None.
Proof.
  intros A Hn Hr.
  assert (Low : Forall (fun c => 33 <= c < 95) (ds ++ 45 :: rest)).
  { apply Forall_app. split; [|constructor; [lia|assumption]]. eapply Forall_impl; [|exact A]. intros c [v Hv].
    apply (udigit_of U) in Hv as (_ & Hc & _). lia. }
  unfold float_text. rewrite map_ascii by (eapply Forall_impl; [|exact Low]; cbn; lia).
  unfold float_ascii. rewrite strip_none.
  2:{ eapply Forall_impl; [|exact Low]. intros c Hc. cbn in Hc. unfold is_ws.
      destruct (N.leb_spec 9 c), (N.leb_spec c 13), (N.eqb_spec c 32); cbn; try reflexivity; lia. }
  rewrite strip_us_none; [|eapply Forall_impl; [|exact Low]; cbn; lia|lia].
  pose proof (all_digits_dig ds A) as Dg. destruct ds as [|c ds]; [congruence|]. inversion Dg as [|? ? Hc Hds]; subst.
  apply dig_iff in Hc as Hc'.
  unfold dec_parse. cbn [app]. rewrite dig_sign by assumption. change (c :: ds ++ 45 :: rest) with ((c :: ds) ++ 45 :: rest).
  rewrite span_digits by (assumption || reflexivity). cbn [N.eqb Pos.eqb app]. cbn [take_exp N.eqb Pos.eqb orb].
  cbn [app].
  assert (W : forall ws, (forall w, In w ws -> exists a r, u w = a :: r /\ 97 <= a) -> word_in ws (c :: ds ++ 45 :: rest) = false).
  { intros ws Hw. unfold word_in. apply Bool.not_true_iff_false. intros E. apply existsb_exists in E as (w & Iw & Ew).
    destruct (Hw w Iw) as (a & r & Er & La). rewrite Er in Ew. cbn [map] in Ew. unfold pstr_eqb in Ew. cbn in Ew.
    unfold lower in Ew. destruct (N.leb_spec 65 c); [lia|]. cbn [andb] in Ew.
    destruct (N.eqb_spec a c); [lia|]. discriminate Ew. }
  rewrite !W; [reflexivity| |].
  - intros w [<-|[]]. eexists _, _. split; [reflexivity|apply N.leb_le; reflexivity].
  - intros w [<-|[<-|[]]]; eexists _, _; (split; [reflexivity|apply N.leb_le; reflexivity]).
Qed.
Lemma two_chars z : (0 <= z <= 99)%Z -> Forall (fun c => 33 <= c < 95) (two_digits z).
Proof.
  intros H. unfold two_digits. destruct (padded_ok 10 2 ltac:(lia) (Z.to_N z)) as (A & _ & _); [change (10 ^ N.of_nat 2) with 100; lia|].
  eapply Forall_impl; [|exact A]. intros c [v Hv]. apply (udigit_of (Unicode (fun _ => false) (fun _ => None))) in Hv as (_ & Hc & _). lia.
Qed.
Lemma stamp_no_float U R d t rest : valid_date d = true -> valid_time t = true ->
  Forall (fun c => 33 <= c < 95) rest -> float_text U (stamp_text R d t ++ rest) = None.
Proof.
  intros Vd Vt Hr. pose proof (day_31 d Vd) as (Y9 & M & D). pose proof (time_99 t Vt) as (T1 & T2 & T3 & T4).
  unfold stamp_text, ymd_text. repeat (rewrite <- app_assoc; cbn [app]). apply not_number.
  - unfold year_text. destruct (rt_pad_year R).
    + apply padded_ok; [lia|change (10 ^ N.of_nat 4) with 10000; lia].
    + now apply nat_text_ok.
  - unfold year_text. destruct (rt_pad_year R); [|now apply nat_text_ok]. intros E. apply (f_equal (@length N)) in E.
    destruct (padded_ok 10 4 ltac:(lia) (Z.to_N (d_year d))) as (_ & _ & L); [change (10 ^ N.of_nat 4) with 10000; lia|]. rewrite L in E. discriminate.
  - repeat (apply Forall_app; split; [apply two_chars; lia|]; constructor; [lia|]).
    apply Forall_app. split; [|assumption].
    destruct (padded_ok 10 6 ltac:(lia) (Z.to_N (t_micro t))) as (A & _ & _); [change (10 ^ N.of_nat 6) with 1000000; lia|].
    eapply Forall_impl; [|exact A]. intros c [v Hv]. apply (udigit_of U) in Hv as (_ & Hc & _). lia.
Qed.
