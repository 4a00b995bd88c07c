(** The calendar: ordinals and dates correspond one to one. *)
From Verif.Model Require Import Py Calendar.
Local Open Scope Z_scope.
Local Arguments Z.add : simpl never.
Local Arguments Z.mul : simpl never.
Local Arguments Z.sub : simpl never.

Ltac bz := repeat match goal with
  | H : (_ && _)%bool = true |- _ => apply andb_prop in H as [? ?]
  | H : (_ <=? _) = true |- _ => apply Z.leb_le in H
  | H : (_ <=? _) = false |- _ => apply Z.leb_gt in H
  | H : (_ <? _) = true |- _ => apply Z.ltb_lt in H
  | H : (_ <? _) = false |- _ => apply Z.ltb_ge in H
  | H : (_ =? _) = true |- _ => apply Z.eqb_eq in H
  | H : (_ =? _) = false |- _ => apply Z.eqb_neq in H
  end.

Lemma valid_date_iff d : valid_date d = true <->
  1 <= d_year d <= 9999 /\ 1 <= d_month d <= 12 /\ 1 <= d_day d <= days_in_month (d_year d) (d_month d).
Proof.
  unfold valid_date, MINYEAR, MAXYEAR. rewrite !andb_true_iff, !Z.leb_le. tauto.
Qed.
Lemma valid_time_iff t : valid_time t = true <->
  0 <= t_hour t <= 23 /\ 0 <= t_minute t <= 59 /\ 0 <= t_second t <= 59 /\ 0 <= t_micro t <= 999999.
Proof. unfold valid_time. rewrite !andb_true_iff, !Z.leb_le. tauto. Qed.

(** Cycles of 400, 100, 4 and 1 years. *)
Lemma year_split a b c d : 0 <= b <= 3 -> 0 <= c <= 24 -> 0 <= d <= 3 ->
  days_before_year (400 * a + 100 * b + 4 * c + d + 1) = 146097 * a + 36524 * b + 1461 * c + 365 * d.
Proof.
  intros Hb Hc Hd. unfold days_before_year. cbv zeta.
  replace (400 * a + 100 * b + 4 * c + d + 1 - 1) with (400 * a + 100 * b + 4 * c + d) by lia.
  replace ((400 * a + 100 * b + 4 * c + d) / 4) with (100 * a + 25 * b + c) by (apply Z.div_unique with d; lia).
  replace ((400 * a + 100 * b + 4 * c + d) / 100) with (4 * a + b) by (apply Z.div_unique with (4 * c + d); lia).
  replace ((400 * a + 100 * b + 4 * c + d) / 400) with a by (apply Z.div_unique with (100 * b + 4 * c + d); lia).
  lia.
Qed.
Lemma leap_split a b c d : 0 <= b <= 3 -> 0 <= c <= 24 -> 0 <= d <= 3 ->
  is_leap (400 * a + 100 * b + 4 * c + d + 1) = (d =? 3) && (negb (c =? 24) || (b =? 3)).
Proof.
  intros Hb Hc Hd. unfold is_leap.
  assert (M4 : (400 * a + 100 * b + 4 * c + d + 1) mod 4 =? 0 = (d =? 3)).
  { destruct (Z.eqb_spec d 3) as [->|N].
    - apply Z.eqb_eq. symmetry. apply Z.mod_unique with (100 * a + 25 * b + c + 1); lia.
    - apply Z.eqb_neq. rewrite <- (Z.mod_unique (400 * a + 100 * b + 4 * c + d + 1) 4 (100 * a + 25 * b + c) (d + 1)); lia. }
  rewrite M4. destruct (Z.eqb_spec d 3) as [->|N]; [|reflexivity]. cbn [andb].
  assert (M100 : (400 * a + 100 * b + 4 * c + 3 + 1) mod 100 =? 0 = (c =? 24)).
  { destruct (Z.eqb_spec c 24) as [->|Nc].
    - apply Z.eqb_eq. symmetry. apply Z.mod_unique with (4 * a + b + 1); lia.
    - apply Z.eqb_neq. rewrite <- (Z.mod_unique (400 * a + 100 * b + 4 * c + 3 + 1) 100 (4 * a + b) (4 * c + 4)); lia. }
  rewrite M100. destruct (Z.eqb_spec c 24) as [->|Nc]; [|reflexivity]. cbn [negb orb].
  destruct (Z.eqb_spec b 3) as [->|Nb].
  - apply Z.eqb_eq. symmetry. apply Z.mod_unique with (a + 1); lia.
  - apply Z.eqb_neq. rewrite <- (Z.mod_unique (400 * a + 100 * b + 4 * 24 + 3 + 1) 400 a (100 * b + 100)); lia.
Qed.

(** The day of the year. *)
Definition month_of (leap : bool) (n : Z) : Z * Z :=
  let month := (n + 50) / 32 in
  let preceding := days_before_month_common month + (if (2 <? month) && leap then 1 else 0) in
  if n <? preceding then
    let month := month - 1 in
    let dim := if (month =? 2) && leap then 29
               else if month =? 2 then 28
               else if (month =? 4) || (month =? 6) || (month =? 9) || (month =? 11) then 30 else 31 in
    (month, n - (preceding - dim) + 1)
  else (month, n - preceding + 1).
Definition month_len (leap : bool) (m : Z) : Z :=
  if m =? 2 then if leap then 29 else 28 else if (m =? 4) || (m =? 6) || (m =? 9) || (m =? 11) then 30 else 31.
Definition month_check (leap : bool) (n : Z) : bool :=
  let '(m, d) := month_of leap n in
  (1 <=? m) && (m <=? 12) && (1 <=? d) && (d <=? month_len leap m) &&
  (days_before_month_common m + (if (2 <? m) && leap then 1 else 0) + d =? n + 1).
Lemma upto k : forall n, (0 <= n < Z.of_nat k) -> In n (map Z.of_nat (seq 0 k)).
Proof. intros n H. replace n with (Z.of_nat (Z.to_nat n)) by lia. apply in_map, in_seq. lia. Qed.
Lemma month_ok leap n : 0 <= n <= 364 -> month_check leap n = true.
Proof.
  intros H. assert (K : forallb (month_check leap) (map Z.of_nat (seq 0 365)) = true) by (destruct leap; vm_compute; reflexivity).
  rewrite forallb_forall in K. apply K. apply upto. lia.
Qed.

(** The last step of [ord2ymd]. *)
Lemma month_step (leap : bool) y r :
  (let month := (r + 50) / 32 in
   let preceding := days_before_month_common month + (if (2 <? month) && leap then 1 else 0) in
   if r <? preceding then
     let month := month - 1 in
     let dim := if (month =? 2) && leap then 29
                else if month =? 2 then 28
                else if (month =? 4) || (month =? 6) || (month =? 9) || (month =? 11) then 30 else 31 in
     PyDate y month (r - (preceding - dim) + 1)
   else PyDate y month (r - preceding + 1)) = PyDate y (fst (month_of leap r)) (snd (month_of leap r)).
Proof. cbv zeta. unfold month_of. cbv zeta. destruct (r <? _); reflexivity. Qed.
Lemma month_spec leap r : 0 <= r <= 364 ->
  let m := fst (month_of leap r) in let x := snd (month_of leap r) in
  1 <= m <= 12 /\ 1 <= x <= month_len leap m /\ days_before_month_common m + (if (2 <? m) && leap then 1 else 0) + x = r + 1.
Proof.
  intros H. pose proof (month_ok leap r H) as K. unfold month_check in K. destruct (month_of leap r) as [m x]. cbn [fst snd].
  bz. lia.
Qed.

Definition month_day_ok (d : pydate) : Prop :=
  1 <= d_month d <= 12 /\ 1 <= d_day d <= days_in_month (d_year d) (d_month d).
Lemma days_month y m : days_in_month y m = month_len (is_leap y) m.
Proof. reflexivity. Qed.
Lemma ord2ymd_ok n : 1 <= n -> ymd2ord (ord2ymd n) = n /\ month_day_ok (ord2ymd n) /\ 1 <= d_year (ord2ymd n).
Proof.
  intros Hn. unfold ord2ymd, DI400Y, DI100Y, DI4Y. cbv zeta. remember (n - 1) as n0. assert (H0 : 0 <= n0) by lia.
  pose proof (Z.div_mod n0 146097 ltac:(lia)) as D1. pose proof (Z.mod_pos_bound n0 146097 ltac:(lia)) as B1.
  pose proof (Z.div_pos n0 146097 H0 ltac:(lia)) as P1.
  set (a := n0 / 146097) in *. set (r1 := n0 mod 146097) in *. clearbody a r1.
  pose proof (Z.div_mod r1 36524 ltac:(lia)) as D2. pose proof (Z.mod_pos_bound r1 36524 ltac:(lia)) as B2.
  set (b := r1 / 36524) in *. set (r2 := r1 mod 36524) in *. clearbody b r2.
  pose proof (Z.div_mod r2 1461 ltac:(lia)) as D3. pose proof (Z.mod_pos_bound r2 1461 ltac:(lia)) as B3.
  set (c := r2 / 1461) in *. set (r3 := r2 mod 1461) in *. clearbody c r3.
  pose proof (Z.div_mod r3 365 ltac:(lia)) as D4. pose proof (Z.mod_pos_bound r3 365 ltac:(lia)) as B4.
  set (d := r3 / 365) in *. set (r := r3 mod 365) in *. clearbody d r.
  assert (0 <= b <= 4) by nia. assert (0 <= c <= 24) by nia. assert (0 <= d <= 4) by nia.
  destruct (Z.eqb_spec b 4) as [Eb|Nb]; [|destruct (Z.eqb_spec d 4) as [Ed|Nd]].
  - rewrite orb_true_r. assert (c = 0 /\ d = 0 /\ r = 0) as (-> & -> & ->) by nia. subst b.
    unfold ymd2ord, month_day_ok. cbn [d_year d_month d_day].
    replace (a * 400 + 1 + 4 * 100 + 0 * 4 + 0 - 1) with (400 * a + 100 * 3 + 4 * 24 + 3 + 1) by lia.
    rewrite year_split by lia. unfold days_before_month, days_in_month. rewrite leap_split by lia. cbn. lia.
  - assert (r = 0) as -> by nia. subst d. cbn [orb].
    assert (Kc : c < 24 \/ b = 3) by nia.
    unfold ymd2ord, month_day_ok. cbn [d_year d_month d_day].
    replace (a * 400 + 1 + b * 100 + c * 4 + 4 - 1) with (400 * a + 100 * b + 4 * c + 3 + 1) by lia.
    rewrite year_split by lia. unfold days_before_month, days_in_month. rewrite leap_split by lia.
    assert (L : (3 =? 3) && (negb (c =? 24) || (b =? 3)) = true).
    { cbn [Z.eqb Pos.eqb andb]. destruct Kc as [K| ->]; [|now rewrite orb_true_r]. assert (c <> 24) by lia.
      now rewrite (proj2 (Z.eqb_neq c 24)). }
    rewrite L. cbn. lia.
  - cbn [orb]. rewrite (month_step ((d =? 3) && (negb (c =? 24) || (b =? 3)))).
    replace (a * 400 + 1 + b * 100 + c * 4 + d) with (400 * a + 100 * b + 4 * c + d + 1) by lia.
    assert (R : 0 <= r <= 364) by lia.
    pose proof (month_spec ((d =? 3) && (negb (c =? 24) || (b =? 3))) r R) as (M1 & M2 & M3).
    unfold ymd2ord, month_day_ok. cbn [d_year d_month d_day]. rewrite days_month. unfold days_before_month.
    rewrite year_split by lia. rewrite leap_split by lia.
    split; [lia|]. split; [lia|lia].
Qed.
Lemma max_year n : 1 <= n <= MAXORDINAL -> d_year (ord2ymd n) <= 9999.
Proof.
  intros Hn. destruct (ord2ymd_ok n) as (E & (M & D) & Y); [lia|]. destruct (Z_le_gt_dec (d_year (ord2ymd n)) 9999); [assumption|exfalso].
  unfold ymd2ord in E. assert (K : days_before_year 10000 <= days_before_year (d_year (ord2ymd n))).
  { unfold days_before_year. cbv zeta. set (y := d_year (ord2ymd n)) in *. clearbody y.
    pose proof (Z.div_mod (y-1) 4 ltac:(lia)). pose proof (Z.mod_pos_bound (y-1) 4 ltac:(lia)).
    pose proof (Z.div_mod (y-1) 100 ltac:(lia)). pose proof (Z.mod_pos_bound (y-1) 100 ltac:(lia)).
    pose proof (Z.div_mod (y-1) 400 ltac:(lia)). pose proof (Z.mod_pos_bound (y-1) 400 ltac:(lia)).
    change ((10000 - 1) / 4) with 2499. change ((10000 - 1) / 100) with 99. change ((10000 - 1) / 400) with 24. lia. }
  change (days_before_year 10000) with MAXORDINAL in K.
  assert (0 <= days_before_month (d_year (ord2ymd n)) (d_month (ord2ymd n))).
  { unfold days_before_month, days_before_month_common. destruct (d_month (ord2ymd n)) as [|p|p]; [lia| |lia].
    destruct ((2 <? Z.pos p) && _); do 4 (destruct p as [p|p|]; try lia). }
  lia.
Qed.
Lemma ord_valid n : 0 < n <= MAXORDINAL -> valid_date (ord2ymd n) = true /\ ymd2ord (ord2ymd n) = n.
Proof.
  intros H. destruct (ord2ymd_ok n) as (E & (M & D) & Y); [lia|]. split; [|assumption].
  apply valid_date_iff. pose proof (max_year n ltac:(lia)). auto.
Qed.

(** Ordinals determine dates. *)
Lemma year_start y : days_before_year (y + 1) = days_before_year y + 365 + (if is_leap y then 1 else 0).
Proof.
  pose proof (Z.div_mod (y - 1) 400 ltac:(lia)) as D1. pose proof (Z.mod_pos_bound (y - 1) 400 ltac:(lia)) as B1.
  set (a := (y - 1) / 400) in *. set (r1 := (y - 1) mod 400) in *. clearbody a r1.
  pose proof (Z.div_mod r1 100 ltac:(lia)) as D2. pose proof (Z.mod_pos_bound r1 100 ltac:(lia)) as B2.
  set (b := r1 / 100) in *. set (r2 := r1 mod 100) in *. clearbody b r2.
  pose proof (Z.div_mod r2 4 ltac:(lia)) as D3. pose proof (Z.mod_pos_bound r2 4 ltac:(lia)) as B3.
  set (c := r2 / 4) in *. set (d := r2 mod 4) in *. clearbody c d.
  assert (0 <= b <= 3) by lia. assert (0 <= c <= 24) by lia.
  replace y with (400 * a + 100 * b + 4 * c + d + 1) by lia. rewrite leap_split, year_split by lia.
  destruct (Z.eqb_spec d 3) as [->|Nd]; cbn [andb].
  - destruct (Z.eqb_spec c 24) as [->|Nc]; cbn [negb orb].
    + destruct (Z.eqb_spec b 3) as [->|Nb].
      * replace (400 * a + 100 * 3 + 4 * 24 + 3 + 1 + 1) with (400 * (a + 1) + 100 * 0 + 4 * 0 + 0 + 1) by lia. rewrite year_split by lia. lia.
      * replace (400 * a + 100 * b + 4 * 24 + 3 + 1 + 1) with (400 * a + 100 * (b + 1) + 4 * 0 + 0 + 1) by lia. rewrite year_split by lia. lia.
    + replace (400 * a + 100 * b + 4 * c + 3 + 1 + 1) with (400 * a + 100 * b + 4 * (c + 1) + 0 + 1) by lia. rewrite year_split by lia. lia.
  - replace (400 * a + 100 * b + 4 * c + d + 1 + 1) with (400 * a + 100 * b + 4 * c + (d + 1) + 1) by lia. rewrite year_split by lia. lia.
Qed.
Lemma year_mono y y' : y <= y' -> days_before_year y <= days_before_year y'.
Proof.
  intros H. replace y' with (y + Z.of_nat (Z.to_nat (y' - y))) by lia. induction (Z.to_nat (y' - y)) as [|k IH].
  - now replace (y + Z.of_nat 0) with y by lia.
  - replace (y + Z.of_nat (S k)) with (y + Z.of_nat k + 1) by lia. rewrite year_start. destruct (is_leap _); lia.
Qed.
Definition before (leap : bool) (m : Z) : Z := days_before_month_common m + (if (2 <? m) && leap then 1 else 0).
Lemma month_cases (P : Z -> Prop) : P 1 -> P 2 -> P 3 -> P 4 -> P 5 -> P 6 -> P 7 -> P 8 -> P 9 -> P 10 -> P 11 -> P 12 ->
  forall m, 1 <= m <= 12 -> P m.
Proof.
  intros H1 H2 H3 H4 H5 H6 H7 H8 H9 H10 H11 H12 m Hm.
  assert (m = 1 \/ m = 2 \/ m = 3 \/ m = 4 \/ m = 5 \/ m = 6 \/ m = 7 \/ m = 8 \/ m = 9 \/ m = 10 \/ m = 11 \/ m = 12) as K by lia.
  repeat destruct K as [->|K]; subst; assumption.
Qed.
Lemma month_next leap m : 1 <= m <= 11 -> before leap (m + 1) = before leap m + month_len leap m.
Proof.
  intros H. assert (H' : 1 <= m <= 12) by lia. assert (Hm : m <> 12) by lia. clear H. revert Hm. pattern m. revert m H'.
  apply month_cases; intros; destruct leap; try reflexivity; contradiction.
Qed.
Lemma month_total leap : before leap 12 + month_len leap 12 = 365 + (if leap then 1 else 0).
Proof. destruct leap; reflexivity. Qed.
Lemma month_len_pos leap m : 28 <= month_len leap m.
Proof. unfold month_len. destruct (m =? 2), leap; cbn [andb]; try lia; destruct (_ || _)%bool; lia. Qed.
Lemma month_mono leap m k : 1 <= m -> m + Z.of_nat (S k) <= 12 -> before leap m + month_len leap m <= before leap (m + Z.of_nat (S k)).
Proof.
  intros Hm. induction k as [|k IH]; intros Hk.
  - replace (m + Z.of_nat 1) with (m + 1) by lia. rewrite month_next by lia. lia.
  - replace (m + Z.of_nat (S (S k))) with (m + Z.of_nat (S k) + 1) by lia. rewrite month_next by lia.
    pose proof (month_len_pos leap (m + Z.of_nat (S k))). lia.
Qed.
Lemma month_bound leap m x : 1 <= m <= 12 -> 1 <= x <= month_len leap m -> 1 <= before leap m + x <= 365 + (if leap then 1 else 0).
Proof.
  intros Hm Hx. rewrite <- month_total. assert (0 <= before leap m).
  { unfold before, days_before_month_common. clear Hx. pattern m. revert m Hm. apply month_cases; destruct leap; cbn; lia. }
  destruct (Z.eq_dec m 12) as [->|N]; [lia|]. pose proof (month_mono leap m (Z.to_nat (11 - m)) ltac:(lia) ltac:(lia)) as K.
  replace (m + Z.of_nat (S (Z.to_nat (11 - m)))) with 12 in K by lia. pose proof (month_len_pos leap 12). lia.
Qed.
Lemma ymd_inj d d' : valid_date d = true -> valid_date d' = true -> ymd2ord d = ymd2ord d' -> d = d'.
Proof.
  intros V V'. apply valid_date_iff in V as (Y & M & D). apply valid_date_iff in V' as (Y' & M' & D').
  destruct d as [y m x], d' as [y' m' x']. unfold ymd2ord. cbn [d_year d_month d_day] in *. rewrite days_month in D, D'.
  change (days_before_month y m) with (before (is_leap y) m). change (days_before_month y' m') with (before (is_leap y') m').
  intros E. pose proof (month_bound _ _ _ M D) as B. pose proof (month_bound _ _ _ M' D') as B'.
  assert (y = y').
  { destruct (Z.lt_trichotomy y y') as [L|[|L]]; [exfalso|assumption|exfalso].
    - pose proof (year_mono (y + 1) y' ltac:(lia)) as K. rewrite year_start in K. lia.
    - pose proof (year_mono (y' + 1) y ltac:(lia)) as K. rewrite year_start in K. lia. }
  subst y'. assert (m = m').
  { destruct (Z.lt_trichotomy m m') as [L|[|L]]; [exfalso|assumption|exfalso].
    - pose proof (month_mono (is_leap y) m (Z.to_nat (m' - m - 1)) ltac:(lia) ltac:(lia)) as K.
      replace (m + Z.of_nat (S (Z.to_nat (m' - m - 1)))) with m' in K by lia. lia.
    - pose proof (month_mono (is_leap y) m' (Z.to_nat (m - m' - 1)) ltac:(lia) ltac:(lia)) as K.
      replace (m' + Z.of_nat (S (Z.to_nat (m - m' - 1)))) with m in K by lia. lia. }
  subst m'. f_equal. lia.
Qed.
Lemma ord_bound d : valid_date d = true -> 0 < ymd2ord d <= MAXORDINAL.
Proof.
  intros V. apply valid_date_iff in V as (Y & M & D). rewrite days_month in D. unfold ymd2ord.
  change (days_before_month (d_year d) (d_month d)) with (before (is_leap (d_year d)) (d_month d)).
  pose proof (month_bound _ _ _ M D) as B. pose proof (year_mono 1 (d_year d) ltac:(lia)) as K1.
  pose proof (year_mono (d_year d + 1) 10000 ltac:(lia)) as K2. rewrite year_start in K2.
  change (days_before_year 1) with 0 in K1. change (days_before_year 10000) with MAXORDINAL in K2. lia.
Qed.
Lemma ymd_ord d : valid_date d = true -> ord2ymd (ymd2ord d) = d.
Proof.
  intros V. pose proof (ord_bound d V) as B. destruct (ord_valid (ymd2ord d) B) as [V' E]. now apply ymd_inj.
Qed.

(** ** Times *)
Lemma us_time_ok n : 0 <= n < day_us -> valid_time (us_time n) = true /\ time_us (us_time n) = n.
Proof.
  unfold day_us. intros H. unfold us_time, time_us. cbn [t_hour t_minute t_second t_micro].
  pose proof (Z.div_mod n 1000000 ltac:(lia)). pose proof (Z.mod_pos_bound n 1000000 ltac:(lia)).
  replace (n / 60000000) with (n / 1000000 / 60) by (rewrite Z.div_div by lia; reflexivity).
  replace (n / 3600000000) with (n / 1000000 / 60 / 60) by (rewrite !Z.div_div by lia; reflexivity).
  set (s := n / 1000000) in *. set (us := n mod 1000000) in *. clearbody s us.
  pose proof (Z.div_mod s 60 ltac:(lia)). pose proof (Z.mod_pos_bound s 60 ltac:(lia)).
  set (mi := s / 60) in *. set (se := s mod 60) in *. clearbody mi se.
  pose proof (Z.div_mod mi 60 ltac:(lia)). pose proof (Z.mod_pos_bound mi 60 ltac:(lia)).
  set (h := mi / 60) in *. set (m := mi mod 60) in *. clearbody h m.
  split; [|lia]. apply valid_time_iff. cbn. lia.
Qed.
Lemma time_bound t : valid_time t = true -> 0 <= time_us t < day_us.
Proof. intros V. apply valid_time_iff in V. unfold time_us, day_us. lia. Qed.
Lemma time_inj t t' : valid_time t = true -> valid_time t' = true -> time_us t = time_us t' -> t = t'.
Proof.
  intros V V'. apply valid_time_iff in V. apply valid_time_iff in V'. unfold time_us.
  destruct t as [h m s x], t' as [h' m' s' x']. cbn in *. intros E.
  assert (h = h') by lia. assert (m = m') by lia. assert (s = s') by lia. assert (x = x') by lia. congruence.
Qed.
Lemma time_us_time t : valid_time t = true -> us_time (time_us t) = t.
Proof. intros V. pose proof (time_bound t V) as B. destruct (us_time_ok _ B) as [V' E]. now apply time_inj. Qed.

Lemma stamp_inj d t d' t' : valid_date d = true -> valid_time t = true -> valid_date d' = true -> valid_time t' = true ->
  stamp d t = stamp d' t' -> d = d' /\ t = t'.
Proof.
  intros Vd Vt Vd' Vt'. unfold stamp. pose proof (time_bound _ Vt) as B. pose proof (time_bound _ Vt') as B'. unfold day_us in *.
  intros E. assert (ymd2ord d = ymd2ord d') by lia. split; [now apply ymd_inj|apply time_inj; auto; lia].
Qed.
(** [datetime + timedelta] succeeds iff some datetime is that far away, and gives it. *)
Lemma add_us_iff d t us d' t' : add_us d t us = Ok (d', t') <->
  valid_date d' = true /\ valid_time t' = true /\ stamp d' t' = stamp d t + us.
Proof.
  unfold add_us. set (n := stamp d t + us). clearbody n.
  pose proof (Z.div_mod n day_us ltac:(unfold day_us; lia)) as D. pose proof (Z.mod_pos_bound n day_us ltac:(unfold day_us; lia)) as B.
  destruct (us_time_ok _ B) as [Vt Et]. split.
  - destruct ((0 <? n / day_us) && (n / day_us <=? MAXORDINAL)) eqn:E; [|discriminate]. bz. intros [= <- <-].
    destruct (ord_valid (n / day_us)) as [Vd Ed]; [lia|]. repeat split; [assumption..|]. unfold stamp. rewrite Ed, Et. lia.
  - intros (Vd' & Vt' & E). pose proof (time_bound _ Vt') as B'. pose proof (ord_bound _ Vd') as O. unfold stamp in E.
    assert (Q : n / day_us = ymd2ord d') by (symmetry; apply Z.div_unique with (time_us t'); lia).
    assert (M : n mod day_us = time_us t') by (symmetry; apply Z.mod_unique with (ymd2ord d'); lia).
    rewrite Q, M. rewrite (proj2 (Z.ltb_lt _ _)), (proj2 (Z.leb_le _ _)) by lia. cbn [andb].
    now rewrite ymd_ord, time_us_time.
Qed.
