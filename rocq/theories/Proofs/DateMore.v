(** More about dates and times: what validation accepts, the first format, timestamps of aware datetimes. *)
From Verif.Model Require Import Py Core Num Calendar Text Types DateTime.
From Verif.Spec Require Import TextSpec TypeSpec DateSpec.
From Verif.Proofs Require Import CalendarLemmas DateText DateTimeLemmas IsoText FloatTime.
From Coq Require Import Lia.
Local Open Scope Z_scope.

Lemma validate_iff o d t z : validate_tz o (VDateTime d t z) = None <->
  match z with
  | None => dt_drop o = true \/ dt_policy o = Allow_tz \/ dt_policy o = Reject_tz
  | Some off => dt_drop o = false /\ dt_policy o <> Reject_tz /\ (dt_convert o = true -> off = 0)
  end.
Proof.
  destruct z as [off|]; cbn.
  - destruct (dt_drop o); [split; [discriminate|intros (H & _); discriminate]|].
    destruct (dt_policy o); try (split; [discriminate|intros (_ & H & _); congruence]);
    (destruct (dt_convert o); cbn; [destruct (Z.eqb_spec off 0) as [->|N]; cbn|];
     (split; [try discriminate; intros _; repeat split; congruence|
              intros (_ & _ & H); try reflexivity; exfalso; auto])).
  - destruct (dt_drop o); [tauto|]. destruct (dt_policy o); split; intros H; try discriminate H; auto;
      destruct H as [H|[H|H]]; discriminate H.
Qed.
Lemma validate_fails o d t z e : validate_tz o (VDateTime d t z) = Some e -> exists m, e = XValid false [m].
Proof.
  destruct z as [off|]; cbn; destruct (dt_drop o); try discriminate; try (intros H; injection H as <-; eauto).
  all: destruct (dt_policy o); try destruct (dt_convert o && negb (off =? 0)); try discriminate; intros H; injection H as <-; eauto.
Qed.
Lemma validate_fixed R o d t z :
  validate_tz o (VDateTime d t z) = None <-> dt_native R o (VDateTime d t z) = Ok (VDateTime d t z).
Proof.
  rewrite validate_iff. cbn. destruct z as [off|]; cbn.
  - destruct (dt_policy o); cbn; unfold normalize; destruct (dt_convert o), (dt_drop o); cbn;
      try (split; [intros (H1 & H2 & H3); try discriminate H1; try congruence|try discriminate]; fail);
      try (split; [reflexivity || intros (H1 & H2 & H3)|]).
    all: try discriminate.
    all: try (now split; [intros (? & ? & ?); congruence|discriminate]).
    all: try (intros _; split; [reflexivity|split; [discriminate|discriminate]]).
    all: try (rewrite (H3 eq_refl); reflexivity).
    all: try (destruct (to_utc d t off) as [[d' t']|]; cbn; intros H; [|discriminate H]; injection H; intros; subst;
              split; [reflexivity|split; [discriminate|reflexivity]]).
    all: try (destruct (to_utc d t off) as [[d' t']|]; cbn; intros H; discriminate H).
    all: try reflexivity.
  - destruct (dt_drop o), (dt_policy o); cbn; split; intros H; try discriminate H; auto;
      destruct H as [H|[H|H]]; discriminate H.
Qed.

Lemma first_format_iff {A} (fmts : list (pyval -> option A)) v x : first_format fmts v = Some x <->
  exists pre f post, fmts = pre ++ f :: post /\ (forall g, In g pre -> g v = None) /\ f v = Some x.
Proof.
  induction fmts as [|f r IH]; cbn.
  - split; [discriminate|]. intros (pre & f & post & H & _). destruct pre; discriminate.
  - destruct (f v) as [y|] eqn:D.
    + split.
      * intros H. injection H as ->. exists [], f, r. split; [reflexivity|]. split; [intros g []|exact D].
      * intros (pre & g & post & H & K & G). destruct pre as [|h pre]; cbn in H; injection H as -> ->; [congruence|].
        specialize (K h (or_introl eq_refl)). congruence.
    + rewrite IH. split.
      * intros (pre & g & post & -> & K & G). exists (f :: pre), g, post. split; [reflexivity|]. split; [|exact G].
        intros h [<-|H]; auto.
      * intros (pre & g & post & H & K & G). destruct pre as [|h pre]; cbn in H; injection H as -> ->; [congruence|].
        exists pre, g, post. split; [reflexivity|]. split; [|exact G]. intros h' H. apply K. now right.
Qed.
Lemma first_format_none {A} (fmts : list (pyval -> option A)) v : first_format fmts v = None <-> forall f, In f fmts -> f v = None.
Proof.
  induction fmts as [|f r IH]; cbn; [split; [intros _ f []|reflexivity]|]. destruct (f v) eqn:D.
  - split; [discriminate|]. intros H. rewrite (H f) in D; [discriminate|now left].
  - rewrite IH. split; [intros H g [<-|K]; auto|auto].
Qed.

Lemma date_given R fmts d : date_native R fmts (VDate d) = Ok (VDate d).
Proof. reflexivity. Qed.
Lemma date_of_datetime R fmts d t z : date_native R fmts (VDateTime d t z) = Ok (VDate d).
Proof. reflexivity. Qed.
Lemma date_first R f fmts v w : (forall d, v <> VDate d) -> ~ is_datetime v ->
  (date_native R (f :: fmts) v = Ok w <->
   exists pre g post d, f :: fmts = pre ++ g :: post /\ (forall h, In h pre -> h v = None) /\ g v = Some d /\ w = VDate d).
Proof.
  intros N1 N2.
  assert (E : date_native R (f :: fmts) v = match first_format (f :: fmts) v with Some d => Ok (VDate d) | None => conv_err "parse" end).
  { destruct v; try reflexivity; exfalso; [eapply N1; reflexivity|apply N2; unfold is_datetime; eauto]. }
  rewrite E. clear E. split.
  - destruct (first_format (f :: fmts) v) as [d|] eqn:D; [|discriminate]. intros H. injection H as <-.
    apply first_format_iff in D as (pre & g & post & H1 & H2 & H3). exists pre, g, post, d. auto.
  - intros (pre & g & post & d & H1 & H2 & H3 & ->).
    assert (D : first_format (f :: fmts) v = Some d) by (apply first_format_iff; exists pre, g, post; auto). now rewrite D.
Qed.
Lemma date_none R f fmts v : (forall d, v <> VDate d) -> ~ is_datetime v ->
  (date_native R (f :: fmts) v = conv_err "parse" <-> forall h, In h (f :: fmts) -> h v = None).
Proof.
  intros N1 N2.
  assert (E : date_native R (f :: fmts) v = match first_format (f :: fmts) v with Some d => Ok (VDate d) | None => conv_err "parse" end).
  { destruct v; try reflexivity; exfalso; [eapply N1; reflexivity|apply N2; unfold is_datetime; eauto]. }
  rewrite E, <- first_format_none. destruct (first_format (f :: fmts) v); split; intros H; try discriminate H; reflexivity.
Qed.
Lemma dt_first R o f r v x : dt_how o = PFormats f r ->
  (dt_read R (dt_how o) v = Ok x <->
   exists pre g post, f :: r = pre ++ g :: post /\ (forall h, In h pre -> h v = None) /\ g v = Some x).
Proof.
  intros ->. cbn [dt_read]. split.
  - destruct (first_format (f :: r) v) as [y|] eqn:D; [|discriminate]. intros H. injection H as ->. now apply first_format_iff.
  - intros H. apply first_format_iff in H. now rewrite H.
Qed.

(** ** Timestamps *)
Lemma timestamp_aware R d t off d' t' : valid_date d = true -> valid_time t = true -> Z.abs off < 86400 ->
  valid_date d' = true -> valid_time t' = true -> instant d' t' 0 = instant d t off ->
  dt_prim R XTimestamp (VDateTime d t (Some off)) = Ok (VFloat (total_seconds (instant d t off - EPOCH))) /\
  dt_prim R XTimestamp (VDateTime d' t' None) = Ok (VFloat (total_seconds (instant d t off - EPOCH))).
Proof.
  intros V1 V2 L V1' V2' E.
  assert (U : to_utc d t off = Ok (d', t')) by (apply to_utc_iff; auto).
  rewrite <- E. unfold instant. replace (stamp d' t' - 0 * 1000000) with (stamp d' t') by lia. cbn. rewrite U. auto.
Qed.
Lemma timestamp_aware_round R drop d t off d' t' : valid_date d = true -> valid_time t = true -> Z.abs off < 86400 ->
  valid_date d' = true -> valid_time t' = true -> instant d' t' 0 = instant d t off ->
  Z.abs (instant d t off - EPOCH) < 2 ^ 33 * 1000000 \/ t_micro t' = 0 ->
  exists f, dt_prim R XTimestamp (VDateTime d t (Some off)) = Ok (VFloat f) /\
            dt_native R (timestamp_opts drop) (VFloat f) = Ok (VDateTime d' t' (stored drop)).
Proof.
  intros V1 V2 L V1' V2' E B. destruct (timestamp_aware R d t off d' t' V1 V2 L V1' V2' E) as (H1 & H2).
  destruct (timestamp_round R drop d' t' V1' V2') as (f & P & N).
  { destruct B as [B|B]; [left|right; exact B]. rewrite <- E in B. unfold instant in B.
    replace (stamp d' t' - 0 * 1000000) with (stamp d' t') in B by lia. exact B. }
  exists f. split; [|exact N]. rewrite H1, <- H2. destruct drop; cbn in P |- *; exact P.
Qed.

(** ** The calendar *)
Lemma mod_divide y n : 0 < n -> (y mod n =? 0) = true <-> (n | y).
Proof. intros P. rewrite Z.eqb_eq. apply Z.mod_divide. lia. Qed.
Lemma is_leap_iff y : is_leap y = true <-> leap_year y.
Proof.
  unfold is_leap, leap_year. rewrite andb_true_iff, orb_true_iff, negb_true_iff.
  rewrite <- not_true_iff_false, !mod_divide by lia. reflexivity.
Qed.
Lemma valid_date_iff d : valid_date d = true <-> calendar_date d.
Proof.
  destruct d as [y m d]. unfold valid_date, calendar_date, MINYEAR, MAXYEAR. cbn [d_year d_month d_day].
  rewrite !andb_true_iff, !Z.leb_le. unfold days_in_month. split.
  - intros (((((H1 & H2) & H3) & H4) & H5) & H6). split; [lia|].
    destruct (Z.eqb_spec m 2) as [->|N2].
    + destruct (is_leap y) eqn:L.
      * exists 29. split; [apply ml_leap; now apply is_leap_iff|lia].
      * exists 28. split; [apply ml_common; rewrite <- is_leap_iff; congruence|lia].
    + destruct ((m =? 4) || (m =? 6) || (m =? 9) || (m =? 11)) eqn:S.
      * exists 30. split; [apply ml_short; cbn; lia|lia].
      * exists 31. split; [apply ml_long; cbn; lia|lia].
  - intros (H1 & n & M & H2). inversion M as [m' I|m' I|L|L]; subst; cbn [In] in *.
    + assert (E : (m =? 2) = false) by lia. assert (F : ((m =? 4) || (m =? 6) || (m =? 9) || (m =? 11)) = false) by lia.
      rewrite E, F. lia.
    + assert (E : (m =? 2) = false) by lia. assert (F : ((m =? 4) || (m =? 6) || (m =? 9) || (m =? 11)) = true) by lia.
      rewrite E, F. lia.
    + apply is_leap_iff in L. cbn. rewrite L. lia.
    + rewrite <- is_leap_iff in L. apply not_true_iff_false in L. cbn. rewrite L. lia.
Qed.
Lemma valid_time_iff t : valid_time t = true <-> clock_time t.
Proof. unfold valid_time, clock_time. rewrite !andb_true_iff, !Z.leb_le. lia. Qed.

Lemma validate_others o v : (forall d t z, v <> VDateTime d t z) -> validate_tz o v = Some (XPy EAttributeError).
Proof. intros H. destruct v; try reflexivity. now elim (H d t off). Qed.
