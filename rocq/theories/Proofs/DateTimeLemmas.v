(** DateType, DateTimeType: conversion, time zones, texts. *)
From Verif.Model Require Import Py Core Num Calendar Text Types DateTime.
From Verif.Spec Require Import TypeSpec DateSpec.
From Verif.Proofs Require Import TextLemmas NumText CalendarLemmas DateText TypeLemmas.
Local Open Scope Z_scope.
Local Arguments Z.add : simpl never.
Local Arguments Z.mul : simpl never.
Local Arguments Z.sub : simpl never.
Local Arguments Z.opp : simpl never.

(** ** Round trips *)
Lemma date_round R fmts d : valid_date d = true -> four_digits R (d_year d) -> fmts = [] ->
  exists s, date_prim R (VDate d) = Ok (VStr s) /\ date_native R fmts (VStr s) = Ok (VDate d).
Proof.
  intros V Y ->. eexists. split; [reflexivity|]. cbn. now rewrite ymd_round.
Qed.
Lemma date_short R d : valid_date d = true -> ~ four_digits R (d_year d) ->
  exists s, date_prim R (VDate d) = Ok (VStr s) /\ date_native R [] (VStr s) = conv_err "parse".
Proof.
  intros V Y. eexists. split; [reflexivity|]. cbn. rewrite ymd_short; [reflexivity|assumption| |].
  - destruct (Z_lt_ge_dec (d_year d) 1000); [assumption|]. exfalso. apply Y. right. lia.
  - destruct (rt_pad_year R) eqn:E; [|reflexivity]. exfalso. apply Y. now left.
Qed.

Definition plain_opts : dt_opts := DtOpts Allow_tz false false PBuiltin.
Lemma char_range l : Forall (fun c => (c = 43 \/ c = 45 \/ 48 <= c <= 57)%N) l -> Forall (fun c => (33 <= c < 95)%N) l.
Proof. intros H. eapply Forall_impl; [|exact H]. cbn. lia. Qed.
Lemma dt_text_read R d t z : valid_date d = true -> valid_time t = true -> four_digits R (d_year d) -> whole_minutes z ->
  exists s, dt_prim R XIso (VDateTime d t z) = Ok (VStr s) /\ dt_builtin R (VStr s) = Ok (d, t, z).
Proof.
  intros Vd Vt Y Z. destruct (zone_read (rt_uni R) z Z) as (zt & Ez & Tz & Cz & Hz).
  exists (stamp_text R d t ++ zt)%list. split; [cbn; now rewrite Ez|].
  unfold dt_builtin. cbn [py_float]. rewrite stamp_no_float by (auto using char_range). cbn [rbind].
  rewrite (stamp_read _ _ _ _ _ z [] Vd Vt Y Hz Tz). reflexivity.
Qed.
Lemma dt_round R d t z : valid_date d = true -> valid_time t = true -> four_digits R (d_year d) -> whole_minutes z ->
  exists s, dt_prim R XIso (VDateTime d t z) = Ok (VStr s) /\ dt_native R plain_opts (VStr s) = Ok (VDateTime d t z).
Proof.
  intros Vd Vt Y Z. destruct (dt_text_read R d t z Vd Vt Y Z) as (s & E1 & E2). exists s. split; [assumption|].
  unfold dt_native, plain_opts. cbn [dt_how dt_read]. rewrite E2. cbn [rbind]. destruct z; reflexivity.
Qed.
Lemma dt_inj R d t z d' t' z' s :
  valid_date d = true -> valid_time t = true -> four_digits R (d_year d) -> whole_minutes z ->
  valid_date d' = true -> valid_time t' = true -> four_digits R (d_year d') -> whole_minutes z' ->
  dt_prim R XIso (VDateTime d t z) = Ok s -> dt_prim R XIso (VDateTime d' t' z') = Ok s -> d = d' /\ t = t' /\ z = z'.
Proof.
  intros Vd Vt Y Z Vd' Vt' Y' Z' E E'. destruct (dt_text_read R d t z Vd Vt Y Z) as (x & P & Q).
  destruct (dt_text_read R d' t' z' Vd' Vt' Y' Z') as (x' & P' & Q'). rewrite E in P. injection P as ->. rewrite E' in P'. injection P' as ->.
  rewrite Q in Q'. injection Q' as -> -> ->. auto.
Qed.
Lemma utc_round R d t : valid_date d = true -> valid_time t = true -> four_digits R (d_year d) ->
  exists s, dt_prim R XIsoZ (VDateTime d t None) = Ok (VStr s) /\ dt_native R utc_opts (VStr s) = Ok (VDateTime d t None) /\
    dt_native R plain_opts (VStr s) = Ok (VDateTime d t (Some 0)).
Proof.
  intros Vd Vt Y. eexists. split; [reflexivity|]. unfold dt_native, utc_opts, plain_opts. cbn [dt_how dt_read]. unfold dt_builtin. cbn [py_float].
  rewrite stamp_no_float; [|assumption..|constructor; [lia|constructor]]. cbn [rbind].
  rewrite (stamp_read _ _ _ _ _ (Some 0) [] Vd Vt Y); [|cbn; auto|reflexivity]. split; reflexivity.
Qed.
(** Booleans are the numbers 0 and 1. *)
Lemma bool_durations R p b : delta_native R p (VBool b) = delta_native R p (VInt (if b then 1 else 0)).
Proof. now destruct b. Qed.
Lemma bool_timestamps R drop b :
  dt_native R (timestamp_opts drop) (VBool b) = dt_native R (timestamp_opts drop) (VInt (if b then 1 else 0)).
Proof. now destruct b. Qed.
(** An offset with seconds is written, but the text is not read. *)
Lemma seconds_lost R d t off : valid_date d = true -> valid_time t = true -> four_digits R (d_year d) ->
  Z.abs off < 86400 -> off mod 60 <> 0 ->
  exists s, dt_prim R XIso (VDateTime d t (Some off)) = Ok (VStr s) /\ dt_native R plain_opts (VStr s) = conv_err "parse".
Proof.
  intros Vd Vt Y B M.
  assert (Ma : (Z.abs off mod 60 <> 0)%Z).
  { intros E. apply M. apply Z.mod_divide; [lia|]. apply Z.mod_divide in E; [|lia]. now apply Z.divide_abs_r. }
  cbn [dt_prim zone_text]. destruct (Z.ltb_spec (Z.abs off) 86400) as [_|]; [|lia].
  rewrite (proj2 (Z.eqb_neq _ _) Ma). cbn [rbind]. eexists. split; [reflexivity|].
  pose proof (Z.div_mod (Z.abs off) 60 ltac:(lia)) as Dm. pose proof (Z.mod_pos_bound (Z.abs off) 60 ltac:(lia)) as Bm.
  set (q := (Z.abs off / 60)%Z) in *. assert (Q3600 : (Z.abs off / 3600 = q / 60)%Z) by (unfold q; now rewrite Z.div_div by lia).
  rewrite Q3600. set (r := (Z.abs off mod 60)%Z) in *. clearbody q r.
  pose proof (Z.div_mod q 60 ltac:(lia)) as D2. pose proof (Z.mod_pos_bound q 60 ltac:(lia)) as B2.
  set (h := (q / 60)%Z) in *. set (m := (q mod 60)%Z) in *. clearbody h m.
  unfold dt_native, plain_opts. cbn [dt_how dt_read]. unfold dt_builtin. cbn [py_float].
  rewrite stamp_no_float; [|assumption..|].
  2:{ constructor; [destruct (off <? 0); lia|]. apply Forall_app; split; [apply two_chars; lia|]; apply Forall_app; split; apply two_chars; lia. }
  cbn [rbind].
  assert (T : forall z, 0 <= z <= 99 -> forall r, take_char 58 (two_digits z ++ r) = None).
  { intros z Hz r'. unfold two_digits. destruct (padded_ok 10 2 ltac:(lia) (Z.to_N z)) as (A & _ & L); [change (10 ^ N.of_nat 2)%N with 100%N; lia|].
    revert A L. generalize (padded 2 10 (Z.to_N z)). intros [|c l] A L; [discriminate|]. inversion A as [|? ? [v Hv] _]; subst.
    apply (udigit_of (rt_uni R)) in Hv as (_ & Hc & _). cbn [take_char app]. destruct (N.eqb_spec c 58); [lia|reflexivity]. }
  rewrite (stamp_read _ _ d t _ (Some ((h * 60 + m) * (if off <? 0 then -1 else 1) * 60)) (two_digits r)); [|assumption..|destruct (off <? 0); auto|].
  2:{ unfold take_zone. destruct (off <? 0); cbn [N.eqb Pos.eqb orb]; rewrite two_read by lia; rewrite T by lia; rewrite two_read by lia; reflexivity. }
  assert (E : at_end (two_digits r) = false).
  { unfold two_digits. destruct (padded_ok 10 2 ltac:(lia) (Z.to_N r)) as (_ & _ & L); [change (10 ^ N.of_nat 2)%N with 100%N; lia|].
    destruct (padded 2 10 (Z.to_N r)) as [|? [|]]; try discriminate L. reflexivity. }
  rewrite E. reflexivity.
Qed.

(** ** Time zones *)
Lemma to_utc_iff d t off d' t' : valid_date d = true -> valid_time t = true ->
  (to_utc d t off = Ok (d', t') <->
   (off = 0 \/ Z.abs off < 86400) /\ valid_date d' = true /\ valid_time t' = true /\ instant d' t' 0 = instant d t off).
Proof.
  intros Vd Vt. unfold to_utc, instant. destruct (Z.eqb_spec off 0) as [->|N].
  - split.
    + intros [= <- <-]. auto.
    + intros (_ & Vd' & Vt' & E). destruct (stamp_inj d t d' t') as [-> ->]; auto. lia.
  - destruct (Z.ltb_spec (Z.abs off) 86400).
    + rewrite add_us_iff. split.
      * intros (A & B & C). repeat split; auto. lia.
      * intros (_ & A & B & C). repeat split; auto. lia.
    + split; [discriminate|]. intros ([|] & _); lia.
Qed.
Lemma not_dt R o v : ~ is_datetime v ->
  dt_native R o v = rbind (dt_read R (dt_how o) v) (fun x => rbind (dt_parsed o x) (fun x => Ok (dt_val x))).
Proof. intros H. destruct v; try reflexivity. exfalso. apply H. repeat eexists. Qed.

(** What comes out. *)
Lemma native_naive R o v d t w : reads R o v d t None -> dt_native R o v = Ok w ->
  w = VDateTime d t (match dt_policy o with Utc_tz => if dt_drop o then None else Some 0 | _ => None end).
Proof.
  intros [->|[N E]] H.
  - cbn in H. destruct (dt_drop o), (dt_policy o); cbn in H; congruence.
  - rewrite not_dt, E in H by assumption. cbn in H. destruct (dt_policy o), (dt_drop o); cbn in H; congruence.
Qed.
Lemma native_aware R o v d t off w : reads R o v d t (Some off) -> dt_native R o v = Ok w ->
  exists d' t', w = VDateTime d' t' (if dt_drop o then None else Some (if dt_convert o then 0 else off)) /\
    if dt_convert o then to_utc d t off = Ok (d', t') else d' = d /\ t' = t.
Proof.
  intros [->|[N E]] H.
  - cbn in H. unfold normalize in H. destruct (dt_policy o); [| | |discriminate];
      (destruct (dt_convert o); [destruct (to_utc d t off) as [[d' t']|]; cbn in H; [|discriminate]|cbn in H]; injection H as <-; eauto).
  - rewrite not_dt, E in H by assumption. cbn in H. unfold normalize in H. destruct (dt_policy o); [| | |discriminate];
      (destruct (dt_convert o); [destruct (to_utc d t off) as [[d' t']|]; cbn in H; [|discriminate]|cbn in H]; injection H as <-; eauto).
Qed.
Lemma native_reads R o v w : dt_native R o v = Ok w -> exists d t z, reads R o v d t z.
Proof.
  intros H. assert (D : is_datetime v \/ ~ is_datetime v).
  { destruct v; try (right; intros (? & ? & ? & ?); discriminate). left. repeat eexists. }
  destruct D as [(d & t & z & ->)|N]; [repeat eexists; now left|]. rewrite not_dt in H by assumption.
  destruct (dt_read R (dt_how o) v) as [[[d t] z]|] eqn:E; [|discriminate]. exists d, t, z. right. auto.
Qed.
Lemma convert_keeps_instant R o v d t off w : reads R o v d t (Some off) -> valid_date d = true -> valid_time t = true ->
  dt_convert o = true -> dt_native R o v = Ok w ->
  exists d' t', w = VDateTime d' t' (if dt_drop o then None else Some 0) /\ instant d' t' 0 = instant d t off /\
    valid_date d' = true /\ valid_time t' = true.
Proof.
  intros Hr Vd Vt C H. destruct (native_aware _ _ _ _ _ _ _ Hr H) as (d' & t' & -> & K). rewrite C in *.
  apply to_utc_iff in K as (_ & A & B & E); auto. exists d', t'. auto.
Qed.
Lemma keep_zone R o v d t off w : reads R o v d t (Some off) -> dt_convert o = false -> dt_native R o v = Ok w ->
  w = VDateTime d t (if dt_drop o then None else Some off).
Proof.
  intros Hr C H. destruct (native_aware _ _ _ _ _ _ _ Hr H) as (d' & t' & -> & K). rewrite C in *. now destruct K as [-> ->].
Qed.
Lemma accepts_naive R o v d t : reads R o v d t None ->
  ((exists w, dt_native R o v = Ok w) <-> (dt_policy o = Require_tz -> dt_drop o = true /\ is_datetime v)).
Proof.
  intros [->|[N E]].
  - cbn. split.
    + intros [w H] P. rewrite P in H. destruct (dt_drop o); [|discriminate]. split; [reflexivity|repeat eexists].
    + intros H. destruct (dt_policy o), (dt_drop o); cbn; eauto. destruct (H eq_refl). discriminate.
  - rewrite not_dt, E by assumption. cbn. split.
    + intros [w H] P. rewrite P in H. discriminate.
    + intros H. destruct (dt_policy o), (dt_drop o); cbn; eauto; destruct (H eq_refl); contradiction.
Qed.
Lemma accepts_aware R o v d t off : reads R o v d t (Some off) -> valid_date d = true -> valid_time t = true ->
  ((exists w, dt_native R o v = Ok w) <->
   dt_policy o <> Reject_tz /\
   (dt_convert o = true -> (off = 0 \/ Z.abs off < 86400) /\
      exists d' t', valid_date d' = true /\ valid_time t' = true /\ instant d' t' 0 = instant d t off)).
Proof.
  intros Hr Vd Vt. assert (Hn : dt_policy o <> Reject_tz -> dt_native R o v = rbind (normalize o d t off) (fun x => Ok (dt_val x))).
  { intros P. destruct Hr as [->|[N E]]; [cbn|rewrite not_dt, E by assumption; cbn]; destruct (dt_policy o); congruence. }
  assert (Hj : dt_policy o = Reject_tz -> exists e, dt_native R o v = Raise e).
  { intros P. destruct Hr as [->|[N E]]; [cbn|rewrite not_dt, E by assumption; cbn]; rewrite P; cbn; eauto. }
  split.
  - intros [w H]. assert (P : dt_policy o <> Reject_tz) by (intros P; destruct (Hj P); congruence). split; [assumption|]. intros C.
    rewrite (Hn P) in H. unfold normalize in H. rewrite C in H. destruct (to_utc d t off) as [[d' t']|] eqn:E; [|discriminate].
    apply to_utc_iff in E as (A & B & F & G); auto. split; [assumption|]. eauto.
  - intros [P K]. rewrite (Hn P). unfold normalize. destruct (dt_convert o); [|cbn; eauto].
    destruct (K eq_refl) as (A & d' & t' & B & F & G). rewrite (proj2 (to_utc_iff d t off d' t' Vd Vt)) by auto. cbn. eauto.
Qed.
Lemma native_shape R o v w : dt_native R o v = Ok w -> exists d t z, w = VDateTime d t z /\
  (dt_drop o = true -> z = None) /\ (dt_policy o = Reject_tz -> z = None) /\
  (dt_policy o = Require_tz \/ dt_policy o = Utc_tz -> dt_drop o = false -> z <> None) /\
  (dt_convert o = true -> z = None \/ z = Some 0).
Proof.
  intros H. destruct (native_reads _ _ _ _ H) as (d & t & [off|] & Hr).
  - destruct (native_aware _ _ _ _ _ _ _ Hr H) as (d' & t' & -> & K). eexists _, _, _. split; [reflexivity|].
    assert (P : dt_policy o <> Reject_tz).
    { intros P. destruct Hr as [->|[N E]]; [cbn in H|rewrite not_dt, E in H by assumption; cbn in H]; rewrite P in H; discriminate. }
    destruct (dt_drop o), (dt_convert o); repeat split; intros; auto; try congruence.
  - pose proof (native_naive _ _ _ _ _ _ Hr H) as ->. eexists _, _, _. split; [reflexivity|].
    pose proof (proj1 (accepts_naive _ _ _ _ _ Hr) (ex_intro _ _ H)) as A.
    destruct (dt_policy o), (dt_drop o); repeat split; intros; auto; try congruence.
    + destruct (A eq_refl). discriminate.
    + match goal with H : _ \/ _ |- _ => destruct H; discriminate end.
    + match goal with H : _ \/ _ |- _ => destruct H; discriminate end.
Qed.
Lemma native_validates R o v w : dt_native R o v = Ok w -> validate_tz o w = None.
Proof.
  intros H. destruct (native_shape _ _ _ _ H) as (d & t & z & -> & A & B & C & D). unfold validate_tz. destruct z as [off|].
  - destruct (dt_drop o); [discriminate (A eq_refl)|]. destruct (dt_convert o).
    + destruct (D eq_refl) as [|E]; [discriminate|]. injection E as ->. destruct (dt_policy o); cbn; auto. discriminate (B eq_refl).
    + destruct (dt_policy o); cbn; auto. discriminate (B eq_refl).
  - destruct (dt_drop o); [reflexivity|]. destruct (dt_policy o); auto; destruct (C ltac:(auto) eq_refl eq_refl).
Qed.

(** ** Conversion is idempotent *)
Lemma date_idem R fmts v w : date_native R fmts v = Ok w -> date_native R fmts w = Ok w.
Proof.
  unfold date_native. destruct v; try (destruct (first_format _ _); [|discriminate]; intros [= <-]; reflexivity); intros [= <-]; reflexivity.
Qed.
Lemma dt_idem R o v w : dt_native R o v = Ok w -> dt_native R o w = Ok w.
Proof.
  intros H. destruct (native_shape _ _ _ _ H) as (d & t & z & -> & A & B & C & D). cbn. destruct z as [off|]; cbn.
  - destruct (dt_drop o) eqn:Ed; [discriminate (A eq_refl)|]. unfold normalize. rewrite Ed.
    destruct (dt_policy o); try (discriminate (B eq_refl));
      (destruct (dt_convert o); [destruct (D eq_refl) as [|E]; [discriminate|]; injection E as ->|]; reflexivity).
  - destruct (dt_drop o) eqn:Ed; [reflexivity|]. destruct (dt_policy o); try reflexivity; destruct (C ltac:(auto) eq_refl eq_refl).
Qed.
Lemma delta_idem R p v w : delta_native R p v = Ok w -> delta_native R p w = Ok w.
Proof.
  assert (K : (exists us, v = VTimedelta us) \/ delta_native R p v = rbind (py_float R v) (fun o =>
         match o with
         | None => conv_err "convert"
         | Some f => match timedelta_of (unit_us p) f with
                     | Ok us => Ok (VTimedelta us)
                     | Raise (XPy EValueError) => conv_err "convert"
                     | Raise e => Raise e
                     end
         end)) by (destruct v; eauto).
  destruct K as [[us ->]|K]; [intros [= <-]; reflexivity|]. rewrite K. clear K.
  destruct (py_float R v) as [[f|]|]; cbn [rbind]; [|discriminate..].
  destruct (timedelta_of _ f) as [us|e]; [intros [= <-]; reflexivity|]. destruct e as [| | | |[]|]; discriminate.
Qed.
Lemma date_leaf_idem R l v w : date_leaf R l -> lf_native l v = Ok w -> lf_native l w = Ok w.
Proof. intros []; [apply date_idem|apply dt_idem|apply delta_idem]. Qed.
