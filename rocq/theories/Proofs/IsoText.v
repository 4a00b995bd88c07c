(** The texts the built-in parser of DateTimeType accepts. *)
From Verif.Model Require Import Py Core Num Calendar Text Types DateTime.
From Verif.Spec Require Import DateSpec.
From Verif.Proofs Require Import TextLemmas CalendarLemmas.
Local Open Scope N_scope.

Section U.
Context (U : unicode).

Lemma digit_iff c v : decimal_digit U c v <-> exists n, udigit U c = Some n /\ v = Z.of_N n.
Proof.
  unfold decimal_digit, udigit. split.
  - intros [[H ->]|[H (d & E & ->)]].
    + destruct (N.ltb_spec c 128); [|lia]. rewrite (proj2 (N.leb_le 48 c)), (proj2 (N.leb_le c 57)) by lia. cbn. eauto.
    + destruct (N.ltb_spec c 128); [lia|]. rewrite E. eauto.
  - intros (n & E & ->). destruct (N.ltb_spec c 128).
    + destruct ((48 <=? c) && (c <=? 57)) eqn:B; [|discriminate]. injection E as <-. apply andb_prop in B as [B1 B2].
      apply N.leb_le in B1, B2. left. auto.
    + destruct (un_digit U c) as [d|] eqn:D; [|discriminate]. injection E as <-. right. eauto.
Qed.
Lemma take_digit_iff s v r : take_digit U s = Some (v, r) <-> exists c, s = c :: r /\ decimal_digit U c v.
Proof.
  split.
  - destruct s as [|c s]; [discriminate|]. cbn. destruct (udigit U c) as [n|] eqn:E; [|discriminate]. intros [= <- <-].
    exists c. split; [reflexivity|]. apply digit_iff. eauto.
  - intros (c & -> & D). apply digit_iff in D as (n & E & ->). cbn. now rewrite E.
Qed.
Lemma take_digits_iff n : forall acc s v r,
  take_digits U n acc s = Some (v, r) <-> exists l, s = (l ++ r)%list /\ length l = n /\ number U acc l v.
Proof.
  induction n as [|n IH]; intros acc s v r; cbn [take_digits].
  - split; [intros [= <- <-]; exists []; repeat split; constructor|]. intros (l & -> & L & N). destruct l; [|discriminate].
    inversion N; subst. reflexivity.
  - destruct (take_digit U s) as [[d r0]|] eqn:E.
    + apply take_digit_iff in E as (c & -> & D). rewrite IH. split.
      * intros (l & -> & L & N). exists (c :: l). repeat split; [cbn; now rewrite L|]. now apply nm_digit with d.
      * intros (l & E & L & N). destruct l as [|c' l]; [discriminate|]. cbn in E. injection E as <- ->. inversion N as [|? ? d' ? ? D' N']; subst.
        exists l. repeat split; [now injection L|]. apply digit_iff in D as (x & Ex & ->). apply digit_iff in D' as (y & Ey & ->). congruence.
    + split; [discriminate|]. intros (l & -> & L & N). destruct l as [|c l]; [discriminate|]. inversion N as [|? ? d ? ? D N']; subst.
      rewrite (proj2 (take_digit_iff _ d (l ++ r))) in E; [discriminate|]. exists c. split; [reflexivity|assumption].
Qed.
Lemma take_digits_fail n acc c s : (n <> 0)%nat -> udigit U c = None -> take_digits U n acc (c :: s) = None.
Proof. intros H E. destruct n; [congruence|]. cbn. now rewrite E. Qed.
Lemma take_char_iff x s r : take_char x s = Some r <-> s = x :: r.
Proof.
  destruct s as [|c s]; cbn; [split; discriminate|]. destruct (N.eqb_spec c x) as [->|N]; split; intros [=]; subst; try reflexivity; contradiction.
Qed.
Lemma digits_take k l n r : digits U k l n -> take_digits U k 0 (l ++ r) = Some (n, r).
Proof. intros [L N]. apply take_digits_iff. eauto. Qed.
Lemma digits_of_take k s n r : take_digits U k 0 s = Some (n, r) -> exists l, s = (l ++ r)%list /\ digits U k l n.
Proof. intros H. apply take_digits_iff in H as (l & -> & L & N). exists l. repeat split; assumption. Qed.
Lemma digits_head k l n c r : digits U k l n -> l = c :: r -> exists x, udigit U c = Some x.
Proof. intros [_ N] ->. inversion N as [|? ? d ? ? D _]; subst. apply digit_iff in D as (x & E & _). eauto. Qed.

(** *** Fractions *)
Definition go := fix go (s : pstr) (n : nat) (acc scale : Z) (got : bool) (l : pstr) : Z * pstr :=
           match n with
           | O => ((acc * scale)%Z, l)
           | S n' =>
               match take_digit U l with
               | Some (v, l') => go s n' (acc * 10 + v)%Z (scale / 10)%Z true l'
               | None => if got then ((acc * scale)%Z, l) else (0%Z, s)
               end
           end.
Lemma take_frac_go s : take_frac U s = match s with
  | c :: r => if (c =? 46) || (c =? 44) then go s 6 0 1000000 false r else (0%Z, s) | [] => (0%Z, s) end.
Proof. reflexivity. Qed.
(** At most [n] digits are taken, and as many as there are. *)
Lemma go_spec s0 n : forall acc got l us r, go s0 n acc (10 ^ Z.of_nat n) got l = (us, r) ->
  (got = false /\ (n <> 0)%nat /\ us = 0%Z /\ r = s0 /\ take_digit U l = None) \/
  (exists f x, l = (f ++ r)%list /\ (length f <= n)%nat /\ (got = false -> (n <> 0)%nat -> f <> []) /\ number U acc f x /\
     us = (x * 10 ^ Z.of_nat (n - length f))%Z).
Proof.
  induction n as [|n IH]; intros acc got l us r; cbn [go].
  - intros [= <- <-]. right. exists [], acc. repeat split; auto; try constructor.
  - assert (P : (10 ^ Z.of_nat (S n) / 10 = 10 ^ Z.of_nat n)%Z).
    { rewrite Nat2Z.inj_succ, Z.pow_succ_r, Z.mul_comm by lia. apply Z.div_mul. lia. }
    destruct (take_digit U l) as [[v l']|] eqn:E.
    + rewrite P. intros H. apply IH in H. apply take_digit_iff in E as (c & -> & D). right.
      destruct H as [[? _]|(f & x & -> & L & G & Nm & ->)]; [discriminate|].
      exists (c :: f), x. repeat split; [cbn; lia|discriminate|now apply nm_digit with v].
    + destruct got; intros [= <- <-].
      * right. exists [], acc. rewrite Nat.sub_0_r. repeat split; cbn; [lia|discriminate|constructor].
      * left. auto.
Qed.
Lemma go_take s0 n : forall acc got f x r, number U acc f x -> (length f <= n)%nat -> (got = true \/ f <> [] \/ n = 0%nat) ->
  (length f = n \/ take_digit U r = None) -> go s0 n acc (10 ^ Z.of_nat n) got (f ++ r) = ((x * 10 ^ Z.of_nat (n - length f))%Z, r).
Proof.
  induction n as [|n IH]; intros acc got f x r Nm L G E.
  - destruct f; [|cbn in L; lia]. inversion Nm; subst. reflexivity.
  - cbn [go]. assert (P : (10 ^ Z.of_nat (S n) / 10 = 10 ^ Z.of_nat n)%Z).
    { rewrite Nat2Z.inj_succ, Z.pow_succ_r, Z.mul_comm by lia. apply Z.div_mul. lia. }
    inversion Nm as [|? c v l' ? D Nm']; subst.
    + cbn [app length]. destruct E as [E|E]; [discriminate|]. rewrite E. destruct G as [->|[|]]; [|congruence|discriminate].
      now rewrite Nat.sub_0_r.
    + cbn [app]. rewrite (proj2 (take_digit_iff _ v (l' ++ r))) by eauto. rewrite P. rewrite IH with (x := x); auto.
      * cbn in L. lia.
      * destruct E as [E|E]; [left|right; assumption]. now injection E.
Qed.

(** *** The whole text *)
Definition not_digit (s : pstr) : Prop := take_digit U s = None.
Lemma seconds_sound s sec us r : take_seconds U s = (sec, us, r) ->
  exists l, s = (l ++ r)%list /\ iso_seconds U l sec us.
Proof.
  unfold take_seconds. destruct (obind _ _) as [[sc r0]|] eqn:E.
  2:{ intros [= <- <- <-]. exists []. split; [reflexivity|constructor]. }
  destruct (take_char 58 s) as [r1|] eqn:C; cbn [obind] in E; [|discriminate]. apply take_char_iff in C as ->.
  apply digits_of_take in E as (l & -> & D). destruct (take_frac U r0) as [us' r'] eqn:F. intros [= <- <- <-].
  rewrite take_frac_go in F. destruct r0 as [|c r0].
  - injection F as <- <-. exists (58 :: l). split; [reflexivity|now constructor].
  - destruct ((c =? 46) || (c =? 44)) eqn:P.
    2:{ injection F as <- <-. exists (58 :: l). split; [reflexivity|now constructor]. }
    change 1000000%Z with (10 ^ Z.of_nat 6)%Z in F. apply go_spec in F.
    destruct F as [(_ & _ & -> & -> & _)|(f & x & -> & L & G & Nm & ->)].
    + exists (58 :: l). split; [reflexivity|now constructor].
    + exists (58 :: l ++ c :: f). split; [cbn; now rewrite <- app_assoc|].
      apply is_frac; [assumption| | |].
      * apply orb_prop in P as [P|P]; apply N.eqb_eq in P; auto.
      * split; [|assumption]. destruct f; [destruct (G eq_refl ltac:(discriminate) eq_refl)|cbn; lia].
      * split; [reflexivity|assumption].
Qed.
Lemma zone_sound s z r : take_zone U s = (z, r) -> exists l, s = (l ++ r)%list /\ iso_zone U l z.
Proof.
  unfold take_zone. destruct s as [|c s]; [intros [= <- <-]; exists []; split; [reflexivity|constructor]|].
  destruct (N.eqb_spec c 90) as [->|_]; [intros [= <- <-]; exists [90]; split; [reflexivity|constructor]|].
  destruct ((c =? 43) || (c =? 45) || (c =? 8722)) eqn:Sg.
  2:{ intros [= <- <-]; exists []; split; [reflexivity|constructor]. }
  destruct (take_digits U 2 0 s) as [[h r0]|] eqn:D.
  2:{ intros [= <- <-]; exists []; split; [reflexivity|constructor]. }
  apply digits_of_take in D as (l & -> & D).
  assert (Hs : zone_sign c (if c =? 43 then 1%Z else (-1)%Z)).
  { unfold zone_sign. destruct (N.eqb_spec c 43) as [->|_]; [auto|]. cbn [orb] in Sg. right. split; [|reflexivity].
    apply orb_prop in Sg as [Sg|Sg]; apply N.eqb_eq in Sg; auto. }
  set (sg := (if c =? 43 then 1%Z else (-1)%Z)) in *. clearbody sg.
  set (r1 := match take_char 58 r0 with Some r' => r' | None => r0 end).
  assert (Hc : exists colon, r0 = (colon ++ r1)%list /\ (colon = [] \/ colon = [58])).
  { unfold r1. destruct (take_char 58 r0) as [x|] eqn:C; [apply take_char_iff in C as ->; exists [58]; auto|exists []; auto]. }
  clearbody r1. destruct Hc as (colon & -> & Hc).
  destruct (take_digits U 2 0 r1) as [[m r2]|] eqn:M.
  - apply digits_of_take in M as (l' & -> & M). intros [= <- <-]. exists (c :: l ++ colon ++ l')%list.
    split; [cbn; now rewrite <- !app_assoc|]. replace ((h * 60 + m) * sg * 60)%Z with (sg * (h * 3600 + m * 60))%Z by lia. now apply iz_minutes.
  - intros [= <- <-]. exists (c :: l ++ colon)%list.
    split; [cbn; now rewrite <- !app_assoc|]. replace ((h * 60 + 0) * sg * 60)%Z with (sg * (h * 3600))%Z by lia. now apply iz_hours.
Qed.

Context (U8722 : un_digit U 8722 = None).

Lemma zone_first l z e : iso_zone U l z -> e = [] \/ e = [10] ->
  match (l ++ e)%list with c :: _ => c = 90 \/ c = 43 \/ c = 45 \/ c = 8722 \/ c = 10 | [] => True end.
Proof.
  intros [| |c s ? ? ? Z|c s ? ? ? ? ? Z] [->| ->]; cbn; auto; destruct Z as [[-> _]|[[->| ->] _]]; auto.
Qed.
Lemma zone_rest l z e : iso_zone U l z -> e = [] \/ e = [10] ->
  take_digit U (l ++ e) = None /\ take_char 58 (l ++ e) = None /\ take_frac U (l ++ e) = (0%Z, (l ++ e)%list).
Proof.
  intros Z E. pose proof (zone_first l z e Z E) as H. destruct (l ++ e)%list as [|c r]; [auto|].
  unfold take_digit. repeat destruct H as [H|H]; subst c; try (repeat split; reflexivity).
  assert (D : udigit U 8722 = None) by (unfold udigit; cbn; now rewrite U8722). rewrite D. repeat split; reflexivity.
Qed.
Lemma zone_complete l z e : iso_zone U l z -> e = [] \/ e = [10] -> take_zone U (l ++ e) = (z, e).
Proof.
  assert (Ee : e = [] \/ e = [10] -> take_digits U 2 0 e = None /\ take_char 58 e = None) by (intros [->| ->]; auto).
  intros [| |c s l0 h colon Z D C|c s l0 h colon l' m Z D C M] E.
  - cbn. destruct E as [->| ->]; reflexivity.
  - cbn. reflexivity.
  - cbn [app take_zone]. rewrite <- app_assoc.
    assert (Hc : c =? 90 = false /\ (c =? 43) || (c =? 45) || (c =? 8722) = true /\ (if c =? 43 then 1%Z else (-1)%Z) = s).
    { destruct Z as [[-> ->]|[[->| ->] ->]]; auto. }
    destruct Hc as (-> & -> & ->). rewrite (digits_take 2 l0 h) by assumption. destruct (Ee E) as [E1 E2].
    destruct C as [->| ->]; cbn [app].
    + rewrite E2, E1. f_equal. f_equal. lia.
    + cbn [take_char]. rewrite ?N.eqb_refl, E1. f_equal. f_equal. lia.
  - cbn [app take_zone]. rewrite <- app_assoc.
    assert (Hc : c =? 90 = false /\ (c =? 43) || (c =? 45) || (c =? 8722) = true /\ (if c =? 43 then 1%Z else (-1)%Z) = s).
    { destruct Z as [[-> ->]|[[->| ->] ->]]; auto. }
    destruct Hc as (-> & -> & ->). rewrite (digits_take 2 l0 h) by assumption. rewrite <- app_assoc.
    destruct C as [->| ->]; cbn [app].
    + assert (T : take_char 58 (l' ++ e) = None).
      { destruct l' as [|a l']; [destruct M as [M _]; discriminate|]. cbn. destruct (N.eqb_spec a 58) as [->|]; [|reflexivity].
        destruct (digits_head _ _ _ _ _ M eq_refl) as [x Hx]. discriminate Hx. }
      rewrite T. rewrite (digits_take 2 l' m) by assumption. f_equal. f_equal. lia.
    + cbn [take_char]. rewrite ?N.eqb_refl. rewrite (digits_take 2 l' m) by assumption. f_equal. f_equal. lia.
Qed.
Lemma seconds_complete l sec us r : iso_seconds U l sec us -> take_digit U r = None -> take_char 58 r = None ->
  take_frac U r = (0%Z, r) -> take_seconds U (l ++ r) = (sec, us, r).
Proof.
  intros [|l0 s D|l0 s p k f n D P K F] R1 R2 R3; unfold take_seconds.
  - cbn [app]. rewrite R2. reflexivity.
  - cbn [app take_char]. rewrite ?N.eqb_refl. cbn [obind]. rewrite (digits_take 2 l0 s) by assumption. now rewrite R3.
  - cbn [app take_char]. rewrite ?N.eqb_refl. cbn [obind]. rewrite <- app_assoc. rewrite (digits_take 2 l0 s) by assumption.
    rewrite take_frac_go. cbn [app]. assert (Hp : (p =? 46) || (p =? 44) = true) by (destruct P as [->| ->]; reflexivity). rewrite Hp.
    change 1000000%Z with (10 ^ Z.of_nat 6)%Z. destruct F as [L Nm]. rewrite go_take with (x := n); auto.
    + now rewrite L.
    + lia.
    + right. left. destruct f; [cbn in L; lia|discriminate].
Qed.

Theorem iso_text_iff s d t z :
  dt_parse U s = Some (d, t, z) <-> iso_text U s d t z /\ valid_date d = true /\ valid_time t = true.
Proof.
  unfold dt_parse, iso_text. split.
  - destruct (take_digits U 4 0 s) as [[y r]|] eqn:E; cbn [obind]; [|discriminate]. apply digits_of_take in E as (ys & -> & Y).
    destruct (take_char 45 r) as [r1|] eqn:E; cbn [obind]; [|discriminate]. apply take_char_iff in E as ->.
    destruct (take_digits U 2 0 r1) as [[mo r2]|] eqn:E; cbn [obind]; [|discriminate]. apply digits_of_take in E as (ms & -> & M).
    destruct (take_char 45 r2) as [r3|] eqn:E; cbn [obind]; [|discriminate]. apply take_char_iff in E as ->.
    destruct (take_digits U 2 0 r3) as [[dd r4]|] eqn:E; cbn [obind]; [|discriminate]. apply digits_of_take in E as (ds & -> & D).
    destruct (match take_char 84 r4 with Some r' => Some r' | None => take_char 32 r4 end) as [r5|] eqn:E; cbn [obind]; [|discriminate].
    assert (S : exists sep, r4 = sep :: r5 /\ (sep = 84 \/ sep = 32)).
    { destruct (take_char 84 r4) as [x|] eqn:E'; [injection E as ->; apply take_char_iff in E' as ->; eauto|apply take_char_iff in E as ->; eauto]. }
    destruct S as (sep & -> & S). clear E.
    destruct (take_digits U 2 0 r5) as [[h r6]|] eqn:E; cbn [obind]; [|discriminate]. apply digits_of_take in E as (hs & -> & H).
    destruct (take_char 58 r6) as [r7|] eqn:E; cbn [obind]; [|discriminate]. apply take_char_iff in E as ->.
    destruct (take_digits U 2 0 r7) as [[mi r8]|] eqn:E; cbn [obind]; [|discriminate]. apply digits_of_take in E as (mins & -> & Mi).
    destruct (take_seconds U r8) as [[sec us] r9] eqn:E. apply seconds_sound in E as (secs & -> & Se).
    destruct (take_zone U r9) as [z' r10] eqn:E. apply zone_sound in E as (zs & -> & Zo).
    destruct (at_end r10 && valid_date (PyDate y mo dd) && valid_time (PyTime h mi sec us)) eqn:E; [|discriminate]. intros [= <- <- <-].
    apply andb_prop in E as [E Vt]. apply andb_prop in E as [E Vd]. split; [|auto].
    exists ys, ms, ds, sep, hs, mins, secs, zs, r10. cbn [d_year d_month d_day t_hour t_minute t_second t_micro].
    repeat split; auto; try apply Y; try apply M; try apply D; try apply H; try apply Mi.
    destruct r10 as [|c [|]]; [auto|right|discriminate]. cbn in E. apply N.eqb_eq in E as ->. reflexivity.
  - intros ((ys & ms & ds & sep & hs & mins & secs & zs & e & -> & Y & M & D & S & H & Mi & Se & Zo & E) & Vd & Vt).
    rewrite (digits_take 4 ys (d_year d)) by assumption. cbn [obind take_char]. rewrite ?N.eqb_refl. cbn [obind].
    rewrite (digits_take 2 ms (d_month d)) by assumption. cbn [obind take_char]. rewrite ?N.eqb_refl. cbn [obind].
    rewrite (digits_take 2 ds (d_day d)) by assumption. cbn [obind].
    assert (Hs : (match take_char 84 (sep :: hs ++ 58 :: mins ++ secs ++ zs ++ e) with Some r' => Some r' | None => take_char 32 (sep :: hs ++ 58 :: mins ++ secs ++ zs ++ e) end)%list = Some (hs ++ 58 :: mins ++ secs ++ zs ++ e)%list).
    { destruct S as [->| ->]; cbn [take_char]; reflexivity. }
    rewrite Hs. cbn [obind]. rewrite (digits_take 2 hs (t_hour t)) by assumption. cbn [obind take_char]. rewrite ?N.eqb_refl. cbn [obind].
    rewrite (digits_take 2 mins (t_minute t)) by assumption. cbn [obind].
    destruct (zone_rest zs z e Zo E) as (R1 & R2 & R3).
    rewrite (seconds_complete secs (t_second t) (t_micro t)) by assumption. rewrite (zone_complete zs z e) by assumption.
    assert (Ae : at_end e = true) by (destruct E as [->| ->]; reflexivity).
    destruct d as [y m x], t as [h mi sec us]. cbn [d_year d_month d_day t_hour t_minute t_second t_micro] in *. rewrite Ae, Vd, Vt. reflexivity.
Qed.
End U.
