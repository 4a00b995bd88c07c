(** [float(text)] and [Decimal(text)] accept exactly the texts of Spec/NumberSpec.v. *)
From Coq Require Import QArith Floats.SpecFloat.
From Verif.Model Require Import Py Num Text.
From Verif.Spec Require Import TextSpec FloatSpec NumberSpec.
From Verif.Proofs Require Import DictLemmas TextLemmas IntText NumText FloatDecimal.
Local Open Scope N_scope.

(** ** Underscores *)
Inductive us : list N -> list N -> Prop :=
| us_nil : us [] []
| us_cons c l l' : c <> 95 -> us l l' -> us (c :: l) (c :: l')
| us_under c d l l' : dig c -> dig d -> us (d :: l) (d :: l') -> us (c :: 95 :: d :: l) (c :: d :: l').

Lemma dig_not c : dig c -> c <> 95 /\ c <> 46 /\ c <> 43 /\ c <> 45 /\ c <> 101 /\ c <> 69.
Proof. rewrite dig_iff. lia. Qed.
Lemma us_95 l l' : us (95 :: l) l' -> False.
Proof. intros H. inversion H as [|? ? ? K|? ? ? ? K]; subst; [congruence|]. discriminate K. Qed.
Lemma strip_us_iff l : forall p l', p <> 95 -> (strip_us p l = Some l' <-> us (p :: l) (p :: l')).
Proof.
  assert (K : forall n l p l', (length l < n)%nat -> p <> 95 -> (strip_us p l = Some l' <-> us (p :: l) (p :: l'))).
  { induction n as [|n IH]; intros l0 p l' Hn Hp; [lia|]. destruct l0 as [|c r]; cbn [strip_us].
    - apply N.eqb_neq in Hp as Hb. rewrite Hb. split.
      + intros [= <-]. repeat constructor. assumption.
      + intros H. inversion H as [|? ? ? _ H'|]; subst. now inversion H'.
    - cbn [length] in Hn. destruct (c =? 95) eqn:C.
      + nb. subst c. destruct (is_digit p) eqn:P.
        * destruct r as [|d r]; cbn [strip_us].
          -- split; [discriminate|]. intros H. inversion H as [|? ? ? _ H'|]; subst. now apply us_95 in H'.
          -- destruct (d =? 95) eqn:D.
             ++ nb. subst d. cbn. split; [discriminate|]. intros H. inversion H as [|? ? ? _ H'|? ? ? ? _ D _]; subst; [now apply us_95 in H'|].
                apply dig_iff in D. lia.
             ++ nb. change (95 =? 95) with true. cbn [andb]. destruct (is_digit d) eqn:Dd; cbn [negb].
                ** cbn [length] in Hn. pose proof (IH r d) as IHr.
                   destruct (strip_us d r) as [r'|] eqn:S.
                   --- split.
                       +++ intros [= <-]. apply us_under; auto. apply IHr; auto. lia.
                       +++ intros H. inversion H as [|? ? ? _ H'|? ? ? l2 _ _ H']; subst; [now apply us_95 in H'|].
                           f_equal. f_equal. apply IHr in H'; [congruence|lia|assumption].
                   --- split; [discriminate|]. intros H. inversion H as [|? ? ? _ H'|? ? ? l2 _ _ H']; subst; [now apply us_95 in H'|].
                       apply IHr in H'; [congruence|lia|assumption].
                ** split; [discriminate|]. intros H. inversion H as [|? ? ? _ H'|? ? ? l2 _ D' H']; subst; [now apply us_95 in H'|].
                   unfold dig in D'. congruence.
        * split; [discriminate|]. intros H. inversion H as [|? ? ? _ H'|? ? ? l2 D' _ H']; subst; [now apply us_95 in H'|].
          unfold dig in D'. congruence.
      + nb. apply N.eqb_neq in Hp as Hb. rewrite Hb. cbn [andb]. pose proof (IH r c) as IHr.
        destruct (strip_us c r) as [r'|] eqn:S.
        * split.
          -- intros [= <-]. constructor; [assumption|]. apply IHr; auto. lia.
          -- intros H. inversion H as [|? ? ? _ H'|? ? ? l2 _ _ H']; subst; [|congruence]. 
             inversion H'; subst; (f_equal; f_equal; apply IHr in H'; [congruence|lia|assumption]).
        * split; [discriminate|]. intros H. inversion H as [|? ? ? _ H'|? ? ? l2 _ _ H']; subst; [|congruence].
          inversion H'; subst; (apply IHr in H'; [congruence|lia|assumption]). }
  intros p l' Hp. apply (K (S (length l))); auto.
Qed.
Lemma strip_us_start l l' : strip_us 0 l = Some l' <-> us l l'.
Proof.
  rewrite strip_us_iff by lia. split.
  - intros H. inversion H as [|? ? ? _ H'|? ? ? ? D]; subst; [assumption|]. discriminate D.
  - intros H. constructor; [lia|assumption].
Qed.
Lemma us_inv c l c' l' : us (c :: l) (c' :: l') ->
  c = c' /\ (us l l' \/ exists d l0 l0', l = 95 :: d :: l0 /\ l' = d :: l0' /\ dig c /\ dig d /\ us (d :: l0) (d :: l0')).
Proof. intros H. inversion H; subst; split; auto. right. eauto 10. Qed.
Lemma us_app a a' b b' : us a a' -> us b b' -> us (a ++ b) (a' ++ b').
Proof. intros H Hb. induction H; cbn [app] in *; [assumption|now constructor|now apply us_under]. Qed.
Lemma us_same l : ~ In 95 l -> us l l.
Proof. induction l as [|c l IH]; intros H; constructor; [intros ->; apply H; now left|]. apply IH. intros K. apply H. now right. Qed.
Lemma us_det l l' : us l l' -> ~ In 95 l -> l = l'.
Proof. induction 1 as [|c l l' H H0 IH|c d l l' H H0 H1 IH]; intros K; [reflexivity| |exfalso; apply K; cbn; auto]. f_equal. apply IH. intros Q. apply K. now right. Qed.
Lemma us_to_nil l : us l [] -> l = [].
Proof. intros H. now inversion H. Qed.
Lemma us_from_nil l : us [] l -> l = [].
Proof. intros H. now inversion H. Qed.
Lemma us_last a a' x : us a a' -> a' <> [] -> dig (last a' 0) -> dig x -> us (a ++ [95; x]) (a' ++ [x]).
Proof.
  intros H N L X. induction H as [|c l l' Hc H IH|c d l l' Hc Hd H IH]; [congruence| |].
  - destruct l' as [|y l'].
    + apply us_to_nil in H as ->. cbn in *. apply us_under; auto. constructor; [now apply dig_not in X|constructor].
    + change (last (c :: y :: l') 0) with (last (y :: l') 0) in L. cbn [app] in *. constructor; [assumption|]. apply IH; [discriminate|assumption].
  - change (last (c :: d :: l') 0) with (last (d :: l') 0) in L. cbn [app] in *. apply us_under; auto. apply IH; [discriminate|assumption].
Qed.

(** ** Numbers without underscores *)
Lemma span_split p l a b : span p l = (a, b) -> l = (a ++ b)%list /\ Forall (fun c => p c = true) a /\ match b with c :: _ => p c = false | [] => True end.
Proof.
  revert a b. induction l as [|c l IH]; intros a b; cbn.
  - intros [= <- <-]. auto.
  - destruct (p c) eqn:P.
    + destruct (span p l) as [a0 b0]. intros [= <- <-]. destruct (IH _ _ eq_refl) as (-> & F & T). split; [reflexivity|]. split; [now constructor|assumption].
    + intros [= <- <-]. auto.
Qed.
Lemma take_sign_split l neg r : take_sign l = (neg, r) -> exists sg, l = (sg ++ r)%list /\ sign sg neg.
Proof.
  destruct l as [|c l]; cbn; [intros [= <- <-]; exists []; split; [reflexivity|constructor]|].
  destruct (c =? 43) eqn:A; [|destruct (c =? 45) eqn:B]; intros [= <- <-]; nb; subst.
  - exists [43]. split; [reflexivity|constructor].
  - exists [45]. split; [reflexivity|constructor].
  - exists []. split; [reflexivity|constructor].
Qed.
Lemma take_sign_app sg neg r : sign sg neg -> match r with c :: _ => c <> 43 /\ c <> 45 | [] => True end -> take_sign (sg ++ r) = (neg, r).
Proof.
  intros [| |] H; cbn [app]; try reflexivity. destruct r as [|c r]; [reflexivity|]. destruct H as [A B]. cbn.
  apply N.eqb_neq in A, B. now rewrite A, B.
Qed.
Definition plain_exp (l : list N) (z : Z) : Prop :=
  l = [] /\ z = 0%Z \/
  exists e sg neg ds, l = (e :: sg ++ ds)%list /\ (e = 101 \/ e = 69) /\ sign sg neg /\ Forall dig ds /\ ds <> [] /\
    z = (if neg then - Z.of_N (digits_val ds) else Z.of_N (digits_val ds))%Z.
Lemma take_exp_iff l z : take_exp l = Some z <-> plain_exp l z.
Proof.
  split.
  - destruct l as [|c r]; cbn; [intros [= <-]; now left|]. destruct ((c =? 101) || (c =? 69)) eqn:C; [|discriminate].
    destruct (take_sign r) as [neg r1] eqn:T. destruct (span is_digit r1) as [ds r2] eqn:S. destruct ds as [|d ds]; [discriminate|].
    destruct r2; [|discriminate]. intros [= <-]. apply take_sign_split in T as (sg & -> & Hs). apply span_split in S as (E & F & _).
    right. exists c, sg, neg, (d :: ds). rewrite app_nil_r in E. subst r1. split; [reflexivity|]. split; [apply orb_prop in C as [C|C]; nb; auto|].
    split; [assumption|]. split; [exact F|]. split; [discriminate|reflexivity].
  - intros [[-> ->]|(e & sg & neg & ds & -> & He & Hs & F & N & ->)]; [reflexivity|]. cbn.
    assert (C : (e =? 101) || (e =? 69) = true) by (destruct He as [-> | ->]; reflexivity). rewrite C.
    rewrite (take_sign_app sg neg ds Hs). 2: { destruct ds as [|d ds]; [exact I|]. inversion F as [|? ? Hd]; subst. apply dig_not in Hd. tauto. }
    rewrite <- (app_nil_r ds) at 1. rewrite span_digits by auto. destruct ds; [congruence|]. reflexivity.
Qed.
Definition plain (l : list N) (neg : bool) (c : N) (e : Z) : Prop :=
  exists sg ip pt fp ex z, l = (sg ++ ip ++ pt ++ fp ++ ex)%list /\ sign sg neg /\ Forall dig ip /\ Forall dig fp /\
    (pt = [46] \/ pt = [] /\ fp = []) /\ (ip ++ fp)%list <> [] /\ plain_exp ex z /\ c = digits_val (ip ++ fp) /\ e = (z - Z.of_nat (length fp))%Z.
Lemma exp_head ex z : plain_exp ex z -> match ex with c :: _ => is_digit c = false /\ c <> 46 | [] => True end.
Proof.
  intros [[-> _]|(e & sg & neg & ds & -> & [-> | ->] & _)]; cbn; auto; split; try reflexivity; lia.
Qed.
Lemma dec_parse_iff l neg c e : dec_parse l = Some (neg, c, e) <-> plain l neg c e.
Proof.
  split.
  - unfold dec_parse. destruct (take_sign l) as [ng r1] eqn:T. destruct (span is_digit r1) as [ip r2] eqn:S1.
    apply take_sign_split in T as (sg & -> & Hs). apply span_split in S1 as (-> & F1 & H1).
    assert (K : forall fp r3, (match r2 with c0 :: r => if c0 =? 46 then span is_digit r else ([], r2) | [] => ([], r2) end) = (fp, r3) ->
      exists pt, r2 = (pt ++ fp ++ r3)%list /\ Forall dig fp /\ (pt = [46] \/ pt = [] /\ fp = [])).
    { intros fp r3 E. destruct r2 as [|d r2]; [injection E as <- <-; exists []; auto|]. destruct (d =? 46) eqn:D.
      - nb. subst d. apply span_split in E as (-> & F & _). exists [46]. auto.
      - injection E as <- <-. exists []. auto. }
    destruct (match r2 with c0 :: r => if c0 =? 46 then span is_digit r else ([], r2) | [] => ([], r2) end) as [fp r3].
    destruct (K _ _ eq_refl) as (pt & -> & F2 & P). clear K.
    destruct (ip ++ fp)%list as [|d ds] eqn:D; [discriminate|].
    destruct (take_exp r3) as [z|] eqn:X; [|discriminate]. apply take_exp_iff in X. intros [= <- <- <-].
    exists sg, ip, pt, fp, r3, z. rewrite D. repeat split; auto. discriminate.
  - intros (sg & ip & pt & fp & ex & z & -> & Hs & F1 & F2 & P & N & X & -> & ->).
    pose proof (exp_head _ _ X) as Hx. apply take_exp_iff in X.
    unfold dec_parse. rewrite (take_sign_app sg neg _ Hs).
    2: { destruct ip as [|c ip].
         - destruct P as [->|[-> ->]]; [cbn; lia|]. now exfalso.
         - inversion F1 as [|? ? Hc]; subst. cbn [app]. apply dig_not in Hc. tauto. }
    rewrite span_digits; [|assumption|].
    2: { destruct P as [->|[-> ->]]; cbn [app]; [reflexivity|]. destruct ex; [exact I|tauto]. }
    destruct P as [->|[-> ->]]; cbn [app].
    + change (46 =? 46) with true. cbn iota. rewrite span_digits; [|assumption|destruct ex; [exact I|tauto]].
      destruct (ip ++ fp)%list; [congruence|]. now rewrite X.
    + rewrite app_nil_r in *. destruct ex as [|d ex].
      * rewrite app_nil_r. destruct ip; [congruence|]. now rewrite X.
      * destruct Hx as [_ Hx]. apply N.eqb_neq in Hx. rewrite Hx. rewrite app_nil_r. destruct ip; [congruence|]. now rewrite X.
Qed.
Lemma digits_val_app a b : digits_val (a ++ b) = digits_val a * 10 ^ N.of_nat (length b) + digits_val b.
Proof.
  unfold digits_val. rewrite fold_left_app. generalize (fold_left (fun a c => a * 10 + (c - 48)) a 0). induction b as [|x b IH] using rev_ind; intros n.
  - cbn. rewrite N.pow_0_r. lia.
  - rewrite !fold_left_app. cbn [fold_left]. rewrite IH, app_length. cbn [length].
    rewrite Nat.add_1_r, Nat2N.inj_succ, N.pow_succ_r'. lia.
Qed.

(** ** Characters *)
Section H.
  Context (U : unicode) (h : N -> N).
  Context (Hx : forall c x, 32 < x < 127 -> x <> 63 -> ~ 48 <= x <= 57 -> (h c = x <-> c = x)).
  Context (Hd : forall c v, v < 10 -> (h c = 48 + v <-> denotes U c v)).

  Lemma hx43 c : h c = 43 -> c = 43. Proof using Hx. apply Hx; lia. Qed.
  Lemma hx45 c : h c = 45 -> c = 45. Proof using Hx. apply Hx; lia. Qed.
  Lemma hx46 c : h c = 46 -> c = 46. Proof using Hx. apply Hx; lia. Qed.
  Lemma hx95 c : h c = 95 -> c = 95. Proof using Hx. apply Hx; lia. Qed.
  Lemma h_dig c : dig (h c) -> exists v, denotes U c v /\ v < 10 /\ h c - 48 = v.
  Proof using Hd. rewrite dig_iff. intros K. exists (h c - 48). split; [apply Hd; lia|lia]. Qed.
  Lemma h_den c v : denotes U c v -> v < 10 -> h c = 48 + v /\ dig (h c).
  Proof using Hd. intros D L. apply Hd in D as E; [|assumption]. split; [assumption|]. apply dig_iff. lia. Qed.
  Lemma h95 : h 95 = 95.
  Proof using Hx. apply Hx; lia. Qed.
  Lemma no95 l : ~ In 95 l -> ~ In 95 (map h l).
  Proof using Hx. intros Nl K. apply in_map_iff in K as (c & E & Hi). apply hx95 in E. subst c. exact (Nl Hi). Qed.

  Lemma sign_map s neg : sign (map h s) neg <-> sign s neg.
  Proof using Hx.
    split.
    - destruct s as [|c [|d s]]; cbn; intros K; [inversion K; constructor| |inversion K].
      inversion K as [|E|E]; subst; symmetry in E; [apply hx43 in E|apply hx45 in E]; subst c; constructor.
    - assert (E43 : h 43 = 43) by (apply Hx; lia). assert (E45 : h 45 = 45) by (apply Hx; lia).
      intros [| |]; cbn; rewrite ?E43, ?E45; constructor.
  Qed.
  Lemma digits_snoc l c : digits_val (l ++ [c]) = digits_val l * 10 + (c - 48).
  Proof using Type. unfold digits_val. now rewrite fold_left_app. Qed.
  Lemma last_snoc (l : list N) x : last (l ++ [x]) 0 = x.
  Proof using Type. apply last_last. Qed.
  Lemma figures_app a b : figures (a ++ b) = (figures a + figures b)%nat.
  Proof using Type. unfold figures. now rewrite filter_app, app_length. Qed.
  Lemma figures_digit c v : denotes U c v -> v < 10 -> figures [c] = 1%nat.
  Proof using Hx Hd.
    intros D L. apply h_den in D as [_ D]; [|assumption]. unfold figures. cbn. destruct (c =? 95) eqn:C; [|reflexivity]. nb. subst c.
    rewrite h95 in D. apply dig_not in D. lia.
  Qed.

  (** Runs of digits. *)
  Lemma run_us s n : run U 10 s n -> exists ds, us (map h s) ds /\ Forall dig ds /\ ds <> [] /\ digits_val ds = n /\ length ds = figures s /\ dig (last ds 0).
  Proof using Hx Hd.
    induction 1 as [c v D L|s n c v R IH D L|s n c v R IH D L]; pose proof (figures_digit c v D L) as G; pose proof (h_den c v D L) as [E Q].
    - exists [h c]. split; [constructor; [now apply dig_not in Q|constructor]|]. split; [now repeat constructor|]. split; [discriminate|].
      split; [unfold digits_val; cbn; rewrite E; lia|]. split; [now rewrite G|exact Q].
    - destruct IH as (ds & A1 & A2 & A3 & A4 & A5 & A6). exists (ds ++ [h c])%list. rewrite map_app.
      split; [apply us_app; [assumption|constructor; [now apply dig_not in Q|constructor]]|].
      split; [apply Forall_app; auto|]. split; [now destruct ds|]. split; [rewrite digits_snoc, A4, E; f_equal; lia|].
      split; [rewrite app_length, figures_app, A5, G; reflexivity|now rewrite last_snoc].
    - destruct IH as (ds & A1 & A2 & A3 & A4 & A5 & A6). exists (ds ++ [h c])%list. rewrite map_app. cbn [map]. rewrite h95.
      split; [now apply us_last|]. split; [apply Forall_app; auto|]. split; [now destruct ds|]. split; [rewrite digits_snoc, A4, E; f_equal; lia|].
      split; [|now rewrite last_snoc]. change [95; c] with ([95] ++ [c])%list. rewrite app_length, !figures_app, A5, G. cbn. lia.
  Qed.
  Definition off (r : list N) : Prop := match r with c :: _ => is_digit c = false | [] => True end.
  Lemma us_tail ds : forall c s r' acc, Forall dig ds -> off r' -> us (map h (c :: s)) (h c :: ds ++ r') -> dig (h c) ->
    exists body r, s = (body ++ r)%list /\ tail_run U 10 acc false body (fold_left (fun a c => a * 10 + (c - 48)) ds acc) /\
      figures body = length ds /\ us (map h r) r'.
  Proof using Hx Hd.
    induction ds as [|d ds IH]; intros c s r' acc F O H Dc; cbn [map app] in H.
    - apply us_inv in H as [_ [H'|(d0 & l0 & l1 & _ & -> & _ & D0 & _)]].
      + exists [], s. cbn. repeat split; [constructor|assumption].
      + exfalso. cbn in O. unfold dig in D0. congruence.
    - inversion F as [|? ? Fd Fs]; subst.
      apply us_inv in H as [_ [H'|(d0 & l0 & l1 & E1 & E0 & _ & D0 & H')]].
      + destruct s as [|c2 s]; [apply us_from_nil in H'; discriminate|].
        assert (E : h c2 = d) by (cbn [map] in H'; now apply us_inv in H' as [E _]). subst d.
        destruct (h_dig c2 Fd) as (v & D & L & V).
        destruct (IH c2 s r' (acc * 10 + v) Fs O H' Fd) as (body & r & -> & T & G & R).
        exists (c2 :: body)%list, r. split; [reflexivity|]. split; [|split; [|exact R]].
        * apply tr_digit with v; auto. cbn [fold_left]. rewrite V. exact T.
        * change (c2 :: body)%list with ([c2] ++ body)%list. rewrite figures_app, (figures_digit c2 v D L), G. reflexivity.
      + destruct s as [|c1 [|c2 s]]; [discriminate..|]. cbn [map] in E1. injection E1 as E95 E2 E3. apply hx95 in E95. subst c1. injection E0 as <- <-. subst d l0.
        change (h c2 :: map h s) with (map h (c2 :: s)) in H'. destruct (h_dig c2 Fd) as (v & D & L & V).
        destruct (IH c2 s r' (acc * 10 + v) Fs O H' Fd) as (body & r & -> & T & G & R).
        exists (95 :: c2 :: body)%list, r. split; [reflexivity|]. split; [|split; [|exact R]].
        * apply tr_us. apply tr_digit with v; auto. cbn [fold_left]. rewrite V. exact T.
        * change (95 :: c2 :: body)%list with ([95] ++ [c2] ++ body)%list. rewrite !figures_app, (figures_digit c2 v D L), G. reflexivity.
  Qed.
  Lemma us_digits ds s r' : us (map h s) (ds ++ r') -> Forall dig ds -> ds <> [] -> off r' ->
    exists body r, s = (body ++ r)%list /\ run U 10 body (digits_val ds) /\ figures body = length ds /\ us (map h r) r'.
  Proof using Hx Hd.
    intros H F N O. destruct ds as [|d ds]; [congruence|]. inversion F as [|? ? Fd Fs]; subst.
    destruct s as [|c s]; [apply us_from_nil in H; discriminate|].
    assert (E : h c = d) by (cbn [map app] in H; now apply us_inv in H as [E _]). subst d. destruct (h_dig c Fd) as (v & D & L & V).
    destruct (us_tail ds c s r' v Fs O H Fd) as (body & r & -> & T & G & R).
    exists (c :: body)%list, r. split; [reflexivity|]. split; [|split; [|exact R]].
    - change (c :: body)%list with ([c] ++ (if false then [95] else []) ++ body)%list.
      apply tail_run_run with v; [|now apply run_one]. unfold digits_val. cbn [fold_left]. rewrite V. exact T.
    - change (c :: body)%list with ([c] ++ body)%list. rewrite figures_app, (figures_digit c v D L), G. reflexivity.
  Qed.
  (** A character that is not a digit stays where it is. *)
  Lemma us_char x s r' : us (map h s) (x :: r') -> is_digit x = false -> exists c r, s = c :: r /\ h c = x /\ us (map h r) r'.
  Proof using Type.
    intros H X. destruct s as [|c s]; [apply us_from_nil in H; discriminate|]. cbn [map] in H.
    apply us_inv in H as [E [H'|(d0 & l0 & l1 & _ & _ & D0 & _)]]; [eauto|]. rewrite E in D0. unfold dig in D0. congruence.
  Qed.
  Lemma us_sign sg neg s r' : us (map h s) (sg ++ r') -> sign sg neg -> exists sg' r, s = (sg' ++ r)%list /\ sign sg' neg /\ us (map h r) r'.
  Proof using Hx.
    intros H S. destruct S; cbn [app] in H.
    - exists [], s. repeat split; [constructor|assumption].
    - apply us_char in H as (c & r & -> & E & R); [|reflexivity]. apply hx43 in E. subst c. exists [43], r. repeat split; [constructor|assumption].
    - apply us_char in H as (c & r & -> & E & R); [|reflexivity]. apply hx45 in E. subst c. exists [45], r. repeat split; [constructor|assumption].
  Qed.
  Lemma us_map_sign sg neg : sign sg neg -> us (map h sg) (map h sg) /\ sign (map h sg) neg.
  Proof using Hx.
    intros S. split; [|now apply sign_map]. apply us_same. apply no95. destruct S; cbn; lia.
  Qed.

  Lemma number_iff s neg c e : number U s neg c e <-> exists l, us (map h s) l /\ plain l neg c e.
  Proof using Hx Hd.
    split.
    - intros (sg & mt & k & ex & z & -> & Hs & Hm & He & ->). destruct (us_map_sign sg neg Hs) as [S1 S2].
      assert (M : exists ip pt fp, us (map h mt) (ip ++ pt ++ fp) /\ Forall dig ip /\ Forall dig fp /\ (pt = [46] \/ pt = [] /\ fp = []) /\
                  (ip ++ fp)%list <> [] /\ c = digits_val (ip ++ fp) /\ k = length fp).
      { assert (E46 : h 46 = 46) by (apply Hx; lia).
        assert (P46 : us [46] [46]) by (constructor; [lia|constructor]).
        destruct Hm as [s n R|s n R|s n R|s n s' n' R R'].
        - destruct (run_us s n R) as (ds & A1 & A2 & A3 & A4 & A5 & A6). exists ds, [], []. cbn [app]. rewrite !app_nil_r. auto 10.
        - destruct (run_us s n R) as (ds & A1 & A2 & A3 & A4 & A5 & A6). exists ds, [46], []. rewrite map_app. cbn [map]. rewrite E46, !app_nil_r.
          repeat split; auto. now apply us_app.
        - destruct (run_us s n R) as (ds & A1 & A2 & A3 & A4 & A5 & A6). exists [], [46], ds. cbn [map app]. rewrite E46.
          repeat split; auto. constructor; [lia|assumption].
        - destruct (run_us s n R) as (ds & A1 & A2 & A3 & A4 & A5 & A6). destruct (run_us s' n' R') as (ds' & B1 & B2 & B3 & B4 & B5 & B6).
          exists ds, [46], ds'. rewrite map_app. cbn [map]. rewrite E46. repeat split; auto.
          + apply us_app; [assumption|]. cbn [app]. constructor; [lia|assumption].
          + destruct ds; [congruence|discriminate].
          + rewrite digits_val_app, A4, B4, B5. reflexivity. }
      assert (X : exists ex', us (map h ex) ex' /\ plain_exp ex' z).
      { destruct He as [|x sg' ng s n Hx' Hs' R].
        - exists []. split; [constructor|now left].
        - destruct (run_us s n R) as (ds & A1 & A2 & A3 & A4 & A5 & A6). destruct (us_map_sign sg' ng Hs') as [T1 T2].
          assert (Ex : h x = x) by (apply Hx; destruct Hx' as [-> | ->]; lia).
          exists (x :: map h sg' ++ ds)%list. cbn [map]. rewrite map_app, Ex. split.
          + constructor; [destruct Hx' as [-> | ->]; lia|]. now apply us_app.
          + right. exists x, (map h sg'), ng, ds. rewrite A4. auto 10. }
      destruct M as (ip & pt & fp & M1 & M2 & M3 & M4 & M5 & -> & ->). destruct X as (ex' & X1 & X2).
      exists (map h sg ++ ip ++ pt ++ fp ++ ex')%list. split.
      + rewrite !map_app. replace (ip ++ pt ++ fp ++ ex')%list with ((ip ++ pt ++ fp) ++ ex')%list by now rewrite <- !app_assoc.
        apply us_app; [assumption|]. now apply us_app.
      + exists (map h sg), ip, pt, fp, ex', z. auto 12.
    - intros (l & H & (sg & ip & pt & fp & ex & z & -> & Hs & F1 & F2 & P & N & X & -> & ->)).
      apply (us_sign sg neg) in H as (sg' & r & -> & Hs' & H); [|assumption]. pose proof (exp_head _ _ X) as Ox.
      assert (Oe : off ex) by (destruct ex; [exact I|now destruct Ox]).
      assert (EX : forall r, us (map h r) ex -> exponent U r z).
      { clear - Hx Hd X. intros r H. destruct X as [[-> ->]|(x & sg & ng & ds & -> & Hx' & Hs & F & N & ->)].
        - apply us_to_nil in H. destruct r; [constructor|discriminate].
        - apply us_char in H as (c & r' & -> & E & R); [|destruct Hx' as [-> | ->]; reflexivity].
          apply (us_sign sg ng) in R as (sg' & r & -> & Hs' & R); [|assumption]. rewrite <- (app_nil_r ds) in R.
          apply us_digits in R as (body & r'' & -> & R1 & _ & R2); auto; [|exact I]. apply us_to_nil in R2. destruct r''; [|discriminate]. rewrite app_nil_r.
          assert (c = x) by (refine (proj1 (Hx c x _ _ _) E); destruct Hx' as [-> | ->]; lia). subst c. now constructor. }
      assert (PT : off (pt ++ fp ++ ex)).
      { destruct P as [->|[-> ->]]; [reflexivity|exact Oe]. }
      assert (M : exists mt rest, r = (mt ++ rest)%list /\ mantissa U mt (digits_val (ip ++ fp)) (length fp) /\ us (map h rest) ex).
      { destruct ip as [|i ip].
        - cbn [app] in *. destruct P as [->|[-> ->]]; [|now exfalso]. cbn [app] in H. apply us_char in H as (c & r' & -> & E & R); [|reflexivity].
          apply hx46 in E. subst c. apply us_digits in R as (body & r'' & -> & R1 & R3 & R2); auto.
          exists (46 :: body)%list, r''. split; [reflexivity|]. split; [|assumption]. rewrite <- R3. now constructor.
        - apply us_digits in H as (body & r' & -> & R1 & R3 & R2); auto; [|discriminate]. destruct P as [->|[-> ->]].
          + cbn [app] in R2. apply us_char in R2 as (c & r'' & -> & E & R2); [|reflexivity]. apply hx46 in E. subst c.
            destruct fp as [|f fp].
            * exists (body ++ [46])%list, r''. rewrite <- app_assoc. split; [reflexivity|]. split; [|exact R2]. rewrite app_nil_r. now constructor.
            * apply us_digits in R2 as (body' & r3 & -> & Q1 & Q3 & Q2); auto; [|discriminate].
              exists (body ++ 46 :: body')%list, r3. rewrite <- app_assoc. split; [reflexivity|]. split; [|exact Q2].
              rewrite digits_val_app, <- Q3. now constructor.
          + exists body, r'. split; [reflexivity|]. split; [|exact R2]. rewrite app_nil_r. now constructor. }
      destruct M as (mt & rest & -> & M & R). exists sg', mt, (length fp), rest, z. split; [reflexivity|]. split; [assumption|]. split; [assumption|]. split; [now apply EX|reflexivity].
  Qed.
End H.

(** ** Blanks *)
Lemma drop_split p l : exists b, l = (b ++ drop p l)%list /\ Forall (fun c => p c = true) b.
Proof.
  induction l as [|c l (b & E & F)]; [exists []; auto|]. cbn. destruct (p c) eqn:P; [|exists []; auto].
  exists (c :: b)%list. split; [cbn; congruence|now constructor].
Qed.
Lemma strip_split p l : exists b1 b2, l = (b1 ++ strip p l ++ b2)%list /\ Forall (fun c => p c = true) b1 /\ Forall (fun c => p c = true) b2.
Proof.
  unfold strip. destruct (drop_split p l) as (b1 & E1 & F1). destruct (drop_split p (rev (drop p l))) as (b2 & E2 & F2).
  exists b1, (rev b2). split; [|split; [exact F1|now apply Forall_rev]]. rewrite E1 at 1. f_equal.
  rewrite <- rev_app_distr, <- E2. symmetry. apply rev_involutive.
Qed.
Lemma drop_app p b l : Forall (fun c => p c = true) b -> drop p (b ++ l) = drop p l.
Proof. induction 1 as [|c b H _ IH]; [reflexivity|]. cbn. now rewrite H. Qed.
Lemma strip_app p b1 m b2 : Forall (fun c => p c = true) b1 -> Forall (fun c => p c = false) m -> Forall (fun c => p c = true) b2 ->
  strip p (b1 ++ m ++ b2) = m.
Proof.
  intros H1 Hm H2. unfold strip. rewrite drop_app by assumption. destruct m as [|c m].
  - cbn [app]. rewrite <- (app_nil_r b2), drop_app by assumption. reflexivity.
  - inversion Hm as [|? ? Hc _]; subst. cbn [app drop]. rewrite Hc. change (c :: m ++ b2)%list with ((c :: m) ++ b2)%list.
    rewrite rev_app_distr, drop_app by now apply Forall_rev. rewrite drop_none by now apply Forall_rev. apply rev_involutive.
Qed.
Lemma drop_map p (h : N -> N) l : drop p (map h l) = map h (drop (fun c => p (h c)) l).
Proof. induction l as [|c l IH]; [reflexivity|]. cbn. destruct (p (h c)); [exact IH|reflexivity]. Qed.
Lemma strip_map p (h : N -> N) l : strip p (map h l) = map h (strip (fun c => p (h c)) l).
Proof. unfold strip. now rewrite drop_map, <- map_rev, drop_map, map_rev. Qed.

(** ** Characters of numbers *)
Lemma us_chars l l' x : us l l' -> In x l -> x = 95 \/ In x l'.
Proof.
  induction 1 as [|c l l' Hc H IH|c d l l' Hc Hd H IH]; intros K; [destruct K| |].
  - destruct K as [->|K]; [right; now left|]. destruct (IH K); [now left|right; now right].
  - destruct K as [->|[<-|K]]; [right; now left|now left|]. destruct (IH K); [now left|right; now right].
Qed.
Lemma us_nodig l l' : us l l' -> Forall (fun c => is_digit c = false) l' -> l = l'.
Proof.
  induction 1 as [|c l l' Hc H IH|c d l l' Hc Hd H IH]; intros F; [reflexivity| |].
  - inversion F; subst. f_equal. auto.
  - inversion F; subst. unfold dig in Hc. congruence.
Qed.
Definition num_char (x : N) : Prop := dig x \/ x = 43 \/ x = 45 \/ x = 46 \/ x = 101 \/ x = 69.
Lemma sign_chars sg neg : sign sg neg -> Forall num_char sg.
Proof. unfold num_char. intros [| |]; [constructor|constructor; [tauto|constructor]..]. Qed.
Lemma digits_chars l : Forall dig l -> Forall num_char l.
Proof. intros H. eapply Forall_impl; [|exact H]. unfold num_char. auto. Qed.
Lemma plain_chars l neg c e : plain l neg c e -> Forall num_char l.
Proof.
  intros (sg & ip & pt & fp & ex & z & -> & Hs & F1 & F2 & P & _ & X & _).
  repeat (apply Forall_app; split); eauto using sign_chars, digits_chars.
  - destruct P as [->|[-> _]]; [constructor; [unfold num_char; tauto|]|]; constructor.
  - destruct X as [[-> _]|(x & sg' & ng & ds & -> & Hx & Hs' & F & _)]; [constructor|]. constructor; [unfold num_char; tauto|].
    apply Forall_app. split; eauto using sign_chars, digits_chars.
Qed.

(** ** Words *)
Definition small (d : N) : Prop := 97 <= d <= 122.
Lemma word_in_iff ws l : word_in ws l = true <-> exists w, In w ws /\ u w = map lower l.
Proof.
  unfold word_in. rewrite existsb_exists. split; intros (w & Hi & E); exists w; (split; [assumption|]); destruct (pstr_eqb_spec (u w) (map lower l)); congruence.
Qed.
Lemma lower_iff x d : small d -> (lower x = d <-> x = d \/ x + 32 = d).
Proof.
  unfold small, lower. intros H. destruct ((65 <=? x) && (x <=? 90)) eqn:K.
  - apply andb_prop in K as [A B]. nb. lia.
  - apply andb_false_iff in K as [A|A]; nb; lia.
Qed.
Lemma word_parse sg neg c l : sign sg neg -> (65 <= c) -> dec_parse (sg ++ c :: l) = None.
Proof.
  intros Hs Hc. unfold dec_parse. rewrite (take_sign_app sg neg (c :: l) Hs) by lia. cbn [span].
  assert (D : is_digit c = false) by (unfold is_digit; apply andb_false_iff; right; apply N.leb_gt; lia). rewrite D.
  assert (P : c =? 46 = false) by (apply N.eqb_neq; lia). now rewrite P.
Qed.

Section W.
  Context (U : unicode) (h : N -> N).
  Context (Hx : forall c x, 32 < x < 127 -> x <> 63 -> ~ 48 <= x <= 57 -> (h c = x <-> c = x)).
  Context (Hd : forall c v, v < 10 -> (h c = 48 + v <-> denotes U c v)).

  Lemma spells_iff w s : Forall small (u w) -> (spells w s <-> u w = map lower (map h s)).
  Proof using Hx.
    unfold spells. generalize (u w) as l. intros l Hl. revert s. induction Hl as [|d l Dd _ IH]; intros s.
    - split; [intros H; inversion H; reflexivity|]. destruct s; [constructor|discriminate].
    - destruct s as [|c s]; [split; [intros H; inversion H|discriminate]|]. cbn [map].
      assert (K : (c = d \/ 97 <= d <= 122 /\ c + 32 = d) <-> lower (h c) = d).
      { rewrite lower_iff by assumption. unfold small in Dd. assert (A : h c = d <-> c = d) by (apply Hx; lia).
        assert (B : h c = d - 32 <-> c = d - 32) by (apply Hx; lia). lia. }
      split.
      + intros H. inversion H as [|? ? ? ? H1 H2]; subst. apply K in H1. apply IH in H2. congruence.
      + intros [= E1 E2]. constructor; [now apply K|now apply IH].
  Qed.
  Lemma word_chars w s : Forall small (u w) -> spells w s -> Forall (fun c => 65 <= h c <= 122) s.
  Proof using Hx.
    unfold spells. generalize (u w) as l. intros l Hl H. revert Hl. induction H as [|c d s l K _ IH]; intros Hl; [constructor|].
    inversion Hl as [|? ? Dd Hl']; subst. constructor; [|auto]. unfold small in Dd.
    assert (E : h c = c); [|lia]. apply Hx; lia.
  Qed.
  Lemma small_inf : Forall small (u "inf"). Proof using Type. repeat constructor; unfold small; cbn; lia. Qed.
  Lemma small_infinity : Forall small (u "infinity"). Proof using Type. repeat constructor; unfold small; cbn; lia. Qed.
  Lemma small_nan : Forall small (u "nan"). Proof using Type. repeat constructor; unfold small; cbn; lia. Qed.
  Lemma small_snan : Forall small (u "snan"). Proof using Type. repeat constructor; unfold small; cbn; lia. Qed.
  Lemma is_inf s : word_in ["inf"; "infinity"]%string (map h s) = true <-> spells "inf" s \/ spells "infinity" s.
  Proof using Hx.
    rewrite word_in_iff, (spells_iff "inf" s small_inf), (spells_iff "infinity" s small_infinity). split.
    - intros (w & [<-|[<-|[]]] & E); auto.
    - intros [E|E]; eexists; (split; [|exact E]); cbn; auto.
  Qed.
  Lemma is_nan s : word_in ["nan"]%string (map h s) = true <-> spells "nan" s.
  Proof using Hx.
    rewrite word_in_iff, (spells_iff "nan" s small_nan). split; [intros (w & [<-|[]] & E); auto|]. intros E. eexists. split; [|exact E]. cbn. auto.
  Qed.
  Lemma is_nans s : word_in ["nan"; "snan"]%string (map h s) = true <-> spells "nan" s \/ spells "snan" s.
  Proof using Hx.
    rewrite word_in_iff, (spells_iff "nan" s small_nan), (spells_iff "snan" s small_snan). split.
    - intros (w & [<-|[<-|[]]] & E); auto.
    - intros [E|E]; eexists; (split; [|exact E]); cbn; auto.
  Qed.
  Definition a_word (s : list N) : Prop := spells "inf" s \/ spells "infinity" s \/ spells "nan" s \/ spells "snan" s.
  Lemma a_word_chars s : a_word s -> Forall (fun c => 65 <= h c <= 122) s.
  Proof using Hx.
    intros [H|[H|[H|H]]]; [exact (word_chars _ _ small_inf H)|exact (word_chars _ _ small_infinity H)|exact (word_chars _ _ small_nan H)|exact (word_chars _ _ small_snan H)].
  Qed.
  Lemma a_word_head s : a_word s -> exists c r, s = c :: r.
  Proof using Type. intros [H|[H|[H|H]]]; inversion H; eauto. Qed.
  Lemma no_number sg neg s r : sign sg neg -> a_word s -> dec_parse (map h (sg ++ s ++ r)) = None.
  Proof using Hx.
    intros Hs Hw. pose proof (a_word_chars s Hw) as F. destruct (a_word_head s Hw) as (c & s' & ->). inversion F as [|? ? Fc _]; subst.
    rewrite map_app. apply (word_parse _ neg); [now apply (sign_map h Hx)|lia].
  Qed.
  Lemma not_both s : spells "nan" s -> word_in ["inf"; "infinity"]%string (map h s) = false.
  Proof using Hx.
    intros H. apply (spells_iff "nan" s small_nan) in H. destruct (word_in ["inf"; "infinity"]%string (map h s)) eqn:W; [|reflexivity].
    apply word_in_iff in W as (w & [<-|[<-|[]]] & E); rewrite <- H in E; discriminate.
  Qed.

  (** *** Floats *)
  Context (Hb : forall c, is_ws (h c) = true <-> blank U c).
  Lemma blanks b : Forall (blank U) b <-> Forall (fun c => is_ws (h c) = true) b.
  Proof using Hb. split; intros H; (eapply Forall_impl; [|exact H]); cbn; intros c; apply Hb. Qed.
  Lemma low_not_ws x : num_char x \/ 65 <= x <= 122 -> is_ws x = false.
  Proof using Type.
    intros H. assert (K : 32 < x) by (destruct H as [H|H]; [|lia]; unfold num_char in H; rewrite dig_iff in H; lia).
    unfold is_ws. apply orb_false_iff. split; [apply andb_false_iff; right; apply N.leb_gt; lia|apply N.eqb_neq; lia].
  Qed.
  Theorem float_ascii_iff s f : float_ascii (map h s) = Some f <-> float_reads U s f.
  Proof using Hx Hd Hb.
    unfold float_ascii. rewrite strip_map. split.
    - destruct (strip_split (fun c => is_ws (h c)) s) as (b1 & b2 & E & B1 & B2). set (body := strip (fun c => is_ws (h c)) s) in *.
      clearbody body. subst s. apply blanks in B1, B2. destruct (strip_us 0 (map h body)) as [l|] eqn:S; [|discriminate]. apply strip_us_start in S.
      destruct (dec_parse l) as [[[neg c] e]|] eqn:P.
      + intros [= <-]. apply dec_parse_iff in P. apply fl_number with neg c e; auto.
        * apply (number_iff U h Hx Hd). eauto.
        * apply float_of_dec_nearest.
      + destruct (take_sign l) as [neg w] eqn:T. apply take_sign_split in T as (sg & El & Hs). subst l.
        destruct (us_sign h Hx sg neg _ _ S Hs) as (sg' & r & Eb & Hs' & R). subst body.
        assert (K : forall ws, word_in ws w = true -> (forall x, In x ws -> Forall small (u x)) -> w = map h r).
        { intros ws W Sm. apply word_in_iff in W as (x & Hi & W). symmetry. apply us_nodig; [exact R|]. specialize (Sm x Hi). rewrite W in Sm.
          rewrite Forall_map in Sm. eapply Forall_impl; [|exact Sm]. cbn. intros y Hy. unfold small, lower in Hy.
          unfold is_digit. destruct ((48 <=? y) && (y <=? 57)) eqn:Q; [|reflexivity]. apply andb_prop in Q as [Q1 Q2]. nb.
          destruct ((65 <=? y) && (y <=? 90)) eqn:Z; [apply andb_prop in Z as [Z1 Z2]; nb; lia|lia]. }
        rewrite <- !app_assoc. destruct (word_in ["inf"; "infinity"]%string w) eqn:W1.
        * intros [= <-]. rewrite (K _ W1) in W1; [|intros x [<-|[<-|[]]]; [apply small_inf|apply small_infinity]]. apply is_inf in W1. now apply fl_infinity.
        * destruct (word_in ["nan"]%string w) eqn:W2; [|discriminate]. intros [= <-].
          rewrite (K _ W2) in W2; [|intros x [<-|[]]; apply small_nan]. apply is_nan in W2. now apply fl_nan with neg.
    - assert (A : forall sg neg s, sign sg neg -> a_word s -> strip_us 0 (map h (sg ++ s)) = Some (map h (sg ++ s)) /\
                    take_sign (map h (sg ++ s)) = (neg, map h s) /\ dec_parse (map h (sg ++ s)) = None /\
                    Forall (fun c => is_ws (h c) = false) (sg ++ s)).
      { intros sg neg w Hs Hw. pose proof (a_word_chars w Hw) as F. destruct (us_map_sign h Hx sg neg Hs) as [S1 S2].
        assert (Fs : forall c, In c w -> c <> 95).
        { intros c Hi ->. clear - Hi Hw. unfold a_word, spells in Hw.
          assert (Q : forall v, Forall small (u v) -> Forall2 (fun c d => c = d \/ 97 <= d <= 122 /\ c + 32 = d) w (u v) -> False).
          { clear Hw. intros v Hv F2. revert Hv Hi. induction F2 as [|c d w l K _ IH]; intros Hv Hi; [destruct Hi|].
            inversion Hv as [|? ? Dd Hv']; subst. unfold small in Dd. destruct Hi as [->|Hi]; [|auto]. lia. }
          pose proof small_inf. pose proof small_infinity. pose proof small_nan. pose proof small_snan.
          destruct Hw as [Hw|[Hw|[Hw|Hw]]]; eauto. }
        split; [|split; [|split]].
        - apply strip_us_start. rewrite map_app. apply us_app; [assumption|]. apply us_same. apply (no95 h Hx). intros Hi. now apply (Fs 95).
        - rewrite map_app. apply take_sign_app; [assumption|]. destruct w as [|c w]; [exact I|]. inversion F; subst. cbn [map]. lia.
        - rewrite <- (app_nil_r w). now apply (no_number _ neg).
        - apply Forall_app. split.
          + apply sign_chars in S2. rewrite Forall_map in S2. eapply Forall_impl; [|exact S2]. cbn. intros c Hc. apply low_not_ws. now left.
          + eapply Forall_impl; [|exact F]. cbn. intros c Hc. apply low_not_ws. now right. }
      intros H. destruct H as [b1 s b2 neg c e f B1 Nb B2 Nr|b1 sg neg s b2 B1 Hs W B2|b1 sg neg s b2 B1 Hs W B2]; apply blanks in B1, B2.
      + apply (number_iff U h Hx Hd) in Nb as (l & S & P). rewrite strip_app; auto.
        * apply strip_us_start in S. rewrite S. apply dec_parse_iff in P. rewrite P. f_equal. eapply nearest_unique; [apply float_of_dec_nearest|exact Nr].
        * apply plain_chars in P. rewrite Forall_forall in P |- *. intros x Hi.
          destruct (us_chars _ _ (h x) S) as [E|Hi']; [now apply in_map|rewrite E; reflexivity|]. apply low_not_ws. left. auto.
      + destruct (A sg neg s Hs) as (A1 & A2 & A3 & A4); [unfold a_word; tauto|].
        replace (b1 ++ sg ++ s ++ b2)%list with (b1 ++ (sg ++ s) ++ b2)%list by now rewrite <- app_assoc.
        rewrite strip_app by assumption. rewrite A1, A3, A2. apply is_inf in W. now rewrite W.
      + destruct (A sg neg s Hs) as (A1 & A2 & A3 & A4); [unfold a_word; tauto|].
        replace (b1 ++ sg ++ s ++ b2)%list with (b1 ++ (sg ++ s) ++ b2)%list by now rewrite <- app_assoc.
        rewrite strip_app by assumption. rewrite A1, A3, A2. rewrite (not_both s W). apply is_nan in W. now rewrite W.
  Qed.
End W.

(** [float(text)]. *)
Lemma asc_digit U c v : v < 10 -> (to_ascii U c = 48 + v <-> denotes U c v).
Proof.
  intros L. rewrite <- ascii_digit. generalize (to_ascii U c). intros x. unfold digit_val. bool_cases; nb; split; intros K;
    try discriminate K; try (injection K as K); try (apply f_equal); lia.
Qed.
Theorem float_text_iff U s f : float_text U s = Some f <-> float_reads U s f.
Proof.
  apply float_ascii_iff; [intros; now apply ascii_same|intros; now apply asc_digit|intros; apply ascii_blank].
Qed.

(** ** [Decimal(text)] *)
Lemma dec_char_same U c x : 32 < x < 127 -> x <> 63 -> ~ 48 <= x <= 57 -> (dec_char U c = x <-> c = x).
Proof.
  intros A B C. unfold dec_char. destruct ((0 <? c) && (c <=? 127)) eqn:K; [tauto|].
  assert (Hc : c = 0 \/ 127 < c) by (apply andb_false_iff in K as [K|K]; nb; lia). clear K.
  destruct (is_space U c); [lia|]. unfold udigit. destruct (c <? 128) eqn:L; nb.
  - assert (c = 0) by lia. subst c. cbn. lia.
  - destruct (un_digit U c) as [d|]; [|lia]. pose proof (N.mod_lt d 10 ltac:(lia)) as M. revert M. generalize (d mod 10). intros; lia.
Qed.
Lemma dec_char_digit U c v : v < 10 -> (dec_char U c = 48 + v <-> denotes U c v).
Proof.
  intros L. unfold dec_char. destruct ((0 <? c) && (c <=? 127)) eqn:K.
  - apply andb_prop in K as [K1 K2]. nb. split; [intros ->; now constructor|]. intros D. destruct D; lia.
  - assert (Hc : c = 0 \/ 127 < c) by (apply andb_false_iff in K as [K|K]; nb; lia). clear K.
    destruct (is_space U c) eqn:S.
    + split; [lia|]. intros D. unfold is_space in S. destruct D as [c v|c v|c v|c v d Q1 Q2]; try lia.
      assert (E : c <? 128 = false) by (apply N.ltb_ge; lia). rewrite E in S. congruence.
    + unfold udigit. destruct (c <? 128) eqn:Q; nb.
      * assert (c = 0) by lia. subst c. cbn. split; [lia|]. intros D. inversion D; subst; lia.
      * unfold is_space in S. assert (E : c <? 128 = false) by (apply N.ltb_ge; lia). rewrite E in S.
        destruct (un_digit U c) as [d|] eqn:D.
        -- split; [intros K'; apply dn_other with d; auto; lia|]. intros K'. destruct K' as [c v|c v|c v|c v d' _ _ Q4 ->]; try lia. congruence.
        -- split; [lia|]. intros K'. destruct K' as [c v|c v|c v|c v d' _ _ Q4 ->]; try lia. congruence.
Qed.
Lemma wide_iff U c : is_space U c = true <-> wide_blank U c.
Proof.
  unfold is_space, wide_blank, blank, is_ws. destruct (c <? 128) eqn:Q; nb.
  - rewrite !orb_true_iff, !andb_true_iff, !N.leb_le, N.eqb_eq. lia.
  - split; [intros H; left; right; right; split; [lia|exact H]|]. intros [[H|[H|[_ H]]]|H]; [lia|lia|exact H|lia].
Qed.
Lemma wide_blanks U b : Forall (wide_blank U) b <-> Forall (fun c => is_space U c = true) b.
Proof. split; intros H; (eapply Forall_impl; [|exact H]); cbn; intros c; apply wide_iff. Qed.
Lemma dec_char_space U c : is_space U c = true -> dec_char U c <= 32.
Proof.
  intros H. unfold dec_char. rewrite H. destruct ((0 <? c) && (c <=? 127)) eqn:K; [|lia]. apply andb_prop in K as [_ K]. nb.
  apply wide_iff in H. destruct H as [[H|[H|[H _]]]|H]; lia.
Qed.
Lemma without_95 s : ~ In 95 (without_underscores s).
Proof. unfold without_underscores. rewrite filter_In. intros [_ H]. discriminate. Qed.
Lemma not_wide U body : Forall (fun x => 32 < x) (map (dec_char U) (without_underscores body)) -> Forall (fun c => is_space U c = false) body.
Proof.
  rewrite Forall_map, !Forall_forall. intros H c Hi. destruct (N.eq_dec c 95) as [->|Nc]; [reflexivity|].
  assert (K : In c (without_underscores body)).
  { apply filter_In. split; [assumption|]. apply negb_true_iff. now apply N.eqb_neq. }
  destruct (is_space U c) eqn:S; [|reflexivity]. apply H in K. apply dec_char_space in S. lia.
Qed.
Lemma number_plain U t neg c e : ~ In 95 t -> (number U t neg c e <-> dec_parse (map (dec_char U) t) = Some (neg, c, e)).
Proof.
  intros Ht. pose proof (no95 (dec_char U) (dec_char_same U) t Ht) as Hm.
  rewrite (number_iff U (dec_char U) (dec_char_same U) (dec_char_digit U)), dec_parse_iff. split.
  - intros (l & S & P). apply us_det in S; [|assumption]. congruence.
  - intros P. eexists. split; [|exact P]. now apply us_same.
Qed.
Theorem decimal_text_finite U s coef e : decimal_text U s = Some (DFin coef e) <-> decimal_number U s coef e.
Proof.
  unfold decimal_text. split.
  - destruct (strip_split (is_space U) s) as (b1 & b2 & E & B1 & B2). set (body := strip (is_space U) s) in *. clearbody body.
    fold (without_underscores body).
    destruct (dec_parse (map (dec_char U) (without_underscores body))) as [[[neg c] x]|] eqn:P; [|destruct (dec_special _); discriminate].
    intros [= <- <-]. exists b1, body, b2, neg, c. rewrite !wide_blanks. apply number_plain in P; [|apply without_95]. auto.
  - intros (b1 & body & b2 & neg & c & -> & B1 & B2 & Nb & ->). apply wide_blanks in B1, B2.
    apply number_plain in Nb; [|apply without_95]. rewrite strip_app; auto.
    + fold (without_underscores body). now rewrite Nb.
    + apply not_wide. apply dec_parse_iff, plain_chars in Nb. eapply Forall_impl; [|exact Nb]. cbn. intros x Hc. unfold num_char in Hc. rewrite dig_iff in Hc. lia.
Qed.
Lemma span_app p a b : Forall (fun c => p c = true) a -> match b with c :: _ => p c = false | [] => True end -> span p (a ++ b) = (a, b).
Proof.
  intros F Hb. induction F as [|c a Hc _ IH]; cbn; [destruct b as [|c b]; [reflexivity|]; cbn; now rewrite Hb|]. now rewrite Hc, IH.
Qed.
Theorem decimal_text_special U s : decimal_text U s = Some DSpecial <-> decimal_special U s.
Proof.
  pose proof (dec_char_same U) as Hx. pose proof (dec_char_digit U) as Hd. unfold decimal_text. split.
  - destruct (strip_split (is_space U) s) as (b1 & b2 & E & B1 & B2). set (body := strip (is_space U) s) in *. clearbody body.
    fold (without_underscores body).
    destruct (dec_parse (map (dec_char U) (without_underscores body))) as [[[neg c] x]|] eqn:P; [discriminate|].
    destruct (dec_special (map (dec_char U) (without_underscores body))) eqn:D; [intros _|discriminate].
    unfold dec_special in D. destruct (take_sign (map (dec_char U) (without_underscores body))) as [neg r] eqn:T. cbn [snd] in D.
    apply take_sign_split in T as (sg & Es & Hs). destruct (span (fun c => negb (is_digit c)) r) as [a ds] eqn:Sp.
    apply span_split in Sp as (-> & _ & _). apply map_eq_app in Es as (sg' & r' & Eb & <- & Er).
    apply map_eq_app in Er as (w & d & -> & <- & <-). apply (proj1 (sign_map (dec_char U) Hx sg' neg)) in Hs.
    exists b1, body, b2, sg', neg, w, d. rewrite !wide_blanks. split; [exact E|]. split; [exact B1|]. split; [exact B2|]. split; [exact Eb|]. split; [exact Hs|].
    apply orb_prop in D as [D|D]; apply andb_prop in D as [W D].
    + left. apply (is_inf (dec_char U) Hx) in W. split; [assumption|]. destruct d; [reflexivity|discriminate].
    + right. apply (is_nans (dec_char U) Hx) in W. split; [assumption|]. rewrite forallb_forall in D. apply Forall_forall. intros c Hi.
      destruct (h_dig U (dec_char U) Hd c) as (v & V1 & V2 & _); [apply D; now apply in_map|]. eauto.
  - intros (b1 & body & b2 & sg & neg & w & ds & -> & B1 & B2 & E & Hs & K). apply wide_blanks in B1, B2.
    assert (W : a_word w) by (unfold a_word; tauto).
    pose proof (a_word_chars (dec_char U) Hx w W) as Fw.
    assert (Fd : Forall (fun c => dig (dec_char U c)) ds).
    { destruct K as [[_ ->]|[_ K]]; [constructor|]. eapply Forall_impl; [|exact K]. cbn. intros c (v & V1 & V2). now apply (h_den U (dec_char U) Hd c v). }
    assert (Fs : Forall (fun c => num_char (dec_char U c)) sg).
    { rewrite <- Forall_map with (P := num_char). eapply sign_chars. exact (proj2 (sign_map (dec_char U) Hx sg neg) Hs). }
    rewrite strip_app; auto.
    2: { apply not_wide. rewrite E, Forall_map. apply Forall_app. split; [|apply Forall_app; split].
         - eapply Forall_impl; [|exact Fs]. cbn. intros c Hc. unfold num_char in Hc. rewrite dig_iff in Hc. lia.
         - eapply Forall_impl; [|exact Fw]. cbn. lia.
         - eapply Forall_impl; [|exact Fd]. cbn. intros c Hc. apply dig_iff in Hc. lia. }
    fold (without_underscores body). rewrite E. rewrite (no_number (dec_char U) Hx sg neg w ds Hs W).
    assert (D : dec_special (map (dec_char U) (sg ++ w ++ ds)) = true); [|now rewrite D].
    unfold dec_special. rewrite map_app. rewrite (take_sign_app _ neg).
    2: exact (proj2 (sign_map (dec_char U) Hx sg neg) Hs).
    2: { destruct (a_word_head w W) as (c & w' & ->). cbn [map app]. inversion Fw; subst. lia. }
    cbn [snd]. rewrite map_app. rewrite span_app.
    + destruct K as [[K ->]|[K _]].
      * apply (is_inf (dec_char U) Hx) in K. rewrite K. reflexivity.
      * apply (is_nans (dec_char U) Hx) in K. rewrite K. apply orb_true_iff. right. cbn [andb]. apply forallb_forall. intros x Hi. apply in_map_iff in Hi as (c & <- & Hi).
        rewrite Forall_forall in Fd. now apply Fd.
    + rewrite Forall_map. eapply Forall_impl; [|exact Fw]. cbn. intros c Hc. apply negb_true_iff. unfold is_digit. apply andb_false_iff. right. apply N.leb_gt. lia.
    + destruct ds as [|c ds]; [exact I|]. cbn [map]. inversion Fd as [|? ? Fc _]; subst. apply negb_false_iff. exact Fc.
Qed.

(** Bytes are read as ASCII. *)
Theorem float_bytes_iff s f : float_ascii s = Some f <-> float_reads ascii_only s f.
Proof.
  rewrite <- (map_id s) at 1. apply float_ascii_iff; [tauto| |].
  - intros c v L. split; [intros ->; now constructor|]. intros D. destruct D as [c v|c v|c v|c v d _ _ K]; try lia. discriminate K.
  - intros c. unfold is_ws, blank. rewrite orb_true_iff, andb_true_iff, !N.leb_le, N.eqb_eq. split; [tauto|].
    intros [H|[H|[_ H]]]; [tauto|tauto|discriminate].
Qed.
