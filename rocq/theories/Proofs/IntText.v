(** [int(text, base)] accepts exactly the literals of Spec/TextSpec.v. *)
From Verif.Model Require Import Py Num Text.
From Verif.Spec Require Import TextSpec.
From Verif.Proofs Require Import TextLemmas.
Local Open Scope N_scope.

Section U.
Context (U : unicode) (base : N).
Notation asc := (to_ascii U).

Lemma base_asc c v : base_digit base (asc c) = Some v <-> denotes U c v /\ v < base.
Proof.
  unfold base_digit. split.
  - destruct (digit_val (asc c)) as [w|] eqn:D; [|discriminate]. destruct (w <? base) eqn:L; [|discriminate].
    intros [= <-]. nb. now rewrite <- ascii_digit.
  - intros [D L]. apply ascii_digit in D. rewrite D. apply N.ltb_lt in L. now rewrite L.
Qed.
Lemma den_not_95 c v : denotes U c v -> asc c =? 95 = false.
Proof. intros D. apply N.eqb_neq. intros Q. apply ascii_digit in D. rewrite Q in D. discriminate. Qed.
Lemma den_not_ws c v : denotes U c v -> is_ws (asc c) = false.
Proof. intros D. apply ascii_digit in D. now apply digit_val_lt123 in D. Qed.
Lemma asc95 : asc 95 = 95.
Proof. now apply to_ascii_low. Qed.

(** ** Soundness of the scanner *)
Inductive tail_run : N -> bool -> list N -> N -> Prop :=
| tr_nil acc : tail_run acc false [] acc
| tr_digit acc us c v s n : denotes U c v -> v < base -> tail_run (acc * base + v) false s n -> tail_run acc us (c :: s) n
| tr_us acc s n : tail_run acc true s n -> tail_run acc false (95 :: s) n.

Lemma scan_sound s : forall acc us n rest, scan base (map asc s) acc us = Some (n, rest) ->
  exists body tl, s = (body ++ tl)%list /\ rest = map asc tl /\ tail_run acc us body n.
Proof.
  induction s as [|c s IH]; intros acc us n rest H; cbn in H.
  - destruct us; [discriminate|]. injection H as <- <-. exists [], []. repeat split. constructor.
  - destruct (asc c =? 95) eqn:A.
    + nb. apply ascii_same in A; [|lia..]. subst c. destruct us; [discriminate|].
      destruct (IH _ _ _ _ H) as (body & tl & -> & -> & T). exists (95 :: body)%list, tl. repeat split. now constructor.
    + destruct (base_digit base (asc c)) as [v|] eqn:D.
      * apply base_asc in D as [D L]. destruct (IH _ _ _ _ H) as (body & tl & -> & -> & T).
        exists (c :: body)%list, tl. repeat split. econstructor; eauto.
      * destruct us; [discriminate|]. injection H as <- <-. exists [], (c :: s)%list. repeat split. constructor.
Qed.
Lemma tail_run_run acc us body n : tail_run acc us body n ->
  forall s0, run U base s0 acc -> run U base (s0 ++ (if us then [95] else []) ++ body)%list n.
Proof.
  induction 1; intros s0 R.
  - cbn. now rewrite app_nil_r.
  - destruct us; cbn.
    + change (95 :: c :: s)%list with ([95; c] ++ s)%list. rewrite app_assoc. apply IHtail_run. now apply run_under.
    + change (c :: s) with ([c] ++ s)%list. rewrite app_assoc. apply IHtail_run. now apply run_more.
  - cbn in *. now apply IHtail_run.
Qed.

(** ** Completeness of the scanner *)
Lemma scan_complete s n : run U base s n -> forall r, scan base (map asc (s ++ r)) 0 false = scan base (map asc r) n false.
Proof.
  induction 1 as [c v D L|s n c v R IH D L|s n c v R IH D L]; intros r.
  - cbn. rewrite (den_not_95 _ _ D). rewrite (proj2 (base_asc c v)) by auto. now rewrite N.mul_0_l, N.add_0_l.
  - rewrite <- app_assoc, IH. cbn. rewrite (den_not_95 _ _ D). rewrite (proj2 (base_asc c v)) by auto. reflexivity.
  - rewrite <- app_assoc, IH. cbn. rewrite (den_not_95 _ _ D). rewrite (proj2 (base_asc c v)) by auto. reflexivity.
Qed.
Lemma run_head s n : run U base s n -> exists c v r, s = c :: r /\ denotes U c v /\ v < base /\
  (r = [] \/ exists c' r', r = c' :: r' /\ (c' = 95 \/ exists v', denotes U c' v' /\ v' < base)).
Proof.
  induction 1 as [c v D L|s n c v R IH D L|s n c v R IH D L].
  - exists c, v, []. auto.
  - destruct IH as (c0 & v0 & r & -> & D0 & L0 & Hr). exists c0, v0, (r ++ [c])%list. repeat split; auto. right.
    destruct Hr as [->|(c' & r' & -> & Hc)]; [exists c, []; split; [reflexivity|]; right; eauto|]. exists c', (r' ++ [c])%list. auto.
  - destruct IH as (c0 & v0 & r & -> & D0 & L0 & Hr). exists c0, v0, (r ++ [95; c])%list. repeat split; auto. right.
    destruct Hr as [->|(c' & r' & -> & Hc)]; [exists 95, [c]; split; [reflexivity|]; now left|]. exists c', (r' ++ [95; c])%list. auto.
Qed.

(** ** Blanks, sign, prefix *)
Lemma drop_sound s : exists b r, s = (b ++ r)%list /\ Forall (blank U) b /\ drop is_ws (map asc s) = map asc r.
Proof.
  induction s as [|c s (b & r & -> & Hb & Hd)].
  - exists [], []. repeat split. constructor.
  - cbn. destruct (is_ws (asc c)) eqn:W.
    + exists (c :: b)%list, r. repeat split; [|assumption]. constructor; [now apply ascii_blank|assumption].
    + exists [], (c :: b ++ r)%list. repeat split. constructor.
Qed.
Lemma drop_blanks b r : Forall (blank U) b -> drop is_ws (map asc (b ++ r)) = drop is_ws (map asc r).
Proof. induction 1 as [|c b Hc _ IH]; [reflexivity|]. cbn. apply ascii_blank in Hc. now rewrite Hc. Qed.
Lemma drop_all b : drop is_ws (map asc b) = [] <-> Forall (blank U) b.
Proof.
  induction b as [|c b IH]; [split; [constructor|reflexivity]|]. cbn. destruct (is_ws (asc c)) eqn:W.
  - rewrite IH. apply ascii_blank in W. split; [now constructor|]. intros H. now inversion H.
  - split; [discriminate|]. intros H. inversion H as [|? ? Hc]; subst. apply ascii_blank in Hc. congruence.
Qed.
Lemma sign_sound s neg l : take_sign (map asc s) = (neg, l) -> exists sg r, s = (sg ++ r)%list /\ sign sg neg /\ l = map asc r.
Proof.
  destruct s as [|c s]; cbn.
  - intros [= <- <-]. exists [], []. repeat split. constructor.
  - destruct (asc c =? 43) eqn:A; [|destruct (asc c =? 45) eqn:B]; intros [= <- <-]; nb.
    + apply ascii_same in A; [|lia..]. subst. exists [43], s. repeat split. constructor.
    + apply ascii_same in B; [|lia..]. subst. exists [45], s. repeat split. constructor.
    + exists [], (c :: s)%list. repeat split. constructor.
Qed.
Lemma prefix_sound s : exists px r, s = (px ++ r)%list /\ prefix U base px /\ take_prefix base (map asc s) = map asc r.
Proof.
  destruct s as [|c [|x s]]; [exists [], []|exists [], [c]|]; [repeat split; constructor..|].
  cbn. destruct ((base =? 16) && (asc c =? 48) && ((asc x =? 120) || (asc x =? 88))) eqn:K.
  - apply andb_prop in K as [K X]. apply andb_prop in K as [HB C]. apply N.eqb_eq in HB, C.
    assert (Hx : x = 120 \/ x = 88).
    { apply orb_prop in X as [X|X]; apply N.eqb_eq in X; apply ascii_same in X; auto; lia. }
    assert (Hc : denotes U c 0) by (apply ascii_digit; now rewrite C).
    clear X. destruct s as [|c' s].
    + exists [c; x], []. repeat split. now constructor.
    + cbn. destruct (asc c' =? 95) eqn:A.
      * nb. apply ascii_same in A; [|lia..]. subst c'. exists [c; x; 95], s. repeat split. now constructor.
      * exists [c; x], (c' :: s)%list. repeat split. now constructor.
  - exists [], (c :: x :: s)%list. repeat split. constructor.
Qed.

Lemma den_first c v : denotes U c v -> asc c =? 43 = false /\ asc c =? 45 = false.
Proof. intros D. apply ascii_digit in D. apply digit_val_lt123 in D as (_ & _ & A & B). split; now apply N.eqb_neq. Qed.
Lemma take_sign_run s n r : run U base s n -> take_sign (map asc (s ++ r)) = (false, map asc (s ++ r)).
Proof.
  intros R. apply run_head in R as (c & v & r' & -> & D & _). cbn. destruct (den_first _ _ D) as [A B]. now rewrite A, B.
Qed.
Lemma no_x c : (c = 95 \/ (exists v, denotes U c v /\ v < 16) \/ blank U c) -> (asc c =? 120) || (asc c =? 88) = false.
Proof.
  intros H. destruct ((asc c =? 120) || (asc c =? 88)) eqn:A; [exfalso|reflexivity].
  assert (Hc : c = 120 \/ c = 88).
  { apply orb_prop in A as [X|X]; apply N.eqb_eq in X; apply ascii_same in X; auto; lia. }
  destruct H as [H|[(v & D & L)|H]].
  - lia.
  - destruct Hc as [-> | ->]; inversion D; subst; lia.
  - destruct H as [H|[H|[H _]]]; lia.
Qed.
Lemma take_prefix_run s n b : run U base s n -> Forall (blank U) b ->
  take_prefix base (map asc (s ++ b)) = map asc (s ++ b).
Proof.
  intros R Hb. apply run_head in R as (c & v & r & -> & D & L & Hr). cbn.
  assert (K : forall x l, (r ++ b)%list = x :: l -> base = 16 -> (asc x =? 120) || (asc x =? 88) = false).
  { intros x l E HB. apply no_x. destruct Hr as [->|(c' & r' & -> & Hc)].
    - cbn in E. subst b. inversion Hb; subst; auto.
    - injection E as -> _. destruct Hc as [->|(v' & D' & L')]; [auto|]. right; left. exists v'. subst. auto. }
  destruct (map asc (r ++ b)) as [|x l] eqn:M; [reflexivity|].
  destruct (r ++ b)%list as [|x0 l0] eqn:E; [discriminate|]. injection M as <- <-.
  destruct (base =? 16) eqn:HB; [|reflexivity]. nb. rewrite (K _ _ eq_refl HB). now rewrite andb_false_r.
Qed.

Lemma scan_all_run s n b : run U base s n -> Forall (blank U) b -> scan_all base (map asc (s ++ b)) = Some n.
Proof.
  intros R Hb. unfold scan_all. pose proof (run_head _ _ R) as (c & v & r & -> & D & L & _). cbn [app map].
  rewrite (proj2 (base_asc c v)) by auto. change (asc c :: map asc (r ++ b)) with (map asc ((c :: r) ++ b)).
  rewrite (scan_complete _ _ R).
  destruct b as [|d b]; [reflexivity|]. cbn [map scan]. inversion Hb as [|? ? Hd Hb']; subst.
  pose proof (proj2 (ascii_blank U d) Hd) as W.
  destruct (asc d =? 95) eqn:A; [nb; rewrite A in W; discriminate|].
  destruct (base_digit base (asc d)) as [w|] eqn:B.
  - exfalso. apply base_digit_some in B as [B _]. apply digit_val_lt123 in B. destruct B as (_ & B & _). congruence.
  - change (asc d :: map asc b) with (map asc (d :: b)). rewrite (proj2 (drop_all (d :: b)) Hb). reflexivity.
Qed.

Lemma prefix_run px s n b : prefix U base px -> run U base s n -> Forall (blank U) b ->
  take_prefix base (map asc (px ++ s ++ b)) = map asc (s ++ b).
Proof.
  intros P R Hb. destruct P as [|o x HB D X|o x HB D X].
  - cbn. eapply take_prefix_run; eauto.
  - apply N.eqb_eq in HB. cbn. rewrite HB. assert (O : asc o = 48).
    { apply ascii_digit in D. revert D. unfold digit_val. bool_cases; nb; intros [= ?] || discriminate; lia. }
    assert (X' : (asc x =? 120) || (asc x =? 88) = true) by (destruct X as [-> | ->]; reflexivity).
    rewrite O, X'. cbn. pose proof (run_head _ _ R) as (c & v & r & -> & D' & _). cbn.
    now rewrite (den_not_95 _ _ D').
  - apply N.eqb_eq in HB. cbn. rewrite HB. assert (O : asc o = 48).
    { apply ascii_digit in D. revert D. unfold digit_val. bool_cases; nb; intros [= ?] || discriminate; lia. }
    assert (X' : (asc x =? 120) || (asc x =? 88) = true) by (destruct X as [-> | ->]; reflexivity).
    rewrite O, X'. reflexivity.
Qed.

Lemma first_of px s n b : prefix U base px -> run U base s n -> exists c v r, (px ++ s ++ b)%list = c :: r /\ denotes U c v.
Proof.
  intros P R. destruct P as [|o x HB D X|o x HB D X]; cbn; eauto.
  apply run_head in R as (c & v & r & -> & D & _). cbn. eauto.
Qed.
Theorem int_text_iff s z : int_text U base s = Some z <-> int_literal U base s z.
Proof.
  split.
  - unfold int_text. destruct (drop_sound s) as (b1 & r & -> & Hb1 & ->).
    destruct (take_sign (map asc r)) as [neg l] eqn:T. apply sign_sound in T as (sg & r' & -> & Hsg & ->).
    destruct (prefix_sound r') as (px & r'' & -> & Hpx & ->).
    destruct (scan_all base (map asc r'')) as [n|] eqn:S; [|discriminate]. intros [= <-].
    unfold scan_all in S. destruct r'' as [|c r'']; [discriminate|]. cbn [map] in S.
    destruct (base_digit base (asc c)) as [v|] eqn:D; [|discriminate].
    change (asc c :: map asc r'') with (map asc (c :: r'')) in S.
    destruct (scan base (map asc (c :: r'')) 0 false) as [[m rest]|] eqn:Q; [|discriminate].
    destruct (drop is_ws rest) eqn:W; [|discriminate]. injection S as ->.
    apply scan_sound in Q as (body & tl & E & -> & TR). apply drop_all in W.
    assert (R : run U base body n).
    { destruct body as [|c0 body].
      - exfalso. inversion TR; subst. cbn in E. subst tl. inversion W as [|? ? Hc]; subst. apply ascii_blank in Hc.
        apply base_digit_some in D as [D _]. apply digit_val_lt123 in D as (_ & D & _). congruence.
      - cbn in E. injection E as <- ->. inversion TR as [|acc us c' v' s' n' Dc Lc TR'|acc s' n' TR']; subst.
        + change (c :: body) with ([c] ++ (if false then [95] else []) ++ body)%list. eapply tail_run_run; [exact TR'|].
          rewrite N.mul_0_l, N.add_0_l. now constructor.
        + exfalso. discriminate D. }
    rewrite E. exists b1, sg, neg, px, body, n, tl. repeat split; auto.
  - intros (b1 & sg & neg & px & body & n & b2 & -> & Hb1 & Hsg & Hpx & R & Hb2 & ->).
    unfold int_text. rewrite drop_blanks by assumption.
    destruct (first_of px body n b2 Hpx R) as (c & v & r & Ef & D).
    assert (T : take_sign (drop is_ws (map asc (sg ++ px ++ body ++ b2))) = (neg, map asc (px ++ body ++ b2))).
    { destruct Hsg; cbn [app].
      - rewrite Ef. cbn. rewrite (den_not_ws _ _ D). cbn. destruct (den_first _ _ D) as [A B]. now rewrite A, B.
      - reflexivity.
      - reflexivity. }
    rewrite T. rewrite (prefix_run _ _ _ _ Hpx R Hb2). rewrite (scan_all_run _ _ _ R Hb2). reflexivity.
Qed.
End U.

(** Texts of hexadecimal digits. *)
Lemma hex_digits l : Forall hex_digit l -> all_digits 16 l.
Proof.
  intros H. eapply Forall_impl; [|exact H]. cbn. intros c Hc.
  assert (D : exists v, digit_val c = Some v /\ v < 16).
  { unfold digit_val, hex_digit in *. bool_cases; nb; try (eexists; split; [reflexivity|lia]); lia. }
  destruct D as (v & D & L). exists v. unfold base_digit. rewrite D. apply N.ltb_lt in L. now rewrite L.
Qed.
