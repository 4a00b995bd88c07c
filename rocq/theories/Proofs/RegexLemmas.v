(** What patterns match: languages. *)
From Verif.Model Require Import Py Regex.
From Verif.Spec Require Import NetSpec.
Local Open Scope N_scope.

Definition last_of (p : option N) (w : pstr) : option N := fold_left (fun _ c => Some c) w p.
Definition advance (s : rstate) (w : pstr) (s' : rstate) : Prop :=
  rs_rest s = (w ++ rs_rest s')%list /\ rs_prev s' = last_of (rs_prev s) w /\ rs_caps s' = rs_caps s.
Definition consumes (r : re) (L : pstr -> Prop) : Prop := forall s s', In s' (ends r s) <-> exists w, L w /\ advance s w s'.

Lemma advance_nil s s' : advance s [] s' <-> s = s'.
Proof.
  unfold advance. destruct s as [p l c], s' as [p' l' c']. cbn.
  split; [intros (H1 & H2 & H3); subst; reflexivity|intros [= <- <- <-]; auto].
Qed.
Lemma advance_app s a b s' : advance s (a ++ b) s' <-> exists m, advance s a m /\ advance m b s'.
Proof.
  unfold advance, last_of. destruct s as [p l c], s' as [p' l' c']. cbn. rewrite fold_left_app. split.
  - intros (H1 & H2 & H3). exists (RState (fold_left (fun _ c => Some c) a p) (b ++ l') c). cbn. rewrite H1, <- app_assoc. auto.
  - intros ([pm lm cm] & (H1 & H2 & H3) & (H4 & H5 & H6)). cbn in *. subst. rewrite <- app_assoc. auto.
Qed.
Lemma consumes_ext r (L M : pstr -> Prop) : (forall w, L w <-> M w) -> consumes r L -> consumes r M.
Proof. intros H C s s'. rewrite (C s s'). split; intros (w & Hw & A); exists w; split; auto; now apply H. Qed.
Lemma consumes_eps : consumes REps (fun w => w = []).
Proof.
  intros s s'. cbn. split.
  - intros [<-|[]]. exists []. split; [reflexivity|]. now apply advance_nil.
  - intros (w & -> & A). apply advance_nil in A. auto.
Qed.
Lemma consumes_chr f : consumes (RChr f) (fun w => exists c, w = [c] /\ f c = true).
Proof.
  intros [p l c] s'. cbn. destruct l as [|x l].
  - split; [intros []|]. intros (w & (y & -> & _) & H & _). discriminate H.
  - destruct (f x) eqn:E; cbn; split.
    + intros [<-|[]]. exists [x]. split; [eauto|]. unfold advance. auto.
    + intros (w & (y & -> & Hy) & H & H2 & H3). cbn in *. left. destruct s'; cbn in *. injection H as -> ->. now subst.
    + intros [].
    + intros (w & (y & -> & Hy) & H & _). injection H as -> _. congruence.
Qed.
Lemma consumes_seq a b L M : consumes a L -> consumes b M -> consumes (RSeq a b) (fun w => exists x y, L x /\ M y /\ w = (x ++ y)%list).
Proof.
  intros A B s s'. cbn. rewrite in_flat_map. split.
  - intros (m & H1 & H2). apply A in H1 as (x & Hx & X). apply B in H2 as (y & Hy & Y).
    exists (x ++ y)%list. split; [eauto|]. apply advance_app. eauto.
  - intros (w & (x & y & Hx & Hy & ->) & H). apply advance_app in H as (m & H1 & H2). exists m. split; [apply A|apply B]; eauto.
Qed.
Lemma consumes_alt a b L M : consumes a L -> consumes b M -> consumes (RAlt a b) (fun w => L w \/ M w).
Proof.
  intros A B s s'. cbn. rewrite in_app_iff, (A s s'), (B s s'). split.
  - intros [(w & H & K)|(w & H & K)]; eauto.
  - intros (w & [H|H] & K); eauto.
Qed.
Lemma exactly_ok a L n : consumes a L -> forall s s', In s' (exactly (ends a) n s) <->
  exists ws, length ws = n /\ Forall L ws /\ advance s (concat ws) s'.
Proof.
  intros A. induction n as [|n IH]; intros s s'; cbn.
  - split.
    + intros [<-|[]]. exists []. split; [cbn; lia|]. split; [constructor|]. now apply advance_nil.
    + intros (ws & Hl & _ & H). destruct ws; [|discriminate]. apply advance_nil in H. auto.
  - rewrite in_flat_map. split.
    + intros (m & H1 & H2). apply A in H1 as (x & Hx & X). apply IH in H2 as (ws & Hl & F & Y).
      exists (x :: ws). cbn. split; [congruence|]. split; [constructor; auto|]. apply advance_app. eauto.
    + intros (ws & Hl & F & H). destruct ws as [|x ws]; [discriminate|]. apply Forall_cons_iff in F as [Fx F]. cbn in H.
      apply advance_app in H as (m & H1 & H2). exists m. split; [apply A; eauto|]. apply IH. exists ws. cbn in Hl. auto.
Qed.
Lemma at_most_ok a L n : consumes a L -> forall s s', In s' (at_most (ends a) n s) <->
  exists ws, (length ws <= n)%nat /\ Forall L ws /\ advance s (concat ws) s'.
Proof.
  intros A. induction n as [|n IH]; intros s s'; cbn.
  - split.
    + intros [<-|[]]. exists []. split; [cbn; lia|]. split; [constructor|]. now apply advance_nil.
    + intros (ws & Hl & _ & H). destruct ws; [|cbn in Hl; lia]. apply advance_nil in H. auto.
  - rewrite in_app_iff, in_flat_map. split.
    + intros [(m & H1 & H2)|[<-|[]]].
      * apply A in H1 as (x & Hx & X). apply IH in H2 as (ws & Hl & F & Y).
        exists (x :: ws). cbn. split; [lia|]. split; [constructor; auto|]. apply advance_app. eauto.
      * exists []. split; [cbn; lia|]. split; [constructor|]. now apply advance_nil.
    + intros (ws & Hl & F & H). destruct ws as [|x ws].
      * right. left. now apply advance_nil in H.
      * left. apply Forall_cons_iff in F as [Fx F]. cbn in H.
        apply advance_app in H as (m & H1 & H2). exists m. split; [apply A; eauto|]. apply IH. exists ws. cbn in Hl. split; [lia|auto].
Qed.
Lemma consumes_rep a L lo hi : consumes a L -> (lo <= hi)%nat ->
  consumes (RRep a lo (Some hi)) (fun w => exists ws, (lo <= length ws <= hi)%nat /\ Forall L ws /\ w = concat ws).
Proof.
  intros A Hle s s'. cbn [ends]. rewrite in_flat_map. split.
  - intros (m & H1 & H2). apply (exactly_ok _ _ _ A) in H1 as (xs & Hx & FX & X). apply (at_most_ok _ _ _ A) in H2 as (ys & Hy & FY & Y).
    exists (concat (xs ++ ys)). split.
    + exists (xs ++ ys)%list. rewrite app_length. split; [lia|]. split; [now apply Forall_app|reflexivity].
    + rewrite concat_app. apply advance_app. eauto.
  - intros (w & (ws & Hl & F & ->) & H). rewrite <- (firstn_skipn lo ws) in H. rewrite concat_app in H.
    apply advance_app in H as (m & H1 & H2).
    assert (F' : Forall L (firstn lo ws) /\ Forall L (skipn lo ws)) by (apply Forall_app; now rewrite firstn_skipn).
    exists m. split.
    + apply (exactly_ok _ _ _ A). exists (firstn lo ws). rewrite firstn_length. split; [lia|]. tauto.
    + apply (at_most_ok _ _ _ A). exists (skipn lo ws). rewrite skipn_length. split; [lia|]. tauto.
Qed.
Lemma concat_length (L : pstr -> Prop) ws : (forall w, L w -> w <> []) -> Forall L ws -> (length ws <= length (concat ws))%nat.
Proof.
  intros NE. induction 1 as [|w ws H F IH]; cbn; [lia|]. rewrite app_length. pose proof (NE _ H). destruct w; [congruence|]. cbn. lia.
Qed.
Lemma consumes_star a L lo : consumes a L -> (forall w, L w -> w <> []) ->
  consumes (RRep a lo None) (fun w => exists ws, (lo <= length ws)%nat /\ Forall L ws /\ w = concat ws).
Proof.
  intros A NE s s'. cbn [ends]. rewrite in_flat_map. split.
  - intros (m & H1 & H2). apply (exactly_ok _ _ _ A) in H1 as (xs & Hx & FX & X). apply (at_most_ok _ _ _ A) in H2 as (ys & Hy & FY & Y).
    exists (concat (xs ++ ys)). split.
    + exists (xs ++ ys)%list. rewrite app_length. split; [lia|]. split; [now apply Forall_app|reflexivity].
    + rewrite concat_app. apply advance_app. eauto.
  - intros (w & (ws & Hl & F & ->) & H). rewrite <- (firstn_skipn lo ws) in H. rewrite concat_app in H.
    apply advance_app in H as (m & H1 & H2).
    assert (F' : Forall L (firstn lo ws) /\ Forall L (skipn lo ws)) by (apply Forall_app; now rewrite firstn_skipn).
    exists m. split.
    + apply (exactly_ok _ _ _ A). exists (firstn lo ws). rewrite firstn_length. split; [lia|]. tauto.
    + apply (at_most_ok _ _ _ A). exists (skipn lo ws). split; [|tauto].
      destruct H2 as (H2 & _). rewrite H2, app_length. pose proof (concat_length L (skipn lo ws) NE (proj2 F')). lia.
Qed.
(** Characters repeated. *)
Lemma singles f ws : Forall (fun w : pstr => exists c, w = [c] /\ f c = true) ws -> Forall (fun c => f c = true) (concat ws) /\ length (concat ws) = length ws.
Proof.
  induction 1 as [|w ws (c & -> & Hc) F [IH1 IH2]]; cbn; [auto|]. split; [constructor; auto|congruence].
Qed.
Lemma to_singles f (w : pstr) : Forall (fun c => f c = true) w ->
  exists ws, Forall (fun w : pstr => exists c, w = [c] /\ f c = true) ws /\ w = concat ws /\ length ws = length w.
Proof.
  induction 1 as [|c w Hc F (ws & F' & -> & Hl)]; [exists []; auto|]. exists ([c] :: ws). cbn. repeat split; [|congruence].
  constructor; eauto.
Qed.
Lemma consumes_chars f lo hi : (lo <= hi)%nat ->
  consumes (RRep (RChr f) lo (Some hi)) (fun w => (lo <= length w <= hi)%nat /\ Forall (fun c => f c = true) w).
Proof.
  intros Hle. eapply consumes_ext; [|apply consumes_rep; [apply consumes_chr|exact Hle]]. intros w. cbn. split.
  - intros (ws & Hl & F & ->). apply singles in F as [F El]. rewrite El. auto.
  - intros (Hl & F). apply to_singles in F as (ws & F & -> & El). exists ws. rewrite El. auto.
Qed.
Lemma consumes_chars_star f lo :
  consumes (RRep (RChr f) lo None) (fun w => (lo <= length w)%nat /\ Forall (fun c => f c = true) w).
Proof.
  eapply consumes_ext; [|apply consumes_star; [apply consumes_chr|]].
  - intros w. cbn. split.
    + intros (ws & Hl & F & ->). apply singles in F as [F El]. rewrite El. auto.
    + intros (Hl & F). apply to_singles in F as (ws & F & -> & El). exists ws. rewrite El. auto.
  - intros w (c & -> & _). discriminate.
Qed.
Lemma consumes_rc c : consumes (rc c) (fun w => w = [c]).
Proof.
  eapply consumes_ext; [|apply consumes_chr]. intros w. cbn. split.
  - intros (x & -> & H). apply N.eqb_eq in H. congruence.
  - intros ->. exists c. split; [reflexivity|]. apply N.eqb_refl.
Qed.
Lemma consumes_opt a L : consumes a L -> consumes (ropt a) (fun w => w = [] \/ L w).
Proof.
  intros A. eapply consumes_ext; [|apply (consumes_rep a L 0 1 A); lia]. intros w. cbn. split.
  - intros (ws & Hl & F & ->). destruct ws as [|x [|y ws]]; cbn in *; [auto| |lia]. inversion F; subst. rewrite app_nil_r. auto.
  - intros [->|H]; [exists []|exists [w]]; cbn; repeat split; auto; try lia. now rewrite app_nil_r.
Qed.
Lemma consumes_last a L : consumes a L -> consumes (RSeq a REps) L.
Proof.
  intros A. eapply consumes_ext; [|apply consumes_seq; [exact A|apply consumes_eps]]. intros w. cbn. split.
  - intros (x & y & Hx & -> & ->). now rewrite app_nil_r.
  - intros H. exists w, []. rewrite app_nil_r. auto.
Qed.
(** A character before. *)
Lemma consumes_cons c a L : consumes a L -> consumes (RSeq (rc c) a) (fun w => exists r, L r /\ w = c :: r).
Proof.
  intros A. eapply consumes_ext; [|apply consumes_seq; [apply consumes_rc|exact A]]. intros w. cbn. split.
  - intros (x & y & -> & Hy & ->). eauto.
  - intros (r & Hr & ->). exists [c], r. auto.
Qed.
(** Anchors. *)
Lemma at_eol_iff s : at_eol s = true <-> s = [] \/ s = [10].
Proof.
  destruct s as [|c [|? ?]]; cbn; [tauto| |].
  - rewrite N.eqb_eq. split; [intros ->; auto|intros [H|H]; congruence].
  - split; [discriminate|intros [H|H]; discriminate].
Qed.
Lemma test_iff r s : re_test r s = true <-> exists s', In s' (ends r (RState None s [])).
Proof.
  unfold re_test, re_match. destruct (ends r _) as [|x l]; split; try discriminate; try (intros [? []]; fail).
  - intros _. exists x. now left.
  - reflexivity.
Qed.
Lemma to_end a L s : consumes a L -> (exists s', In s' (ends (RSeq a (RSeq REol REps)) (RState None s []))) <-> line L s.
Proof.
  intros A. cbn [ends]. setoid_rewrite in_flat_map. unfold line. split.
  - intros (s' & m & H1 & H2). apply A in H1 as (w & Hw & H1 & _). cbn in H1.
    destruct (at_eol (rs_rest m)) eqn:E; [|destruct H2]. apply at_eol_iff in E. exists w. split; [exact Hw|].
    rewrite H1. destruct E as [->| ->]; [rewrite app_nil_r; auto|auto].
  - intros (w & Hw & H).
    assert (exists e, s = (w ++ e)%list /\ at_eol e = true) as (e & -> & He).
    { destruct H as [->| ->]; [exists []|exists [10]]; rewrite ?app_nil_r; auto. }
    exists (RState (last_of None w) e []), (RState (last_of None w) e []). split.
    + apply A. exists w. split; [exact Hw|]. unfold advance. cbn. auto.
    + cbn. rewrite He. cbn. auto.
Qed.
Lemma full_iff a L s : consumes a L -> re_test (rseq [RBol; a; REol]) s = true <-> line L s.
Proof.
  intros A. rewrite test_iff. rewrite <- (to_end a L s A). cbn. rewrite app_nil_r. reflexivity.
Qed.
Lemma prefix_iff a L s : consumes a L -> re_test (RSeq RBol a) s = true <-> exists w r, L w /\ s = (w ++ r)%list.
Proof.
  intros A. rewrite test_iff. cbn. rewrite app_nil_r. split.
  - intros (s' & H). apply A in H as (w & Hw & H & _). cbn in H. eauto.
  - intros (w & r & Hw & ->). exists (RState (last_of None w) r []). apply A. exists w. split; [exact Hw|]. unfold advance. cbn. auto.
Qed.
Lemma test_alt a b s : re_test (RAlt a b) s = true <-> re_test a s = true \/ re_test b s = true.
Proof.
  rewrite !test_iff. cbn. setoid_rewrite in_app_iff. firstorder.
Qed.
