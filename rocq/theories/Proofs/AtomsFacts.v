(** Facts about iterating over atoms. *)
From Verif.Model Require Import Py Core Atoms.
From Verif.Spec Require Import AtomsSpec.
From Verif.Proofs Require Import DictLemmas.

Lemma pstr_eqb_true a b : pstr_eqb a b = true <-> a = b.
Proof. destruct (pstr_eqb_spec a b); split; congruence. Qed.

Section Facts.
  Context {W X : Type} (isx : X -> bool).
  Notation getter := (option (key -> W -> W * (pyval + X))).
  Notation pred := (option (atom -> W -> W * (bool + X))).

  Lemma has_key_iff keys x : has_key keys x = true <-> asked keys x.
  Proof.
    unfold has_key, asked. rewrite existsb_exists. split.
    - intros (y & Hi & E). apply pstr_eqb_true in E as <-. exact Hi.
    - intros H. exists (u x). split; [exact H|now apply pstr_eqb_true].
  Qed.
  Lemma keys_ok_iff keys : keys_ok keys = true <-> forall x, In x keys -> atom_key x.
  Proof.
    unfold keys_ok. rewrite forallb_forall. split.
    - intros H x Hi. specialize (H x Hi). rewrite existsb_exists in H. destruct H as (y & Hy & E). apply pstr_eqb_true in E as <-.
      destruct Hy as [<-|[<-|[<-|[]]]]; red; auto.
    - intros H x Hi. rewrite existsb_exists. exists x. split; [|now apply pstr_eqb_true].
      destruct (H x Hi) as [->|[->| ->]]; cbn; auto.
  Qed.

  Lemma has_key_not keys x : has_key keys x = false <-> ~ asked keys x.
  Proof. rewrite <- has_key_iff. destruct (has_key keys x); split; congruence. Qed.

  Lemma read_looked_up (g : getter) keys n (w w' : W) r :
    atom_read isx g keys n w = (w', r) -> looked_up isx g keys n w w' r.
  Proof.
    unfold atom_read. destruct g as [gi|]; [|intros [= <- <-]; now apply lu_none].
    destruct (has_key keys "value") eqn:H.
    - apply has_key_iff in H. destruct (gi n w) as [w1 [v|x]] eqn:G.
      + intros [= <- <-]. now apply (lu_value _ _ _ _ _ gi).
      + destruct (isx x) eqn:I; intros [= <- <-]; [now apply (lu_dropped _ _ _ _ _ gi w1 x)|now apply (lu_thrown _ _ _ _ _ gi)].
    - apply has_key_not in H. intros [= <- <-]. now apply lu_unasked.
  Qed.
  Lemma make_shown keys n f v : shown keys n f v (make_atom keys n f v).
  Proof.
    unfold shown, make_atom; cbn. repeat split; intros H;
      (apply has_key_iff in H || apply has_key_not in H); now rewrite H.
  Qed.

  Definition run g p keys fs := requests (resume (W:=W) (X:=X) isx g p keys fs).

  (** Once finished. *)
  Lemma end_stops g p keys fs moves w l g' w' :
    run g p keys fs moves GEnd w = (l, g', w') ->
    w' = fold_left (fun w mv => mv w) moves w /\ forall w0 o, In (w0, o) l -> o = Stop.
  Proof.
    unfold run. revert w l g' w'. induction moves as [|mv r IH]; intros w l g' w'; cbn.
    - intros [= <- <- <-]. split; [reflexivity|]. intros ? ? [].
    - destruct (requests _ r GEnd (mv w)) as [[l1 g1] w1] eqn:R. intros [= <- <- <-].
      destruct (IH _ _ _ _ R) as (H1 & H2). split; [exact H1|]. intros w0 o [[= _ <-]|Hi]; [reflexivity|eauto].
  Qed.
  Lemma loop_ends (g : getter) (p : pred) keys fs w g' w' o :
    atoms_loop isx g p keys fs w = (g', w', o) -> (forall a, o <> Yield a) -> g' = GEnd.
  Proof.
    revert w. induction fs as [|[n f] r IH]; intros w; cbn.
    - now intros [= <- <- <-].
    - destruct (atom_read isx g keys n w) as [w1 [v|x]]; [|now intros [= <- <- <-]].
      destruct p as [q|].
      + destruct (q _ w1) as [w2 [[|]|x]]; [intros [= <- <- <-] H; now destruct (H _ eq_refl)|apply IH|now intros [= <- <- <-]].
      + intros [= <- <- <-] H. now destruct (H _ eq_refl).
  Qed.
  Lemma resume_ends (g : getter) (p : pred) keys fs s w g' w' o :
    resume isx g p keys fs s w = (g', w', o) -> (forall a, o <> Yield a) -> g' = GEnd.
  Proof.
    destruct s; cbn.
    - destruct (keys_ok keys); [apply loop_ends|now intros [= <- <- <-]].
    - apply loop_ends.
    - now intros [= <- <- <-].
  Qed.
  Lemma ended_for_good g p keys fs moves s w l g' w' i w0 o j w1 o1 :
    run g p keys fs moves s w = (l, g', w') ->
    nth_error l i = Some (w0, o) -> (forall a, o <> Yield a) -> i < j -> nth_error l j = Some (w1, o1) -> o1 = Stop.
  Proof.
    unfold run. revert s w l g' w' i j. induction moves as [|mv r IH]; intros s w l g' w' i j; cbn.
    - intros [= <- <- <-]. now destruct i.
    - destruct (resume _ _ _ _ _ s (mv w)) as [[g1 w2] o2] eqn:S. destruct (requests _ r g1 w2) as [[l1 g2] w3] eqn:R.
      intros [= <- <- <-]. destruct j as [|j]; [lia|]. destruct i as [|i]; cbn.
      + intros [= <- <-] Ho _ Hj. apply (resume_ends _ _ _ _ _ _ _ _ _ S) in Ho as ->.
        apply end_stops in R as [_ R]. apply nth_error_In in Hj. eauto.
      + intros Hi Ho Hij Hj. apply (IH _ _ _ _ _ i j R Hi Ho); [lia|exact Hj].
  Qed.

  Lemma bad_keys g p keys fs mv moves w l g' w' :
    ~ (forall x, In x keys -> atom_key x) -> run g p keys fs (mv :: moves) GStart w = (l, g', w') ->
    w' = fold_left (fun w m => m w) (mv :: moves) w /\
    exists r, l = (mv w, Invalid) :: r /\ forall w0 o, In (w0, o) r -> o = Stop.
  Proof.
    intros H. unfold run. cbn. destruct (keys_ok keys) eqn:K; [exfalso; apply H; now apply (proj1 (keys_ok_iff keys))|].
    destruct (requests _ moves GEnd (mv w)) as [[l1 g2] w3] eqn:R. intros [= <- <- <-].
    apply end_stops in R as [H1 H2]. split; [exact H1|]. now exists l1.
  Qed.

  (** Without a filter. *)
  Lemma at_step (g : getter) keys fs n f r w g' w' o :
    resume isx g None keys fs (GAt ((n, f) :: r)) w = (g', w', o) ->
    exists res, looked_up isx g keys n w w' res /\
      match res with
      | inl v => g' = GAt r /\ exists a, o = Yield a /\ shown keys n f v a
      | inr x => g' = GEnd /\ o = Throw x
      end.
  Proof.
    cbn. destruct (atom_read isx g keys n w) as [w1 [v|x]] eqn:A; intros [= <- <- <-]; apply read_looked_up in A.
    - exists (inl v). split; [exact A|]. split; [reflexivity|]. eexists. split; [reflexivity|apply make_shown].
    - exists (inr x). split; [exact A|]. now split.
  Qed.
  Lemma start_at g p keys fs moves w : keys_ok keys = true ->
    fst (fst (run g p keys fs moves GStart w)) = fst (fst (run g p keys fs moves (GAt fs) w)).
  Proof. intros K. unfold run. destruct moves; cbn; [reflexivity|]. now rewrite K. Qed.

  Lemma unfiltered_at g keys fs0 fs moves w l g' w' i w0 o :
    run g None keys fs0 moves (GAt fs) w = (l, g', w') -> nth_error l i = Some (w0, o) ->
    (forall j, j < i -> exists w1 a, nth_error l j = Some (w1, Yield a)) ->
    match nth_error fs i with
    | Some (n, f) => exists w1 res, looked_up isx g keys n w0 w1 res /\
        match res with inl v => exists a, o = Yield a /\ shown keys n f v a | inr x => o = Throw x end
    | None => o = Stop
    end.
  Proof.
    unfold run. revert fs w l g' w' i. induction moves as [|mv r IH]; intros fs w l g' w' i; cbn [requests].
    - intros [= <- <- <-]. now destruct i.
    - destruct (resume _ _ _ _ _ (GAt fs) (mv w)) as [[g1 w2] o2] eqn:S. destruct (requests _ r g1 w2) as [[l1 g2] w3] eqn:R.
      intros [= <- <- <-] Hi Hj. destruct fs as [|[n f] fs].
      + cbn in S. injection S as <- <- <-. destruct i as [|i]; cbn in *; [now injection Hi as _ <-|].
        destruct (Hj 0) as (? & ? & E); [lia|discriminate E].
      + apply at_step in S as (res & L & Hres). destruct i as [|i]; cbn in *.
        * injection Hi as <- <-. exists w2, res. split; [exact L|]. destruct res; [apply Hres|apply Hres].
        * destruct res as [v|x].
          -- destruct Hres as [-> _]. apply (IH _ _ _ _ _ _ R Hi). intros j Hlt. apply (Hj (S j)). lia.
          -- destruct Hres as [_ ->]. destruct (Hj 0) as (? & ? & E); [lia|discriminate E].
  Qed.
  Lemma unfiltered g keys fs moves w l g' w' i w0 o :
    (forall x, In x keys -> atom_key x) ->
    run g None keys fs moves GStart w = (l, g', w') -> nth_error l i = Some (w0, o) ->
    (forall j, j < i -> exists w1 a, nth_error l j = Some (w1, Yield a)) ->
    match nth_error fs i with
    | Some (n, f) => exists w1 res, looked_up isx g keys n w0 w1 res /\
        match res with inl v => exists a, o = Yield a /\ shown keys n f v a | inr x => o = Throw x end
    | None => o = Stop
    end.
  Proof.
    intros K R. apply keys_ok_iff in K. pose proof (start_at g None keys fs moves w K) as E. rewrite R in E. cbn in E.
    destruct (run g None keys fs moves (GAt fs) w) as [[l2 g2] w2] eqn:R2. cbn in E. subst l2. intros; eapply unfiltered_at; eauto.
  Qed.

  (** With any filter. *)
  Lemma part_nil {A} (l : list A) : part_of [] l.
  Proof. induction l; now constructor. Qed.
  Lemma loop_part (g : getter) (p : pred) keys fs w g' w' o : has_key keys "name" = true ->
    atoms_loop isx g p keys fs w = (g', w', o) ->
    match o with
    | Yield a => exists pre n f r, fs = pre ++ (n, f) :: r /\ g' = GAt r /\ at_name a = Some n
    | _ => g' = GEnd
    end.
  Proof.
    intros K. revert w. induction fs as [|[n f] r IH]; intros w; cbn.
    - now intros [= <- <- <-].
    - destruct (atom_read isx g keys n w) as [w1 [v|x]]; [|now intros [= <- <- <-]].
      assert (Y : at_name (make_atom keys n f v) = Some n) by (cbn; now rewrite K).
      destruct p as [q|].
      + destruct (q _ w1) as [w2 [[|]|x]]; [| |now intros [= <- <- <-]].
        * intros [= <- <- <-]. now exists [], n, f, r.
        * intros H. apply IH in H. destruct o; auto. destruct H as (pre & n2 & f2 & r2 & -> & H). now exists ((n, f) :: pre), n2, f2, r2.
      + intros [= <- <- <-]. now exists [], n, f, r.
  Qed.
  Lemma part_app {A} (pre : list A) x l m : part_of l m -> part_of (x :: l) (pre ++ x :: m).
  Proof. intros H. induction pre; cbn; now constructor. Qed.
  Lemma received_stops (l : list (W * outcome X)) : (forall w0 o, In (w0, o) l -> o = Stop) -> received l = [].
  Proof.
    induction l as [|[w0 o] l IH]; [reflexivity|]. intros H. rewrite (H w0 o) by now left. cbn. apply IH. intros. eapply H. right. eassumption.
  Qed.
  Lemma names_at g p keys fs0 fs moves w l g' w' : has_key keys "name" = true ->
    run g p keys fs0 moves (GAt fs) w = (l, g', w') -> part_of (map at_name (received l)) (map (fun nf => Some (fst nf)) fs).
  Proof.
    intros K. unfold run. revert fs w l g' w'. induction moves as [|mv r IH]; intros fs w l g' w'; cbn [requests].
    - intros [= <- <- <-]. apply part_nil.
    - destruct (resume _ _ _ _ _ (GAt fs) (mv w)) as [[g1 w2] o2] eqn:S. destruct (requests _ r g1 w2) as [[l1 g2] w3] eqn:R.
      intros [= <- <- <-]. cbn [resume] in S. apply (loop_part _ _ _ _ _ _ _ _ K) in S.
      destruct o2 as [a| | |x]; [|subst g1; apply end_stops in R as [_ R]; cbn; rewrite (received_stops _ R); apply part_nil ..].
      destruct S as (pre & n & f & r2 & -> & -> & Ha). cbn. rewrite Ha, map_app. cbn. apply part_app. eauto.
  Qed.
  Lemma names g p keys fs moves w l g' w' :
    asked keys "name" -> run g p keys fs moves GStart w = (l, g', w') ->
    part_of (map at_name (received l)) (map (fun nf => Some (fst nf)) fs).
  Proof.
    intros A R. apply has_key_iff in A. destruct (keys_ok keys) eqn:K.
    - pose proof (start_at g p keys fs moves w K) as E. rewrite R in E. cbn in E.
      destruct (run g p keys fs moves (GAt fs) w) as [[l2 g2] w2] eqn:R2. cbn in E. subst l2. now apply names_at in R2.
    - unfold run in R. destruct moves as [|mv r]; cbn in R; [injection R as <- <- <-; apply part_nil|].
      rewrite K in R. destruct (requests _ r GEnd (mv w)) as [[l1 g2] w3] eqn:R1. injection R as <- <- <-.
      apply end_stops in R1 as [_ R1]. cbn. rewrite (received_stops _ R1). apply part_nil.
  Qed.

  (** A mapping that is not needed. *)
  Lemma read_unasked (g : getter) keys n w : ~ asked keys "value" -> atom_read isx g keys n w = (w, inl VUndef).
  Proof. intros H. apply has_key_not in H. unfold atom_read. destruct g; [now rewrite H|reflexivity]. Qed.
  Lemma loop_unread (g : getter) (p : pred) keys fs w : ~ asked keys "value" ->
    atoms_loop isx g p keys fs w = atoms_loop isx None p keys fs w.
  Proof.
    intros H. revert w. induction fs as [|[n f] r IH]; intros w; cbn; [reflexivity|].
    rewrite (read_unasked g keys n w H). cbn. destruct p as [q|]; [|reflexivity].
    destruct (q _ w) as [w2 [[|]|x]]; auto.
  Qed.
  Lemma unread g p keys fs moves s w : ~ asked keys "value" ->
    run g p keys fs moves s w = run None p keys fs moves s w.
  Proof.
    intros H. unfold run. revert s w. induction moves as [|mv r IH]; intros s w; cbn [requests]; [reflexivity|].
    assert (E : resume isx g p keys fs s (mv w) = resume isx None p keys fs s (mv w)).
    { destruct s; cbn; rewrite ?(loop_unread g _ _ _ _ H); reflexivity. }
    rewrite E. destruct (resume isx None p keys fs s (mv w)) as [[g1 w1] o]. now rewrite IH.
  Qed.

  (** A stable mapping and a filter that does not change anything but a log. *)
  Fixpoint pure_atoms (keys : list pstr) (val : key -> pyval) (fs : list (key * field)) : list atom :=
    match fs with [] => [] | (n, f) :: r => make_atom keys n f (val n) :: pure_atoms keys val r end.
  Lemma pure_shown keys val fs : Forall2 (fun nf a => shown keys (fst nf) (snd nf) (val (fst nf)) a) fs (pure_atoms keys val fs).
  Proof. induction fs as [|[n f] r IH]; cbn; constructor; [apply make_shown|exact IH]. Qed.

  Lemma looked_up_read (g : getter) keys n (w w' : W) r :
    looked_up isx g keys n w w' r -> atom_read isx g keys n w = (w', r).
  Proof.
    intros H. destruct H as [->|H|gi w' v -> H E|gi w' x -> H E I|gi w' x -> H E I]; unfold atom_read.
    - reflexivity.
    - now apply read_unasked.
    - apply has_key_iff in H. now rewrite H, E.
    - apply has_key_iff in H. now rewrite H, E, I.
    - apply has_key_iff in H. now rewrite H, E, I.
  Qed.
  Lemma shown_make keys n f v a : shown keys n f v a -> a = make_atom keys n f v.
  Proof.
    destruct a as [an af av]. unfold shown, make_atom; cbn. intros (H1 & H2 & H3 & H4 & <-).
    f_equal.
    - destruct (has_key keys "name") eqn:K; [apply has_key_iff in K|apply has_key_not in K]; auto.
    - destruct (has_key keys "field") eqn:K; [apply has_key_iff in K|apply has_key_not in K]; auto.
  Qed.
  Lemma filter_throws (gi : getter) q keys n f r mv w w1 v a w2 x :
    (forall y, In y keys -> atom_key y) ->
    looked_up isx gi keys n (mv w) w1 (inl v) -> shown keys n f v a -> q a w1 = (w2, inr x) ->
    run gi (Some q) keys ((n, f) :: r) [mv] GStart w = ([(mv w, Throw x)], GEnd, w2).
  Proof.
    intros K A ->%shown_make Q. apply looked_up_read in A. apply keys_ok_iff in K. unfold run. cbn [requests resume atoms_loop].
    rewrite K. cbn [atoms_loop]. rewrite A, Q. reflexivity.
  Qed.

  Section Pure.
    Context (gi : key -> W -> W * (pyval + X)) (val : key -> pyval) (keys : list pstr) (fs0 : list (key * field)).
    Context (q : atom -> W -> W * (bool + X)) (p : atom -> bool) (note : atom -> W -> W).
    Context (Hg : forall n w, gi n w = (w, inl (val n))) (Hq : forall a w, q a w = (note a w, inl (p a))).
    Context (Hv : asked keys "value").

    Lemma read_pure n w : atom_read isx (Some gi) keys n w = (w, inl (val n)).
    Proof using Hg Hv. apply has_key_iff in Hv. unfold atom_read. now rewrite Hv, Hg. Qed.
    Lemma loop_pure fs w :
      (exists pre n f r, fs = pre ++ (n, f) :: r /\ filter p (pure_atoms keys val pre) = [] /\
         p (make_atom keys n f (val n)) = true /\
         atoms_loop isx (Some gi) (Some q) keys fs w =
           (GAt r, fold_left (fun w a => note a w) (pure_atoms keys val (pre ++ [(n, f)])) w, Yield (make_atom keys n f (val n)))) \/
      (filter p (pure_atoms keys val fs) = [] /\
         atoms_loop isx (Some gi) (Some q) keys fs w = (GEnd, fold_left (fun w a => note a w) (pure_atoms keys val fs) w, Stop)).
    Proof using Hg Hq Hv.
      revert w. induction fs as [|[n f] r IH]; intros w; cbn [atoms_loop pure_atoms filter fold_left]; [right; now split|].
      rewrite read_pure, Hq. cbn zeta iota beta. destruct (p (make_atom keys n f (val n))) eqn:P.
      - left. now exists [], n, f, r.
      - destruct (IH (note (make_atom keys n f (val n)) w)) as [(pre & n2 & f2 & r2 & -> & H1 & H2 & H3)|[H1 H2]].
        + left. exists ((n, f) :: pre), n2, f2, r2. cbn. rewrite P. repeat split; auto.
        + right. now split.
    Qed.
    Lemma pure_app a b : pure_atoms keys val (a ++ b) = pure_atoms keys val a ++ pure_atoms keys val b.
    Proof using Type. induction a as [|[n f] a IH]; cbn; [reflexivity|now rewrite IH]. Qed.
    Lemma received_pure fs moves w l g' w' : length fs < length moves ->
      run (Some gi) (Some q) keys fs0 moves (GAt fs) w = (l, g', w') ->
      received l = filter p (pure_atoms keys val fs) /\
      ((forall mv, In mv moves -> forall w, mv w = w) -> w' = fold_left (fun w a => note a w) (pure_atoms keys val fs) w).
    Proof using Hg Hq Hv.
      unfold run. revert fs w l g' w'. induction moves as [|mv ms IH]; intros fs w l g' w' Hl; cbn [requests]; [cbn in Hl; lia|].
      cbn [resume]. destruct (loop_pure fs (mv w)) as [(pre & n & f & r & -> & H1 & H2 & ->)|[H1 ->]].
      - destruct (requests _ ms _ _) as [[l1 g2] w3] eqn:R. intros [= <- <- <-].
        apply IH in R as [R1 R2]; [|rewrite app_length in Hl; cbn in Hl; lia].
        split.
        + cbn. rewrite R1, pure_app, filter_app, H1. cbn. now rewrite H2.
        + intros Hm. rewrite R2 by (intros; apply Hm; now right). rewrite (Hm mv) by now left.
          change ((n, f) :: r) with ([(n, f)] ++ r). rewrite app_assoc, (pure_app (pre ++ [(n, f)])). now rewrite fold_left_app.
      - destruct (requests _ ms _ _) as [[l1 g2] w3] eqn:R. intros [= <- <- <-]. apply end_stops in R as [R1 R2].
        split; [cbn; rewrite (received_stops _ R2); now rewrite H1|].
        intros Hm. rewrite R1, (Hm mv) by now left.
        assert (G : forall ms w, (forall m, In m ms -> forall w : W, m w = w) -> fold_left (fun w m => m w) ms w = w).
        { clear. induction ms as [|m ms IH]; intros w H; cbn; [reflexivity|]. rewrite (H m) by now left. apply IH. intros. apply H. now right. }
        apply G. intros. apply Hm. now right.
    Qed.
    Lemma comprehension moves w l g' w' :
      (forall x, In x keys -> atom_key x) -> length fs0 < length moves ->
      run (Some gi) (Some q) keys fs0 moves GStart w = (l, g', w') ->
      exists all, Forall2 (fun nf a => shown keys (fst nf) (snd nf) (val (fst nf)) a) fs0 all /\ received l = filter p all /\
        ((forall mv, In mv moves -> forall w, mv w = w) -> w' = fold_left (fun w a => note a w) all w).
    Proof using Hg Hq Hv.
      intros K Hl R. apply keys_ok_iff in K. exists (pure_atoms keys val fs0). split; [apply pure_shown|].
      assert (E : run (Some gi) (Some q) keys fs0 moves GStart w = run (Some gi) (Some q) keys fs0 moves (GAt fs0) w).
      { unfold run. destruct moves; [cbn in Hl; lia|]. cbn. now rewrite K. }
      rewrite E in R. now apply received_pure in R.
    Qed.
  End Pure.
End Facts.

Lemma setters keys n f v a : shown keys n f v a ->
  (asked keys "field" -> (setter_filter a = true <-> exists s, fd_set f = Some s) /\ (no_setter_filter a = true <-> fd_set f = None)) /\
  (~ asked keys "field" -> setter_filter a = false /\ no_setter_filter a = true).
Proof.
  intros (_ & _ & H1 & H2 & _). unfold no_setter_filter, setter_filter. split.
  - intros A. rewrite (H1 A). unfold has_setter. destruct (fd_set f) as [s|]; cbn; split; split; eauto; try discriminate.
    intros [s E]; discriminate E.
  - intros A. now rewrite (H2 A).
Qed.
