(** Lists and dictionaries element by element. *)
From Verif.Model Require Import Py Core.
From Verif.Spec Require Import ImportSpec CompoundSpec.
From Verif.Proofs Require Import DictLemmas.

Section L.
  Context (fc : converter) (g : fspec) (x : ictx).

  Lemma list_loop_ok i l data errs data' errs' :
    list_loop fc g x i l data errs = Ok (data', errs') ->
    exists ws, data' = data ++ ws /\
      (forall y, In y (dkeys errs') <-> In y (dkeys errs) \/
         exists j e, rejected_at fc g x l j e /\ y = KInt (i + Z.of_nat j)) /\
      ((forall j e, ~ rejected_at fc g x l j e) -> all_convert fc g x l ws) /\
      (forall y nd, dget y errs' = Some nd -> dget y errs = Some nd \/
         exists j e, rejected_at fc g x l j e /\ y = KInt (i + Z.of_nat j) /\ nd = err_node e).
  Proof.
    revert i data errs; induction l as [|v l IH]; intros i data errs; cbn.
    - intros [= <- <-]. exists []. rewrite app_nil_r. split; [reflexivity|]. split; [|split; [constructor|auto]].
      intros y; split; [auto|]. intros [H|(j & e & (v & H & _) & _)]; [exact H|]. destruct j; discriminate.
    - destruct (fc g v x) as [w|e] eqn:Fv.
      + intros H. apply IH in H as (ws & -> & Hk & Ha & Hn). exists (w :: ws). rewrite <- app_assoc. split; [reflexivity|].
        split; [|split].
        * intros y. rewrite Hk. split; (intros [H|(j & e & (v' & Hv & Hr) & ->)]; [auto|right]).
          -- exists (S j), e. split; [exists v'; auto|f_equal; lia].
          -- destruct j as [|j]; cbn in Hv; [injection Hv as ->; destruct Hr; congruence|].
             exists j, e. split; [exists v'; auto|f_equal; lia].
        * intros Hno. constructor; [exact Fv|]. apply Ha. intros j e (v' & Hv & Hr).
          apply (Hno (S j) e). exists v'; auto.
        * intros y nd G. apply Hn in G as [G|(j & e & (v' & Hv & Hr) & -> & ->)]; [auto|].
          right. exists (S j), e. split; [exists v'; auto|]. split; [f_equal; lia|reflexivity].
      + unfold is_base_error. destruct (caught_by_loop e) eqn:C; [|discriminate].
        intros H. apply IH in H as (ws & -> & Hk & Ha & Hn). exists ws. split; [reflexivity|].
        split; [|split].
        * intros y. rewrite Hk, dkeys_dset_in. split.
          -- intros [[->|H]|(j & e' & (v' & Hv & Hr) & ->)]; [right|auto|right].
             ++ exists 0%nat, e. split; [exists v; auto|f_equal; lia].
             ++ exists (S j), e'. split; [exists v'; auto|f_equal; lia].
          -- intros [H|(j & e' & (v' & Hv & Hr) & ->)]; [auto|].
             destruct j as [|j]; cbn in Hv.
             ++ left; left. f_equal; lia.
             ++ right. exists j, e'. split; [exists v'; auto|f_equal; lia].
        * intros Hno. exfalso. apply (Hno 0%nat e). exists v; auto.
        * intros y nd G. apply Hn in G as [G|(j & e' & (v' & Hv & Hr) & -> & ->)].
          -- rewrite dget_dset in G. destruct (key_eqb_spec y (KInt i)) as [->|_]; [|auto].
             injection G as <-. right. exists 0%nat, e. split; [exists v; auto|]. split; [f_equal; lia|reflexivity].
          -- right. exists (S j), e'. split; [exists v'; auto|]. split; [f_equal; lia|reflexivity].
  Qed.

  Lemma list_loop_raise i l data errs e : list_loop fc g x i l data errs = Raise e ->
    exists v, In v l /\ fc g v x = Raise e /\ caught_by_loop e = false.
  Proof.
    revert i data errs; induction l as [|v l IH]; intros i data errs; cbn; [discriminate|].
    destruct (fc g v x) as [w|e'] eqn:Fv.
    - intros H. apply IH in H as (v' & H1 & H2). eauto.
    - unfold is_base_error. destruct (caught_by_loop e') eqn:C.
      + intros H. apply IH in H as (v' & H1 & H2). eauto.
      + intros [= <-]. eauto.
  Qed.

  Lemma list_loop_all i l ws data : all_convert fc g x l ws -> list_loop fc g x i l data [] = Ok (data ++ ws, []).
  Proof.
    intros H; revert i data; induction H as [|v w l ws Hv H IH]; intros i data; cbn; [now rewrite app_nil_r|].
    rewrite Hv, IH, <- app_assoc. reflexivity.
  Qed.

  Lemma all_no_reject l ws j e : all_convert fc g x l ws -> ~ rejected_at fc g x l j e.
  Proof.
    intros H; revert j; induction H as [|v w l ws Hv H IH]; intros j (v' & Hn & Hr & Hc); [destruct j; discriminate|].
    destruct j as [|j]; cbn in Hn; [injection Hn as <-; congruence|]. apply (IH j). exists v'. auto.
  Qed.
  Lemma all_convert_length l ws : all_convert fc g x l ws -> length ws = length l.
  Proof. induction 1; cbn; auto. Qed.

  Lemma list_convert_ok E v w : list_convert E fc g v x = Ok w <->
    exists l ws, list_elems E v = Some l /\ w = VList ws /\ all_convert fc g x l ws.
  Proof.
    unfold list_convert. split.
    - destruct (list_elems E v) as [l|]; [|discriminate].
      destruct (list_loop fc g x 0 l [] []) as [[data errs]|e] eqn:L; cbn [rbind]; [|discriminate].
      destruct errs as [|p errs]; [|discriminate]. intros [= <-].
      apply list_loop_ok in L as (ws & -> & Hk & Ha & _). exists l, ws. split; [reflexivity|]. split; [reflexivity|].
      apply Ha. intros j e H. destruct (proj2 (Hk (KInt (0 + Z.of_nat j)))). right. eauto.
    - intros (l & ws & -> & -> & H). rewrite (list_loop_all 0 l ws [] H). reflexivity.
  Qed.

  Lemma list_convert_errors E v errs : list_convert E fc g v x = Raise (XCompound errs) ->
    exists l, list_elems E v = Some l /\ errs <> [] /\
      (forall y, In y (dkeys errs) <-> exists j e, rejected_at fc g x l j e /\ y = KInt (Z.of_nat j)) /\
      (forall y nd, dget y errs = Some nd -> exists j e, rejected_at fc g x l j e /\ y = KInt (Z.of_nat j) /\ nd = err_node e).
  Proof.
    unfold list_convert. destruct (list_elems E v) as [l|]; [|discriminate].
    destruct (list_loop fc g x 0 l [] []) as [[data errs']|e] eqn:L; cbn [rbind].
    - destruct errs' as [|p errs']; [discriminate|]. intros [= <-].
      apply list_loop_ok in L as (ws & -> & Hk & Ha & Hn). exists l. split; [reflexivity|]. split; [discriminate|]. split.
      + intros y. rewrite Hk. cbn [In dkeys map]. split; [intros [[]|H]; exact H|auto].
      + intros y nd G. apply Hn in G as [G|G]; [discriminate|exact G].
    - intros [= ->]. apply list_loop_raise in L as (v' & _ & _ & C). discriminate.
  Qed.

  Lemma list_convert_fails E v l : list_elems E v = Some l -> no_crash fc g x l ->
    (exists j e, rejected_at fc g x l j e) -> exists errs, list_convert E fc g v x = Raise (XCompound errs).
  Proof.
    intros Hl Hc (j & e & Hr). unfold list_convert. rewrite Hl.
    destruct (list_loop fc g x 0 l [] []) as [[data errs]|e'] eqn:L; cbn [rbind].
    - apply list_loop_ok in L as (ws & -> & Hk & _).
      assert (K : In (KInt (0 + Z.of_nat j)) (dkeys errs)) by (apply Hk; right; eauto).
      destruct errs; [destruct K|eauto].
    - apply list_loop_raise in L as (v' & H1 & H2 & H3). pose proof (Hc v' e' H1 H2) as K. change (caught_by_loop e' = true) in K. rewrite K in H3. discriminate.
  Qed.

  (** ** Dictionaries *)
  Context (ck : key -> res key).
  Definition entry (p : key * pyval) : res (key * pyval) :=
    rbind (fc g (snd p) x) (fun w => rbind (ck (fst p)) (fun y' => Ok (y', w))).
  Lemma entry_ok p p' : entry p = Ok p' <-> entry_converts fc g ck x p p'.
  Proof.
    unfold entry, entry_converts. destruct p as [y v], p' as [y' w']; cbn.
    destruct (fc g v x) as [w|e]; cbn; [|split; [discriminate|intros [? _]; discriminate]].
    destruct (ck y) as [z|e]; cbn; [|split; [discriminate|intros [_ ?]; discriminate]].
    split; [intros [= <- <-]; auto|intros [[= ->] [= ->]]; reflexivity].
  Qed.
  Lemma entry_raise p e : entry p = Raise e <-> entry_rejected fc g ck x p e.
  Proof.
    unfold entry, entry_rejected. destruct p as [y v]; cbn.
    destruct (fc g v x) as [w|e']; cbn.
    - destruct (ck y) as [z|e']; cbn; split; try discriminate.
      + intros [H|[_ H]]; discriminate.
      + intros [= ->]. eauto.
      + intros [H|[_ [= ->]]]; [discriminate|reflexivity].
    - split; [intros [= ->]; auto|]. intros [[= ->]|[(w & H) _]]; [reflexivity|discriminate].
  Qed.

  Lemma dict_loop_ok l data errs data' errs' :
    dict_loop fc g ck x l data errs = Ok (data', errs') ->
    exists ps, data' = dupdate data ps /\
      (forall y, In y (dkeys errs') <-> In y (dkeys errs) \/
         exists v e, In (y, v) l /\ entry_rejected fc g ck x (y, v) e) /\
      ((forall y v e, In (y, v) l -> ~ entry_rejected fc g ck x (y, v) e) -> Forall2 (entry_converts fc g ck x) l ps) /\
      (forall y nd, dget y errs' = Some nd -> dget y errs = Some nd \/
         exists v e, In (y, v) l /\ entry_rejected fc g ck x (y, v) e /\ nd = err_node e).
  Proof.
    revert data errs; induction l as [|[y v] l IH]; intros data errs.
    - cbn. intros [= <- <-]. exists []. split; [reflexivity|]. split; [|split; [constructor|auto]].
      intros y; split; [auto|]. intros [H|(v & e & [] & _)]; exact H.
    - cbn [dict_loop].
      change (rbind (fc g v x) (fun w => rbind (ck y) (fun y' => Ok (y', w)))) with (entry (y, v)).
      destruct (entry (y, v)) as [[y' w]|e] eqn:En.
      + pose proof (proj1 (entry_ok _ _) En) as Hc.
        assert (Hno : forall e, ~ entry_rejected fc g ck x (y, v) e) by (intros e He; apply entry_raise in He; congruence).
        intros H. apply IH in H as (ps & -> & Hk & Ha & Hn). exists ((y', w) :: ps). split; [reflexivity|].
        split; [|split].
        * intros z. rewrite Hk. split; (intros [H|(v' & e & H1 & H2)]; [auto|right; exists v', e]).
          -- cbn; auto.
          -- destruct H1 as [[= -> ->]|H1]; [destruct (Hno e H2)|auto].
        * intros Hr. constructor; [exact Hc|]. apply Ha. intros z v' e Hi; apply Hr; cbn; auto.
        * intros z nd G. apply Hn in G as [G|(v' & e & H1 & H2 & H3)]; [auto|]. right. exists v', e. cbn; auto.
      + pose proof (proj1 (entry_raise _ _) En) as Hr.
        unfold is_base_error. destruct (caught_by_loop e) eqn:C; [|discriminate].
        intros H. apply IH in H as (ps & -> & Hk & Ha & Hn). exists ps. split; [reflexivity|].
        split; [|split].
        * intros z. rewrite Hk, dkeys_dset_in. split.
          -- intros [[->|H]|(v' & e' & H1 & H2)]; [right; exists v, e; cbn; auto|auto|right; exists v', e'; cbn; auto].
          -- intros [H|(v' & e' & [[= -> ->]|H1] & H2)]; [auto|auto|right; eauto].
        * intros Hno. exfalso. apply (Hno y v e); cbn; auto.
        * intros z nd G. apply Hn in G as [G|(v' & e' & H1 & H2 & H3)].
          -- rewrite dget_dset in G. destruct (key_eqb_spec z y) as [->|_]; [|auto].
             injection G as <-. right. exists v, e. cbn; auto.
          -- right. exists v', e'. cbn; auto.
  Qed.
  Lemma dict_loop_raise l data errs e : dict_loop fc g ck x l data errs = Raise e ->
    exists y v, In (y, v) l /\ entry_rejected fc g ck x (y, v) e /\ caught_by_loop e = false.
  Proof.
    revert data errs; induction l as [|[y v] l IH]; intros data errs; cbn [dict_loop]; [discriminate|].
    change (rbind (fc g v x) (fun w => rbind (ck y) (fun y' => Ok (y', w)))) with (entry (y, v)).
    destruct (entry (y, v)) as [[y' w]|e'] eqn:En.
    - intros H. apply IH in H as (z & v' & H1 & H2). exists z, v'. cbn; auto.
    - unfold is_base_error. destruct (caught_by_loop e') eqn:C.
      + intros H. apply IH in H as (z & v' & H1 & H2). exists z, v'. cbn; auto.
      + intros [= <-]. exists y, v. split; [cbn; auto|]. split; [now apply entry_raise|exact C].
  Qed.
  Lemma dict_loop_all l ps data : Forall2 (entry_converts fc g ck x) l ps ->
    dict_loop fc g ck x l data [] = Ok (dupdate data ps, []).
  Proof.
    intros H; revert data; induction H as [|[y v] [y' w] l ps Hv H IH]; intros data; [reflexivity|].
    cbn [dict_loop].
    change (rbind (fc g v x) (fun w => rbind (ck y) (fun y' => Ok (y', w)))) with (entry (y, v)).
    rewrite (proj2 (entry_ok _ _) Hv). rewrite IH. reflexivity.
  Qed.

  Lemma dict_convert_ok v w : dict_convert fc g ck v x = Ok w <->
    exists d ps, v = VDict d /\ w = VDict (dupdate [] ps) /\ Forall2 (entry_converts fc g ck x) d ps.
  Proof.
    unfold dict_convert. split.
    - destruct v; try discriminate.
      destruct (dict_loop fc g ck x d [] []) as [[data errs]|e] eqn:L; cbn [rbind]; [|discriminate].
      destruct errs as [|p errs]; [|discriminate]. intros [= <-].
      apply dict_loop_ok in L as (ps & -> & Hk & Ha & _). exists d, ps. split; [reflexivity|]. split; [reflexivity|].
      apply Ha. intros y v e Hi H. destruct (proj2 (Hk y)). right. eauto.
    - intros (d & ps & -> & -> & H). rewrite (dict_loop_all d ps [] H). reflexivity.
  Qed.
  Lemma dict_convert_errors v errs : dict_convert fc g ck v x = Raise (XCompound errs) ->
    exists d, v = VDict d /\ errs <> [] /\
      (forall y, In y (dkeys errs) <-> exists v e, In (y, v) d /\ entry_rejected fc g ck x (y, v) e) /\
      (forall y nd, dget y errs = Some nd ->
         exists v e, In (y, v) d /\ entry_rejected fc g ck x (y, v) e /\ nd = err_node e).
  Proof.
    unfold dict_convert. destruct v; try discriminate.
    destruct (dict_loop fc g ck x d [] []) as [[data errs']|e] eqn:L; cbn [rbind].
    - destruct errs' as [|p errs']; [discriminate|]. intros [= <-].
      apply dict_loop_ok in L as (ps & -> & Hk & Ha & Hn). exists d. split; [reflexivity|]. split; [discriminate|]. split.
      + intros y. rewrite Hk. cbn [In dkeys map]. split; [intros [[]|H]; exact H|auto].
      + intros y nd G. apply Hn in G as [G|G]; [discriminate|exact G].
    - intros [= ->]. apply dict_loop_raise in L as (y & v' & _ & _ & C). discriminate.
  Qed.
  Lemma dict_convert_fails d : (forall y v e, In (y, v) d -> entry_rejected fc g ck x (y, v) e -> caught_by_loop e = true) ->
    (exists y v e, In (y, v) d /\ entry_rejected fc g ck x (y, v) e) ->
    exists errs, dict_convert fc g ck (VDict d) x = Raise (XCompound errs).
  Proof.
    intros Hc (y & v & e & Hi & Hr). unfold dict_convert.
    destruct (dict_loop fc g ck x d [] []) as [[data errs]|e'] eqn:L; cbn [rbind].
    - apply dict_loop_ok in L as (ps & -> & Hk & _).
      assert (K : In y (dkeys errs)) by (apply Hk; right; eauto).
      destruct errs; [destruct K|eauto].
    - apply dict_loop_raise in L as (y' & v' & H1 & H2 & H3). rewrite (Hc y' v' e' H1 H2) in H3. discriminate.
  Qed.

  (** Distinct coerced keys: every entry is kept. *)
  Lemma entries_keys d ps : Forall2 (entry_converts fc g ck x) d ps -> Forall2 (fun y z => ck y = Ok z) (dkeys d) (dkeys ps).
  Proof. induction 1 as [|p q d ps [_ H] _ IH]; cbn; constructor; auto. Qed.

  Lemma dict_convert_distinct d w :
    dict_convert fc g ck (VDict d) x = Ok w ->
    (forall y1 y2 z, In y1 (dkeys d) -> In y2 (dkeys d) -> ck y1 = Ok z -> ck y2 = Ok z -> y1 = y2) ->
    NoDup (dkeys d) ->
    exists ps, w = VDict ps /\ Forall2 (entry_converts fc g ck x) d ps /\ NoDup (dkeys ps).
  Proof.
    intros H Hinj Hnd. apply dict_convert_ok in H as (d' & ps & [= <-] & -> & Hf).
    assert (N : NoDup (dkeys ps)).
    { pose proof (entries_keys _ _ Hf) as Hk. revert Hinj Hnd Hk. generalize (dkeys d) (dkeys ps). clear.
      intros l l'. revert l'. induction l as [|y l IH]; intros l' Hinj Hnd Hk; inversion Hk as [|? z ? l1 Hz Hl]; subst; [constructor|].
      inversion Hnd as [|? ? N1 N2]; subst. constructor.
      - intros Hi. apply N1.
        assert (exists y2, In y2 l /\ ck y2 = Ok z) as (y2 & H1 & H2).
        { clear - Hl Hi. induction Hl as [|a b l l1 H Hl IH]; [destruct Hi|].
          destruct Hi as [->|Hi]; [exists a; cbn; auto|]. destruct (IH Hi) as (y2 & ? & ?). exists y2; cbn; auto. }
        rewrite (Hinj y y2 z); cbn; auto.
      - apply IH; auto. intros; eapply Hinj; cbn; eauto. }
    exists ps. rewrite dupdate_nil_l by assumption. auto.
  Qed.
End L.
