From Verif.Model Require Import Py Core Export Api.
From Verif.Spec Require Import ImportSpec ValidateSpec.
From Verif.Proofs Require Import DictLemmas ImportLemmas ApiLemmas ImportApi.

(** ** Field level validators *)
Lemma run_collected v vs : forall rest ms acc, collected v vs ms ->
  exists l, run_validators (vs ++ rest) v acc = run_validators rest v (acc ++ l) /\ concat l = ms /\
    (l = [] <-> forall g, In g vs -> passes g v).
Proof.
  intros rest ms acc H; revert acc; induction H as [|g gs ms Hp H IH|g gs m ms Hc H IH]; intros acc; cbn.
  - exists []. rewrite app_nil_r. split; [reflexivity|]. split; [reflexivity|]. split; [intros _ g []|reflexivity].
  - rewrite Hp. destruct (IH acc) as (l & H1 & H2 & H3). exists l. split; [exact H1|]. split; [exact H2|].
    rewrite H3. split; intros K; [intros g' [<-|Hg]; auto|intros g' Hg; auto].
  - rewrite Hc. destruct (IH (acc ++ [m])) as (l & H1 & H2 & H3). exists (m :: l).
    rewrite <- app_assoc in H1. split; [exact H1|]. split; [cbn; now rewrite H2|].
    split; [discriminate|]. intros K. specialize (K g (or_introl eq_refl)). unfold passes, complains in *. congruence.
Qed.

Lemma validators_success vs v w :
  validators_result vs v = Ok w <-> w = v /\ forall g, In g vs -> passes g v.
Proof.
  unfold validators_result. split.
  - assert (G : forall acc l, run_validators vs v acc = Ok l -> (exists l', l = acc ++ l') /\ (l = acc -> forall g, In g vs -> passes g v)).
    { induction vs as [|g vs IH]; intros acc l; cbn.
      - intros [= <-]. split; [exists []; now rewrite app_nil_r|]. intros _ g [].
      - destruct (g v) as [e|] eqn:G.
        + destruct e as [| stop ms | | | |]; try discriminate. destruct stop.
          * intros [= <-]. split; [eauto|]. intros K. apply (f_equal (@length _)) in K. rewrite app_length in K. cbn in K. lia.
          * intros H. apply IH in H as [(l' & ->) H2].
            split; [rewrite <- app_assoc; eauto|]. intros K. apply (f_equal (@length _)) in K. rewrite !app_length in K. cbn in K. lia.
        + intros H. apply IH in H as [H1 H2]. split; [exact H1|]. intros K g' [<-|Hg]; [exact G|]. now apply H2. }
    specialize (G []). destruct (run_validators vs v []) as [[|a l]|e]; try discriminate.
    intros [= <-]. split; [reflexivity|]. exact (proj2 (G [] eq_refl) eq_refl).
  - intros [-> H]. assert (C : collected v vs []).
    { induction vs as [|g vs IH]; constructor; [apply H; cbn; auto|apply IH; intros; apply H; cbn; auto]. }
    destruct (run_collected v vs [] [] [] C) as (l & H1 & H2 & H3). rewrite app_nil_r in H1.
    rewrite H1. rewrite (proj2 H3 H). reflexivity.
Qed.

Lemma validators_all_run vs v ms : collected v vs ms -> (exists g, In g vs /\ ~ passes g v) ->
  validators_result vs v = Raise (XValid false ms).
Proof.
  intros C (g & Hg & Hn). destruct (run_collected v vs [] ms [] C) as (l & H1 & H2 & H3).
  unfold validators_result. rewrite app_nil_r in H1. rewrite H1. cbn.
  destruct l as [|a l]; [exfalso; apply Hn; now apply H3|]. now rewrite H2.
Qed.

Lemma validators_stop pre g post v ms m : collected v pre ms -> complains g v true m ->
  validators_result (pre ++ g :: post) v = Raise (XValid false (ms ++ m)).
Proof.
  intros C Hg. destruct (run_collected v pre (g :: post) ms [] C) as (l & H1 & H2 & _).
  unfold validators_result. rewrite H1. cbn. rewrite Hg.
  destruct (l ++ [m]) as [|a l'] eqn:K; [destruct l; discriminate|]. rewrite <- K, concat_app, H2. cbn. now rewrite app_nil_r.
Qed.

Lemma validators_crash pre g post v ms e : collected v pre ms -> crashes g v e ->
  validators_result (pre ++ g :: post) v = Raise e.
Proof.
  intros C [Hg Hn]. destruct (run_collected v pre (g :: post) ms [] C) as (l & H1 & H2 & _).
  unfold validators_result. rewrite H1. cbn. rewrite Hg.
  destruct e; try reflexivity. exfalso; eapply Hn; reflexivity.
Qed.

(** Every list of validators falls under one of the three cases. *)
Lemma validators_cases vs v :
  (exists ms, collected v vs ms) \/
  (exists pre g post ms m, vs = pre ++ g :: post /\ collected v pre ms /\ complains g v true m) \/
  (exists pre g post ms e, vs = pre ++ g :: post /\ collected v pre ms /\ crashes g v e).
Proof.
  induction vs as [|g vs IH]; [left; exists []; constructor|].
  destruct (g v) as [e|] eqn:G.
  - assert (D : (exists m, e = XValid false m) \/ (exists m, e = XValid true m) \/ (forall s m, e <> XValid s m)).
    { destruct e as [|[] m| | | |]; eauto; right; right; congruence. }
    destruct D as [(m & ->)|[(m & ->)|D]].
    + destruct IH as [(ms & C)|[(pre & g' & post & ms & m' & -> & C & H)|(pre & g' & post & ms & e' & -> & C & H)]].
      * left. exists (m ++ ms). now constructor 3.
      * right; left. exists (g :: pre), g', post, (m ++ ms), m'. repeat split; [now constructor 3|exact H].
      * right; right. exists (g :: pre), g', post, (m ++ ms), e'. split; [reflexivity|]. split; [now constructor 3|exact H].
    + right; left. exists [], g, vs, [], m. repeat split; [constructor|exact G].
    + right; right. exists [], g, vs, [], e. split; [reflexivity|]. split; [constructor|split; assumption].
  - destruct IH as [(ms & C)|[(pre & g' & post & ms & m' & -> & C & H)|(pre & g' & post & ms & e' & -> & C & H)]].
    + left. exists ms. now constructor 2.
    + right; left. exists (g :: pre), g', post, ms, m'. repeat split; [now constructor 2|exact H].
    + right; right. exists (g :: pre), g', post, ms, e'. split; [reflexivity|]. split; [now constructor 2|exact H].
Qed.

Lemma field_validate_success E k f v x w :
  not_union f -> cx_convert x = true ->
  (cv_validate (conv_at E (S k)) f v x = Ok w <->
   cv_convert (conv_at E k) f v x = Ok w /\ forall g, In g (fo_validators (fs_opts f)) -> passes g w).
Proof.
  intros Hu Hc. cbn [conv_at conv_step cv_validate]. unfold validate_step. rewrite Hc.
  assert (G : rbind (cv_convert (conv_at E k) f v x) (validators_result (fo_validators (fs_opts f))) = Ok w <->
     cv_convert (conv_at E k) f v x = Ok w /\ forall g, In g (fo_validators (fs_opts f)) -> passes g w).
  { destruct (cv_convert (conv_at E k) f v x) as [w'|e]; cbn [rbind].
    - rewrite validators_success. split; [intros [-> H]; auto|intros [[= ->] H]; auto].
    - split; [discriminate|intros [? _]; discriminate]. }
  unfold not_union in Hu. destruct (fs_type f); try exact G. destruct Hu.
Qed.

Lemma field_validated E k f v x w :
  not_union f -> cx_validate x = true -> cx_convert x = true ->
  cv_field (conv_at E (S (S k))) f v x = Ok w ->
  is_nil v = true /\ w = v \/ forall g, In g (fo_validators (fs_opts f)) -> passes g w.
Proof.
  intros Hu Hv Hc. cbn [conv_at conv_step cv_field]. unfold field_step.
  destruct (check_required f v x); [discriminate|].
  destruct (is_nil v); [intros [= ->]; auto|]. rewrite Hv.
  change (conv_step E (conv_at E k)) with (conv_at E (S k)). intros H.
  apply field_validate_success in H; [|assumption|assumption]. right; apply H.
Qed.

(** ** Model level validators *)
Section MV.
  Context (vfs : list (key * mvalidator)) (mut : pyval) (data : list (key * pyval)).
  Hypothesis Hro : readonly_validators vfs.

  Lemma ro n vf d v : dget n vfs = Some vf -> fst (vf mut d v) = d.
  Proof. intros H; apply dget_In in H. eapply Hro; exact H. Qed.

  (** What a successful run of the loop did. *)
  Lemma mv_loop fs errs bad d e b :
    validate_model_loop vfs mut fs data errs bad = Ok (d, e, b) ->
    d = data /\
    (exists l, b = bad ++ l /\
      (forall n, In n l <-> exists f ex, In (n, f) fs /\ objects vfs mut data n ex /\ True) /\
      (NoDup (dkeys fs) -> NoDup l)) /\
    (forall n f ex, In (n, f) fs -> objects vfs mut data n ex -> mv_caught ex <> None) /\
    (forall s, In s (dkeys e) <-> In s (dkeys errs) \/
        exists n f ex, In (n, f) fs /\ objects vfs mut data n ex /\ s = public_name n f) /\
    (forall s nd, dget s e = Some nd -> dget s errs = Some nd \/
        exists n f ex, In (n, f) fs /\ objects vfs mut data n ex /\ s = public_name n f /\ mv_caught ex = Some nd).
  Proof.
    revert errs bad; induction fs as [|[n f] fs IH]; intros errs bad; cbn.
    - intros [= <- <- <-]. split; [reflexivity|]. split.
      { exists []. rewrite app_nil_r. split; [reflexivity|]. split; [|auto].
        intros n; split; [intros []|]. intros (f & ex & [] & _). }
      split; [intros n f ex []|]. split; [|auto]. intros s; split; [auto|]. intros [H|(n & f & ex & [] & _)]; exact H.
    - assert (Hskip : (forall ex, ~ objects vfs mut data n ex) ->
        validate_model_loop vfs mut fs data errs bad = Ok (d, e, b) ->
        d = data /\
        (exists l, b = bad ++ l /\
          (forall n', In n' l <-> exists f' ex, ((n, f) = (n', f') \/ In (n', f') fs) /\ objects vfs mut data n' ex /\ True) /\
          (NoDup (n :: dkeys fs) -> NoDup l)) /\
        (forall n' f' ex, (n, f) = (n', f') \/ In (n', f') fs -> objects vfs mut data n' ex -> mv_caught ex <> None) /\
        (forall s, In s (dkeys e) <-> In s (dkeys errs) \/
            exists n' f' ex, ((n, f) = (n', f') \/ In (n', f') fs) /\ objects vfs mut data n' ex /\ s = public_name n' f') /\
        (forall s nd, dget s e = Some nd -> dget s errs = Some nd \/
            exists n' f' ex, ((n, f) = (n', f') \/ In (n', f') fs) /\ objects vfs mut data n' ex /\ s = public_name n' f' /\ mv_caught ex = Some nd)).
      { intros Hno H. apply IH in H as (-> & (l & -> & Hl1 & Hl2) & Hc & Hk & Hn).
        split; [reflexivity|]. split.
        { exists l. split; [reflexivity|]. split.
          - intros n'. rewrite Hl1. split; intros (f' & ex & H1 & H2 & _); exists f', ex.
            + auto.
            + destruct H1 as [[= <- <-]|H1]; [exfalso; eapply Hno; exact H2|auto].
          - intros K; inversion K; auto. }
        split. { intros n' f' ex [[= <- <-]|H1] H2; [exfalso; eapply Hno; exact H2|eauto]. }
        split.
        { intros s. rewrite Hk. split; (intros [H|(n' & f' & ex & H1 & H2 & ->)]; [auto|right; exists n', f', ex]).
          - auto.
          - destruct H1 as [[= <- <-]|H1]; [exfalso; eapply Hno; exact H2|auto]. }
        intros s nd G. apply Hn in G as [G|(n' & f' & ex & H1 & H2 & H3 & H4)]; [auto|].
        right. exists n', f', ex. auto. }
      destruct (dget n data) as [v|] eqn:Dn.
      2:{ apply Hskip. intros ex (v & vf & ? & _). congruence. }
      destruct (dget n vfs) as [vf|] eqn:Dv.
      2:{ apply Hskip. intros ex (v' & vf & _ & _ & ? & _). congruence. }
      destruct (is_undef v) eqn:U.
      { apply Hskip. intros ex (v' & vf' & H1 & H2 & _). assert (v' = v) by congruence. subst. destruct v; discriminate || congruence. }
      pose proof (ro n vf data v Dv) as R. destruct (vf mut data v) as [d1 [ex|]] eqn:V; cbn in R; subst d1.
      2:{ apply Hskip. intros ex (v' & vf' & H1 & H2 & H3 & H4). assert (v' = v) by congruence. assert (vf' = vf) by congruence. subst. rewrite V in H4. discriminate. }
      assert (Hob : objects vfs mut data n ex).
      { exists v, vf. repeat split; try assumption; [destruct v; discriminate || congruence|now rewrite V]. }
      assert (Huniq : forall ex', objects vfs mut data n ex' -> ex' = ex).
      { intros ex' (v' & vf' & H1 & H2 & H3 & H4). assert (v' = v) by congruence. assert (vf' = vf) by congruence. subst. rewrite V in H4. cbn in H4. congruence. }
      destruct (mv_caught ex) as [nd|] eqn:C; [|discriminate].
      intros H. apply IH in H as (-> & (l & -> & Hl1 & Hl2) & Hc & Hk & Hn).
      split; [reflexivity|]. split.
      { exists (n :: l). rewrite <- app_assoc. split; [reflexivity|]. split.
        - intros n'; cbn. rewrite Hl1. split.
          + intros [<-|(f' & ex' & H1 & H2 & _)]; [exists f, ex; auto|exists f', ex'; auto].
          + intros (f' & ex' & [[= <- <-]|H1] & H2 & _); [auto|right; exists f', ex'; auto].
        - intros K; inversion K as [|? ? K1 K2]; subst. constructor; [|auto].
          rewrite Hl1. intros (f' & ex' & H1 & _). apply K1. apply (in_map fst) in H1; exact H1. }
      split. { intros n' f' ex' [[= <- <-]|H1] H2; [apply Huniq in H2 as ->; congruence|eauto]. }
      split.
      { intros s. rewrite Hk, dkeys_dset_in. fold (public_name n f). split.
        - intros [[->|H]|(n' & f' & ex' & H1 & H2 & ->)]; [right; exists n, f, ex; auto|auto|right; exists n', f', ex'; auto].
        - intros [H|(n' & f' & ex' & [[= <- <-]|H1] & H2 & ->)]; [auto|auto|right; exists n', f', ex'; auto]. }
      intros s nd' G. apply Hn in G as [G|(n' & f' & ex' & H1 & H2 & H3 & H4)].
      + rewrite dget_dset in G. destruct (key_eqb_spec s (sname_of n (fd_spec f))) as [->|_].
        * injection G as <-. right. exists n, f, ex. auto.
        * auto.
      + right. exists n', f', ex'. auto.
  Qed.

  Lemma mv_loop_raise fs errs bad e : validate_model_loop vfs mut fs data errs bad = Raise e ->
    exists n f, In (n, f) fs /\ objects vfs mut data n e /\ mv_caught e = None.
  Proof.
    revert errs bad; induction fs as [|[n f] fs IH]; intros errs bad; cbn; [discriminate|].
    assert (Hskip : forall er b, validate_model_loop vfs mut fs data er b = Raise e ->
      exists n' f', ((n, f) = (n', f') \/ In (n', f') fs) /\ objects vfs mut data n' e /\ mv_caught e = None).
    { intros er b H. apply IH in H as (n' & f' & H1 & H2). exists n', f'. auto. }
    destruct (dget n data) as [v|] eqn:Dn; [|apply Hskip].
    destruct (dget n vfs) as [vf|] eqn:Dv; [|apply Hskip].
    destruct (is_undef v) eqn:U; [apply Hskip|].
    pose proof (ro n vf data v Dv) as R. destruct (vf mut data v) as [d1 [ex|]] eqn:V; cbn in R; subst d1; [|apply Hskip].
    destruct (mv_caught ex) as [nd|] eqn:C; [apply Hskip|].
    intros [= <-]. exists n, f. split; [auto|]. split; [|exact C].
    exists v, vf. repeat split; try assumption; [destruct v; discriminate || congruence|now rewrite V].
  Qed.

  Lemma pop_all_ok bad d : NoDup bad -> NoDup (dkeys d) -> (forall n, In n bad -> In n (dkeys d)) ->
    exists d', pop_all bad d = Ok d' /\ NoDup (dkeys d') /\
      forall y, dget y d' = if kmem y bad then None else dget y d.
  Proof.
    revert d; induction bad as [|n bad IH]; intros d Hb Hd Hi; cbn.
    - exists d. auto.
    - inversion Hb as [|? ? H1 H2]; subst.
      rewrite (proj2 (dmem_In n d)) by (apply Hi; cbn; auto).
      destruct (IH (ddel n d) H2 (NoDup_ddel n d Hd)) as (d' & Hp & Hn & Hg).
      + intros y Hy. apply dget_keys. rewrite dget_ddel by assumption.
        destruct (key_eqb_spec y n) as [->|_]; [contradiction|]. apply dget_keys, Hi; cbn; auto.
      + exists d'. split; [exact Hp|]. split; [exact Hn|]. intros y. rewrite Hg, dget_ddel by assumption.
        destruct (key_eqb_spec y n) as [->|_]; cbn; [|reflexivity]. now destruct (kmem n bad).
  Qed.

  Lemma validate_model_ok fs d' e' : NoDup (dkeys fs) -> NoDup (dkeys data) ->
    validate_model vfs mut fs data = Ok (d', e') ->
    NoDup (dkeys d') /\
    (forall n f ex, In (n, f) fs -> objects vfs mut data n ex -> dget n d' = None /\ mv_caught ex <> None) /\
    (forall y, (forall f ex, In (y, f) fs -> ~ objects vfs mut data y ex) -> dget y d' = dget y data) /\
    (forall s, In s (dkeys e') <-> exists n f ex, In (n, f) fs /\ objects vfs mut data n ex /\ s = public_name n f) /\
    (forall s nd, dget s e' = Some nd ->
        exists n f ex, In (n, f) fs /\ objects vfs mut data n ex /\ s = public_name n f /\ mv_caught ex = Some nd).
  Proof.
    intros Hfs Hd. unfold validate_model.
    destruct (validate_model_loop vfs mut fs data [] []) as [[[d e] b]|ex] eqn:L; cbn [rbind]; [|discriminate].
    apply mv_loop in L as (-> & (l & -> & Hl1 & Hl2) & Hc & Hk & Hn). cbn [app].
    assert (Hin : forall n, In n l -> In n (dkeys data)).
    { intros n Hi. apply Hl1 in Hi as (f & ex & _ & (v & vf & G & _) & _). apply dget_keys. congruence. }
    destruct (pop_all_ok l data (Hl2 Hfs) Hd Hin) as (d1 & -> & Hn1 & Hg). cbn [rbind]. intros [= <- <-].
    split; [exact Hn1|]. split.
    { intros n f ex H1 H2. split; [|eapply Hc; eassumption]. rewrite Hg.
      rewrite (proj2 (kmem_In n l)); [reflexivity|]. apply Hl1. eauto. }
    split.
    { intros y Hy. rewrite Hg. destruct (kmem y l) eqn:K; [|reflexivity].
      apply kmem_In, Hl1 in K as (f & ex & H1 & H2 & _). exfalso. eapply Hy; eassumption. }
    split.
    { intros s. rewrite Hk. cbn. split; [intros [[]|H]; exact H|auto]. }
    intros s nd G. apply Hn in G as [G|G]; [discriminate|exact G].
  Qed.
  Lemma validate_model_clean fs d' : NoDup (dkeys fs) -> validate_model vfs mut fs data = Ok (d', []) -> d' = data.
  Proof.
    intros Hfs. unfold validate_model.
    destruct (validate_model_loop vfs mut fs data [] []) as [[[d e] b]|ex] eqn:L; cbn [rbind]; [|discriminate].
    apply mv_loop in L as (-> & (l & -> & Hl1 & Hl2) & Hc & Hk & Hn). cbn [app].
    destruct l as [|n l]; cbn.
    - now intros [= <- _].
    - destruct (proj1 (Hl1 n) (or_introl eq_refl)) as (f & ex & H1 & H2 & _).
      assert (K : In (public_name n f) (dkeys e)) by (apply Hk; right; eauto 6).
      destruct (if dmem n data then _ else _) as [d2|]; cbn; [|discriminate].
      intros [= -> ->]. destruct K.
  Qed.
  Lemma validate_model_raise fs e : NoDup (dkeys fs) -> NoDup (dkeys data) ->
    validate_model vfs mut fs data = Raise e ->
    exists n f, In (n, f) fs /\ objects vfs mut data n e /\ mv_caught e = None.
  Proof.
    intros Hfs Hd. unfold validate_model.
    destruct (validate_model_loop vfs mut fs data [] []) as [[[d er] b]|ex] eqn:L; cbn [rbind].
    - apply mv_loop in L as (-> & (l & -> & Hl1 & Hl2) & Hc & Hk & Hn). cbn [app].
      assert (Hin : forall n, In n l -> In n (dkeys data)).
      { intros n Hi. apply Hl1 in Hi as (f & ex & _ & (v & vf & G & _) & _). apply dget_keys. congruence. }
      destruct (pop_all_ok l data (Hl2 Hfs) Hd Hin) as (d1 & -> & _). discriminate.
    - intros [= <-]. apply mv_loop_raise in L. exact L.
  Qed.
End MV.

(** ** validate() *)

Lemma validate_body_eq E r c m w : NoDup (dkeys (md_converted m)) ->
  model_validate_body E r c m w =
  let out := validate_fn E (cv_field r) (cv_pre r) (vctx m w) (e_class E c) (VModel c (vbase m))
     (match md_unsafe m with [] => AliasConverted | _ => NoAlias end)
     (VDict (dupdate (md_unsafe m) (md_converted m))) in
  let m1 := match lo_mut out with VModel _ m2 => m2 | _ => vbase m end in
  match lo_res out with
  | Ok data => (md_set_valid m1 data, None)
  | Raise (XData errs pd) => (md_set_valid m1 (dupdate (md_valid m1) pd), Some (XData errs pd))
  | Raise e => (m1, Some e)
  end.
Proof.
  intros Hk. unfold model_validate_body, model__convert, vbase, vctx, vkw. destruct m as [un cv vl hd].
  cbn [md_unsafe md_converted md_valid md_hidden] in *. destruct un as [|p un].
  - cbn [truthy nonempty]. rewrite orb_false_r, dupdate_nil_l by assumption. reflexivity.
  - cbn [truthy nonempty]. rewrite orb_true_r. reflexivity.
Qed.

Section Validate.
  Context (E : env) (r : conv) (c : cid) (m : mdata pyval) (w : kwargs).
  Let fs := fields_of E c.
  Let vfs := mc_validators (e_class E c).
  Hypothesis Hnd : NoDup (dkeys fs).
  Hypothesis Hp : plain_fields fs.
  Hypothesis Hdef : defined_layers m.
  Hypothesis Hkeys : NoDup (dkeys (md_converted m)).
  Hypothesis Hrun : md_converted m <> [] \/ kw_partial w = false.

  Let x := vctx m w.
  Let d := vinput E c m.
  Let d1 := dupdate (md_unsafe m) (md_converted m).
  Let a := match md_unsafe m with [] => AliasConverted | _ => NoAlias end.
  Let loop := import_loop E (cv_field r) (cv_pre r) x fs (VModel c (vbase m)) a (VDict d1).
  Let mut := vmut E c m.

  Lemma vbase_defined : defined_data (vbase m).
  Proof.
    destruct Hdef as (_ & H2 & H3). intros n. unfold vbase, chain_get; cbn.
    destruct (dget n (md_converted m)) eqn:G; [intros [= ->]; now apply (H2 n)|apply H3].
  Qed.
  Lemma vitems : py_dict E (VModel c (vbase m)) = Ok (model_items E c (vbase m)).
  Proof. apply model_items_dict; [exact Hnd|exact Hp|apply vbase_defined]. Qed.
  Lemma veff : effective_input E x fs (VModel c (vbase m)) d1 d.
  Proof. apply eff_validate; [reflexivity|apply plain_no_setters, Hp|apply vitems]. Qed.
  Lemma vtd : trusted_dict E x [].
  Proof. reflexivity. Qed.
  Lemma vget y : dget y d =
    match (if dmem y fs then chain_get (vbase m) y else None) with
    | Some v => Some v
    | None => match dget y (md_converted m) with Some v => Some v | None => dget y (md_unsafe m) end
    end.
  Proof.
    unfold d, vinput. rewrite dget_dupdate by (apply model_items_NoDup, Hnd).
    rewrite model_items_get by (exact Hnd || exact Hp). fold fs.
    change (mc_fields (e_class E c)) with fs.
    destruct (if dmem y fs then chain_get (vbase m) y else None); [reflexivity|].
    now rewrite dget_dupdate.
  Qed.
  Lemma vdef : defined_dict d.
  Proof.
    intros y. rewrite vget. destruct Hdef as (H1 & H2 & H3).
    destruct (dmem y fs).
    - destruct (chain_get (vbase m) y) eqn:G; [intros [= ->]; now apply (vbase_defined y)|].
      destruct (dget y (md_converted m)) eqn:G2; [intros [= ->]; now apply (H2 y)|apply H1].
    - destruct (dget y (md_converted m)) eqn:G2; [intros [= ->]; now apply (H2 y)|apply H1].
  Qed.

  Lemma vloop_mut : lo_mut loop = mut.
  Proof.
    unfold loop, import_loop. cbn [is_none negb andb x vctx kw_ctx cx_trusted truthy nonempty cx_validate kw_validate vkw].
    unfold mutate. rewrite mutate_fields_none by (apply plain_no_setters, Hp). rewrite vitems.
    cbn [lo_mut]. unfold mut, vmut, a, vinput, d1. destruct (md_unsafe m); reflexivity.
  Qed.

  (** validate() in terms of the loop and the model level validators. *)
  Definition vfinish errs data : res (list (key * pyval)) :=
    rbind (validate_model vfs mut fs data) (fun '(d, e) =>
      match dupdate errs e with [] => Ok d | errs' => Raise (XData errs' d) end).
  Definition vres : res (list (key * pyval)) :=
    match lo_res loop with
    | Ok data => vfinish [] data
    | Raise (XData errs data) => vfinish errs data
    | Raise e => Raise e
    end.
  Definition hidden_after := match md_hidden m with None => Some (md_valid m) | h => h end.

  Lemma validate_eq : model_validate E r c m w =
    match vres with
    | Ok data => (MD [] [] data hidden_after, None)
    | Raise (XData errs pd) => (MD [] [] (dupdate (md_valid m) pd) hidden_after, Some (XData errs pd))
    | Raise e => (MD [] [] (md_valid m) (md_hidden m), Some e)
    end.
  Proof.
    assert (G : model_validate E r c m w =
      let '(m1, oe) := model_validate_body E r c m w in (md_set_converted m1 [], oe)).
    { unfold model_validate. destruct (md_converted m); [|reflexivity].
      destruct (kw_partial w) eqn:Pw; [|reflexivity]. destruct Hrun; congruence. }
    rewrite G. clear G. rewrite validate_body_eq by assumption. cbn zeta.
    set (out := validate_fn _ _ _ _ _ _ _ _).
    assert (O1 : lo_mut out = mut) by exact vloop_mut.
    assert (O2 : lo_res out = vres).
    { unfold out, vres, vfinish. rewrite <- vloop_mut. reflexivity. }
    rewrite O1, O2. unfold mut, vmut.
    destruct vres as [data|e]; [reflexivity|]. destruct e; reflexivity.
  Qed.

  Hypothesis Hro : readonly_validators vfs.

  (** The outcome of the field level part. *)
  Definition loop_data errs0 data0 := (lo_res loop = Ok data0 /\ errs0 = []) \/ lo_res loop = Raise (XData errs0 data0).
  Lemma loop_data_or errs0 data0 : loop_data errs0 data0 -> lo_res loop = Ok data0 \/ lo_res loop = Raise (XData errs0 data0).
  Proof. intros [[H _]|H]; auto. Qed.
  Lemma loop_data_NoDup errs0 data0 : loop_data errs0 data0 -> NoDup (dkeys data0).
  Proof.
    intros H. apply loop_data_or in H.
    eapply result_NoDup; [apply veff|apply vdef|exact Hnd|apply vtd|constructor|exact H].
  Qed.
  Lemma loop_data_errs errs0 data0 y : loop_data errs0 data0 ->
    (In y (dkeys errs0) <-> reported E (cv_field r) x fs d [] y).
  Proof.
    intros [[H ->]|H].
    - split; [intros []|]. intros Hy.
      eapply (success_no_errors _ _ _ _ _ _ _ _ _ _ veff vdef Hnd vtd) in Hy; [destruct Hy|exact H].
    - exact (error_keys _ _ _ _ _ _ _ _ _ _ veff vdef Hnd vtd _ _ y H).
  Qed.
  Lemma loop_data_value errs0 data0 n f : loop_data errs0 data0 -> In (n, f) fs ->
    dget n data0 = value_after x (fd_spec f) (field_outcome E (cv_field r) x d [] n (fd_spec f)) None.
  Proof.
    intros H Hi. apply loop_data_or in H.
    exact (data_field _ _ _ _ _ _ _ _ _ _ veff vdef Hnd vtd _ _ n f H Hi (or_introl eq_refl)).
  Qed.
  Lemma loop_data_other errs0 data0 y : loop_data errs0 data0 -> ~ In y (dkeys fs) -> dget y data0 = None.
  Proof.
    intros H Hi. apply loop_data_or in H.
    exact (data_other _ _ _ _ _ _ _ _ _ _ veff vdef Hnd vtd _ _ y H Hi).
  Qed.

  Lemma dupdate_nil_keys (e1 e2 : list (key * errnode)) : dupdate e1 e2 = [] -> e1 = [] /\ e2 = [].
  Proof.
    intros H. split.
    - destruct e1 as [|[y nd] e1]; [reflexivity|].
      assert (K : In y (dkeys (dupdate ((y, nd) :: e1) e2))) by (apply dkeys_dupdate_in; cbn; auto). rewrite H in K. destruct K.
    - destruct e2 as [|[y nd] e2]; [reflexivity|].
      assert (K : In y (dkeys (dupdate e1 ((y, nd) :: e2)))) by (apply dkeys_dupdate_in; cbn; auto). rewrite H in K. destruct K.
  Qed.

  Lemma vres_ok data : vres = Ok data ->
    lo_res loop = Ok data /\ forall n f e, In (n, f) fs -> ~ objects vfs mut data n e.
  Proof.
    intros H.
    assert (exists errs0 data0, loop_data errs0 data0 /\ vfinish errs0 data0 = Ok data) as (errs0 & data0 & Hl & Hf).
    { unfold vres in H. unfold loop_data. destruct (lo_res loop) as [data0|e]; [exists [], data0; auto|].
      destruct e; try discriminate. eauto. }
    unfold vfinish in Hf. destruct (validate_model vfs mut fs data0) as [[d0 e0]|e0] eqn:V; cbn [rbind] in Hf; [|discriminate].
    destruct (dupdate errs0 e0) as [|p l] eqn:U; [|discriminate]. injection Hf as ->.
    apply dupdate_nil_keys in U as [-> ->].
    assert (lo_res loop = Ok data0) as L.
    { destruct Hl as [[L _]|L]; [exact L|]. exfalso.
      destruct (run_ok_of _ _ _ _ _ _ _ _ _ _ veff vdef Hnd vtd _ _ L) as (? & _ & K & _). congruence. }
    pose proof (validate_model_clean _ _ _ Hro _ _ Hnd V) as ->. split; [exact L|].
    intros n f e Hi Ho.
    assert (K : In (public_name n f) (dkeys (@nil (key * errnode)))).
    { apply (validate_model_ok _ _ _ Hro _ _ _ Hnd (loop_data_NoDup _ _ Hl) V). eauto 6. }
    destruct K.
  Qed.

  Lemma vres_fail errs pd : vres = Raise (XData errs pd) ->
    exists errs0 data0, loop_data errs0 data0 /\ NoDup (dkeys pd) /\
    (forall s, In s (dkeys errs) <-> In s (dkeys errs0) \/
       exists n f e, In (n, f) fs /\ objects vfs mut data0 n e /\ s = public_name n f) /\
    (forall n f e, In (n, f) fs -> objects vfs mut data0 n e -> dget n pd = None) /\
    (forall y, (forall f e, In (y, f) fs -> ~ objects vfs mut data0 y e) -> dget y pd = dget y data0).
  Proof.
    intros H.
    assert (D : (exists errs0 data0, loop_data errs0 data0 /\ vfinish errs0 data0 = Raise (XData errs pd))).
    { unfold vres in H. unfold loop_data. destruct (lo_res loop) as [data0|e] eqn:L; [exists [], data0; auto|].
      destruct e; try discriminate. eauto. }
    destruct D as (errs0 & data0 & Hl & Hf).
    unfold vfinish in Hf. destruct (validate_model vfs mut fs data0) as [[d0 e0]|e0] eqn:V; cbn [rbind] in Hf.
    2:{ apply (validate_model_raise _ _ _ Hro _ _ Hnd (loop_data_NoDup _ _ Hl)) in V as (n & f & _ & _ & C).
        injection Hf as ->. discriminate. }
    exists errs0, data0. split; [exact Hl|].
    destruct (dupdate errs0 e0) as [|p l] eqn:U; [discriminate|]. rewrite <- U in Hf. injection Hf as <- <-.
    destruct (validate_model_ok _ _ _ Hro _ _ _ Hnd (loop_data_NoDup _ _ Hl) V) as (K1 & K2 & K3 & K4 & _).
    split; [exact K1|]. split; [intros s; rewrite dkeys_dupdate_in, K4; reflexivity|]. split; [|exact K3].
    intros n f e Hi Ho. now apply (K2 n f e).
  Qed.

  (** validate() returned normally. *)
  Lemma validate_ok m' : model_validate E r c m w = (m', None) ->
    exists data, m' = MD [] [] data hidden_after /\ lo_res loop = Ok data /\
      forall n f e, In (n, f) fs -> ~ objects vfs mut data n e.
  Proof.
    rewrite validate_eq. destruct vres as [data|e] eqn:V; [|destruct e; discriminate].
    intros [= <-]. exists data. split; [reflexivity|]. now apply vres_ok.
  Qed.

  Lemma validate_ok_value m' n f v : model_validate E r c m w = (m', None) -> In (n, f) fs ->
    supplied d n (fd_spec f) (kw_mapping w) = Some v ->
    exists v', cv_field r (fd_spec f) v (field_ctx E x n (fd_spec f)) = Ok v' /\
      chain_get m' n = if is_undef v' then None else Some v'.
  Proof.
    intros H Hi Hs. apply validate_ok in H as (data & -> & L & _).
    assert (Hl : loop_data [] data) by (left; auto).
    pose proof (loop_data_value _ _ n f Hl Hi) as G. unfold chain_get; cbn.
    assert (Hf : forall e, ~ fails E (cv_field r) x d [] n f e).
    { intros e Hf. assert (K : In (public_name n f) (dkeys (@nil (key * errnode)))).
      { apply (loop_data_errs [] data _ Hl). right. exists n, f, e. repeat split; auto. left; reflexivity. }
      destruct K. }
    unfold fails, field_outcome in *. change (cx_mapping x) with (kw_mapping w) in *. rewrite Hs in *.
    unfold candidate in *. cbn [dget] in *.
    destruct (cv_field r (fd_spec f) v (field_ctx E x n (fd_spec f))) as [v'|e].
    - exists v'. split; [reflexivity|]. rewrite G. destruct v'; reflexivity.
    - exfalso. now apply (Hf e).
  Qed.
  Lemma validate_ok_missing m' n f : model_validate E r c m w = (m', None) -> In (n, f) fs ->
    supplied d n (fd_spec f) (kw_mapping w) = None ->
    exists v', cv_field r (fd_spec f) (candidate x (fd_spec f) None) (field_ctx E x n (fd_spec f)) = Ok v' /\
      chain_get m' n = if is_undef v' then None else Some v'.
  Proof.
    intros H Hi Hs. apply validate_ok in H as (data & -> & L & _).
    assert (Hl : loop_data [] data) by (left; auto).
    pose proof (loop_data_value _ _ n f Hl Hi) as G. unfold chain_get; cbn.
    assert (Hf : forall e, ~ fails E (cv_field r) x d [] n f e).
    { intros e Hf. assert (K : In (public_name n f) (dkeys (@nil (key * errnode)))).
      { apply (loop_data_errs [] data _ Hl). right. exists n, f, e. repeat split; auto. left; reflexivity. }
      destruct K. }
    unfold fails, field_outcome in *. change (cx_mapping x) with (kw_mapping w) in *. rewrite Hs in *. cbn [dget] in *.
    destruct (cv_field r (fd_spec f) _ (field_ctx E x n (fd_spec f))) as [v'|e].
    - exists v'. split; [reflexivity|]. rewrite G. destruct v'; reflexivity.
    - exfalso. now apply (Hf e).
  Qed.
  Lemma validate_ok_other m' y : model_validate E r c m w = (m', None) -> ~ In y (dkeys fs) -> chain_get m' y = None.
  Proof.
    intros H Hi. apply validate_ok in H as (data & -> & L & _).
    unfold chain_get; cbn. eapply (loop_data_other []); [left; eauto|exact Hi].
  Qed.

  Lemma visible_supplied n f v : md_unsafe m = [] -> In (n, f) fs -> chain_get m n = Some v ->
    supplied d n (fd_spec f) (kw_mapping w) = Some v.
  Proof.
    intros U Hi G. apply (supplied_first d n (fd_spec f) (kw_mapping w) [] n (tl (accepted_names n (fd_spec f) (kw_mapping w)))).
    - reflexivity.
    - intros z [].
    - rewrite vget. rewrite (proj2 (dmem_In n fs)) by (apply (in_map fst) in Hi; exact Hi).
      replace (chain_get (vbase m) n) with (Some v); [reflexivity|].
      rewrite <- G. unfold chain_get, vbase; cbn. now rewrite U.
  Qed.

  Lemma validate_ok_visible m' n f v : md_unsafe m = [] -> model_validate E r c m w = (m', None) -> In (n, f) fs ->
    chain_get m n = Some v ->
    exists v', cv_field r (fd_spec f) v (field_ctx E x n (fd_spec f)) = Ok v' /\
      chain_get m' n = if is_undef v' then None else Some v'.
  Proof. intros U H Hi G. eapply validate_ok_value; [exact H|exact Hi|]. now apply visible_supplied. Qed.

  Lemma separate_missing n f : md_unsafe m = [] -> separate_names fs (kw_mapping w) ->
    (forall y, ~ In y (dkeys fs) -> dget y (md_converted m) = None) ->
    In (n, f) fs -> chain_get m n = None -> supplied d n (fd_spec f) (kw_mapping w) = None.
  Proof.
    intros U Hs Hc Hi G. unfold supplied.
    destruct (find (fun y => dmem y d) (accepted_names n (fd_spec f) (kw_mapping w))) as [y|] eqn:Fy; [|reflexivity].
    exfalso. apply find_some in Fy as [H1 H2]. apply dmem_true_dget in H2 as (v & H2). rewrite vget in H2.
    assert (Bg : forall z, chain_get (vbase m) z = chain_get m z) by (intros z; unfold chain_get, vbase; cbn; now rewrite U).
    destruct (dmem y fs) eqn:My.
    - apply dmem_true_dget in My as (f' & My). apply dget_In in My.
      pose proof (Hs n f y f' Hi My H1) as ->. rewrite Bg, G in H2.
      unfold chain_get in G. rewrite U in G. cbn in G. destruct (dget n (md_converted m)); [discriminate|].
      rewrite U in H2. discriminate.
    - rewrite Hc in H2 by (now apply dmem_nIn). rewrite U in H2. discriminate.
  Qed.

  (** validate() raised DataError. *)
  Lemma validate_fail m' errs pd : model_validate E r c m w = (m', Some (XData errs pd)) ->
    vres = Raise (XData errs pd) /\ m' = MD [] [] (dupdate (md_valid m) pd) hidden_after.
  Proof.
    rewrite validate_eq. destruct vres as [data|e] eqn:V; [discriminate|].
    destruct e; intros [=]; subst; auto.
  Qed.
  Lemma validate_fail_reads m' errs pd y : model_validate E r c m w = (m', Some (XData errs pd)) ->
    md_unsafe m' = [] /\ md_converted m' = [] /\
    chain_get m' y = match dget y pd with Some v => Some v | None => dget y (md_valid m) end.
  Proof.
    intros H. apply validate_fail in H as [V ->]. split; [reflexivity|]. split; [reflexivity|].
    unfold chain_get; cbn. apply vres_fail in V as (_ & _ & _ & K & _). now rewrite dget_dupdate.
  Qed.
  Lemma validate_fail_field m' errs pd n f e : model_validate E r c m w = (m', Some (XData errs pd)) ->
    In (n, f) fs -> fails E (cv_field r) x d [] n f e ->
    (forall er p, e <> XData er p) -> (kw_apply_defaults w = false \/ fo_default (fs_opts (fd_spec f)) = VUndef) ->
    chain_get m' n = dget n (md_valid m) /\ In (public_name n f) (dkeys errs).
  Proof.
    intros H Hi Hf He Hdf.
    destruct (validate_fail_reads _ _ _ n H) as (_ & _ & ->).
    apply validate_fail in H as [V ->].
    apply vres_fail in V as (errs0 & data0 & Hl & K1 & K2 & K3 & K4).
    assert (G : dget n data0 = None).
    { rewrite (loop_data_value _ _ n f Hl Hi). unfold fails in Hf. rewrite Hf. cbn. unfold fallback.
      change (cx_apply_defaults x) with (kw_apply_defaults w).
      destruct e; try (destruct Hdf as [->| ->]; [reflexivity|destruct (kw_apply_defaults w); reflexivity]).
      exfalso; eapply He; reflexivity. }
    split.
    - replace (dget n pd) with (@None pyval); [reflexivity|]. rewrite K4; [auto|].
      intros f' e' _ (v & vf & Gv & _). congruence.
    - apply K2. left. apply (loop_data_errs _ _ _ Hl). right. exists n, f, e. repeat split; auto. left; reflexivity.
  Qed.
  Lemma validate_crash m' e y : model_validate E r c m w = (m', Some e) -> (forall er p, e <> XData er p) ->
    chain_get m' y = dget y (md_valid m).
  Proof.
    rewrite validate_eq. destruct vres as [data|e'] eqn:V; [discriminate|].
    destruct e'; intros [= <- <-] He; try reflexivity. exfalso; eapply He; reflexivity.
  Qed.
End Validate.

(** Everything readable after a successful validation has passed its validators. *)
Lemma validate_all_passed E j c m w m' n f v :
  NoDup (dkeys (fields_of E c)) -> plain_fields (fields_of E c) -> defined_layers m ->
  NoDup (dkeys (md_converted m)) -> (md_converted m <> [] \/ kw_partial w = false) ->
  readonly_validators (mc_validators (e_class E c)) ->
  kw_convert w = true ->
  model_validate E (conv_at E (S (S j))) c m w = (m', None) ->
  In (n, f) (fields_of E c) -> not_union (fd_spec f) -> chain_get m' n = Some v ->
  v = VNone \/ forall g, In g (fo_validators (fs_opts (fd_spec f))) -> passes g v.
Proof.
  intros Hnd Hp Hd Hk Hr Hro Hc H Hi Hu G.
  assert (X : forall u, cv_field (conv_at E (S (S j))) (fd_spec f) u (field_ctx E (vctx m w) n (fd_spec f)) = Ok v ->
     v = VNone \/ v = VUndef \/ forall g, In g (fo_validators (fs_opts (fd_spec f))) -> passes g v).
  { intros u Hf. apply field_validated in Hf as [[Hn ->]|Hf]; auto.
    - destruct u; try discriminate; auto.
    - unfold field_ctx. destruct (is_compound _); reflexivity.
    - unfold field_ctx. destruct (is_compound _); cbn; now rewrite Hc. }
  assert (Y : exists u, cv_field (conv_at E (S (S j))) (fd_spec f) u (field_ctx E (vctx m w) n (fd_spec f)) = Ok v /\ v <> VUndef).
  { destruct (supplied (vinput E c m) n (fd_spec f) (kw_mapping w)) as [u|] eqn:S.
    - destruct (validate_ok_value E _ c m w Hnd Hp Hd Hk Hr Hro m' n f u H Hi S) as (v' & V & G').
      rewrite G in G'. destruct (is_undef v') eqn:U; [discriminate|]. injection G' as ->.
      exists u. split; [exact V|]. destruct v'; discriminate.
    - destruct (validate_ok_missing E _ c m w Hnd Hp Hd Hk Hr Hro m' n f H Hi S) as (v' & V & G').
      rewrite G in G'. destruct (is_undef v') eqn:U; [discriminate|]. injection G' as ->.
      eexists. split; [exact V|]. destruct v'; discriminate. }
  destruct Y as (u & Y & Yu). destruct (X u Y) as [?|[?|?]]; [auto|contradiction|auto].
Qed.
