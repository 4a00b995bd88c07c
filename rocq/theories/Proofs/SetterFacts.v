(** Facts about setters run by validation. *)
From Verif.Model Require Import Py Core Api.
From Verif.Spec Require Import CallSpec ImportSpec CompoundSpec ValidateSpec SetterSpec.
From Verif.Proofs Require Import DictLemmas ImportLemmas ApiLemmas ImportApi ValidateLemmas.

Lemma handed_eq r x f v : rbind (cv_field r f v x) (cv_pre r f) = handed r x f v.
Proof. reflexivity. Qed.
Lemma not_undef v : v <> VUndef -> is_undef v = false.
Proof. destruct v; try reflexivity. congruence. Qed.
Lemma not_held E m n : (forall v, ~ holds m n v) -> is_undef (atom_value E (VDict (md_converted m)) n) = true.
Proof.
  intros H. unfold atom_value. cbn [py_getitem]. destruct (dget n (md_converted m)) as [v|] eqn:G; [|reflexivity].
  destruct (is_undef v) eqn:U; [reflexivity|]. exfalso. apply (H v). split; [exact G|]. intros ->. discriminate.
Qed.
Lemma held E m n v : holds m n v -> atom_value E (VDict (md_converted m)) n = v /\ is_undef v = false.
Proof. intros [G N]. unfold atom_value. cbn [py_getitem]. rewrite G. split; [reflexivity|now apply not_undef]. Qed.

Section Mutate.
  Context (E : env) (r : conv) (c : cid) (x : ictx).
  Let run fs m errs :=
    mutate_fields E (cv_field r) (cv_pre r) x AliasConverted fs (VModel c m) (VDict (md_converted m)) errs.

  Lemma run_skip n f fs m errs : fd_set f = None \/ (forall v, ~ holds m n v) -> run ((n, f) :: fs) m errs = run fs m errs.
  Proof using Type.
    intros H. unfold run. cbn [mutate_fields]. destruct (fd_set f) as [s|]; [|reflexivity].
    destruct H as [H|H]; [discriminate|]. now rewrite (not_held E m n H).
  Qed.
  (** One setter. *)
  Lemma run_tried n f fs s v m errs m1 oe : fd_set f = Some s -> holds m n v -> tried r c x s (fd_spec f) m v m1 oe ->
    run ((n, f) :: fs) m errs =
    match oe with
    | None => run fs m1 errs
    | Some e => if caught_by_loop e then run fs m1 (dset (sname_of n (fd_spec f)) (err_node e) errs)
                else match e with
                     | XPy pe => if is_attribute_error pe then run fs m1 errs
                                 else (VModel c m1, VDict (md_converted m1), Raise e)
                     | _ => (VModel c m1, VDict (md_converted m1), Raise e)
                     end
    end.
  Proof using Type.
    intros Hs Hh Ht. unfold run. cbn [mutate_fields]. rewrite Hs. destruct (held E m n v Hh) as [-> ->].
    rewrite handed_eq. destruct Ht as [e He|u m1 oe He S].
    - rewrite He. reflexivity.
    - rewrite He, S. cbn [sync]. destruct oe; reflexivity.
  Qed.
  Lemma settles_run fs m errs m1 errs1 : settles r c x fs m errs m1 errs1 ->
    run fs m errs = (VModel c m1, VDict (md_converted m1), Ok errs1).
  Proof using Type.
    intros H. induction H as [m errs|n f fs m errs m' errs' H _ IH|n f fs s v m errs m1 oe m' errs' Hs Hh Ht Ho _ IH
                             |n f fs s v m errs m1 e m' errs' Hs Hh Ht He _ IH].
    - reflexivity.
    - now rewrite run_skip.
    - rewrite (run_tried _ _ _ _ _ _ _ _ _ Hs Hh Ht). destruct Ho as [->|(e & -> & [-> | ->])]; exact IH.
    - rewrite (run_tried _ _ _ _ _ _ _ _ _ Hs Hh Ht). change (caught_by_loop e) with (collectable e). rewrite He. exact IH.
  Qed.
  Lemma breaks_run fs m e : breaks r c x fs m e -> forall errs, exists m1, run fs m errs = (VModel c m1, VDict (md_converted m1), Raise e).
  Proof using Type.
    intros H. induction H as [n f fs s v m m1 e Hs Hh Ht Hc Hi|n f fs m e H _ IH|n f fs s v m m1 oe e Hs Hh Ht Ho _ IH]; intros errs.
    - rewrite (run_tried _ _ _ _ _ _ _ _ _ Hs Hh Ht). change (caught_by_loop e) with (collectable e). rewrite Hc. exists m1.
      destruct e as [| | | |e|]; try reflexivity. destruct e; try reflexivity; exfalso; apply Hi; [left|right]; reflexivity.
    - rewrite run_skip by assumption. apply IH.
    - rewrite (run_tried _ _ _ _ _ _ _ _ _ Hs Hh Ht). destruct Ho as [->|(e' & -> & [[-> | ->]|Hc])]; [apply IH|apply IH|apply IH|].
      change (caught_by_loop e') with (collectable e'). rewrite Hc. apply IH.
  Qed.
  (** One or the other. *)
  Lemma settles_or_breaks fs : (forall n f, In (n, f) fs -> In (n, f) (mc_fields (e_class E c))) -> proper_setters E c ->
    forall m errs, (exists m1 errs1, settles r c x fs m errs m1 errs1) \/ (exists e, breaks r c x fs m e).
  Proof using Type.
    intros Hin Hp. induction fs as [|[n f] fs IH]; intros m errs; [left; exists m, errs; constructor|].
    assert (IH' := IH (fun n f H => Hin n f (or_intror H))). clear IH.
    destruct (fd_set f) as [s|] eqn:Hs.
    2:{ destruct (IH' m errs) as [(m1 & e1 & H)|(e & H)]; [left; exists m1, e1|right; exists e].
        - apply se_skip; auto.
        - apply br_skip; auto. }
    assert (D : (exists v, holds m n v) \/ forall v, ~ holds m n v).
    { unfold holds. destruct (dget n (md_converted m)) as [v|]; [|right; intros v [[=] _]].
      destruct (is_undef v) eqn:U; [right|left; exists v; split; [reflexivity|intros ->; discriminate]].
      intros v' [[= <-] N]. rewrite (not_undef v N) in U. discriminate. }
    destruct D as [[v Hv]|D].
    2:{ destruct (IH' m errs) as [(m1 & e1 & H)|(e & H)]; [left; exists m1, e1|right; exists e].
        - apply se_skip; auto.
        - apply br_skip; auto. }
    assert (T : exists m1 oe, tried r c x s (fd_spec f) m v m1 oe).
    { destruct (handed r x (fd_spec f) v) as [u|e] eqn:Hh; [|exists m, (Some e); now constructor].
      destruct (Hp n f s (Hin n f (or_introl eq_refl)) Hs m u) as (m1 & H1).
      exists m1, (snd (s (VModel c m) u)). apply (tr_run _ _ _ _ _ _ _ u); [exact Hh|]. rewrite <- H1. now destruct (s (VModel c m) u). }
    destruct T as (m1 & oe & T).
    assert (C : oe = None \/ (exists e, oe = Some e /\ ignored e) \/ (exists e, oe = Some e /\ collectable e = true) \/
                (exists e, oe = Some e /\ collectable e = false /\ ~ ignored e)).
    { destruct oe as [e|]; [right|now left]. destruct (collectable e) eqn:Ce; [right; left; eauto|].
      assert (I : ignored e \/ ~ ignored e).
      { destruct e as [| | | |e|]; try (right; intros [[=]|[=]]; fail).
        destruct e; try (right; intros [[=]|[=]]; fail); [left; now left|left; now right]. }
      destruct I; [left; eauto|right; right; eauto]. }
    destruct C as [->|[(e & -> & Hi)|[(e & -> & Hc)|(e & -> & Hc & Hi)]]].
    - destruct (IH' m1 errs) as [(m2 & e1 & H)|(e & H)]; [left; exists m2, e1|right; exists e].
      + eapply se_done; eauto.
      + eapply br_later; eauto.
    - destruct (IH' m1 errs) as [(m2 & e1 & H)|(e' & H)]; [left; exists m2, e1|right; exists e'].
      + eapply se_done; eauto.
      + eapply br_later; eauto 6.
    - destruct (IH' m1 (dset (public_name n f) (shown_error e) errs)) as [(m2 & e1 & H)|(e' & H)]; [left; exists m2, e1|right; exists e'].
      + eapply se_refused; eauto.
      + eapply br_later; eauto 6.
    - right. exists e. eapply br_here; eauto.
  Qed.
End Mutate.

(** ** Undefined entries *)
Lemma dget_defined_part y d : NoDup (dkeys d) ->
  dget y (defined_part d) = match dget y d with Some VUndef => None | o => o end.
Proof.
  induction d as [|[z v] d IH]; [reflexivity|]. cbn [dkeys map fst]. intros N. inversion N as [|? ? Hz Hd]; subst.
  cbn [defined_part filter snd]. cbn [dget].
  destruct (key_eqb_spec y z) as [->|Hne].
  - destruct (is_undef v) eqn:U; cbn [negb].
    + replace v with VUndef by (destruct v; try discriminate; reflexivity). fold (defined_part d). rewrite IH by assumption.
      replace (dget z d) with (@None pyval); [reflexivity|]. symmetry. now apply dget_None_keys.
    + cbn [dget]. rewrite key_eqb_refl. destruct v; try reflexivity. discriminate.
  - destruct (negb (is_undef v)); [cbn [dget]; destruct (key_eqb_spec y z); [contradiction|]|]; fold (defined_part d); now apply IH.
Qed.
Lemma defined_part_NoDup d : NoDup (dkeys d) -> NoDup (dkeys (defined_part d)).
Proof.
  induction d as [|[z v] d IH]; [auto|]. cbn [dkeys map fst]. intros N. inversion N as [|? ? Hz Hd]; subst.
  cbn [defined_part filter snd]. destruct (negb (is_undef v)); [|now apply IH]. cbn [dkeys map fst]. constructor; [|now apply IH].
  intros Hi. apply Hz. apply in_map_iff in Hi as ([a b] & <- & Hi). apply filter_In in Hi as [Hi _]. now apply (in_map fst) in Hi.
Qed.
Lemma defined_part_defined d : defined_dict (defined_part d).
Proof. intros y H. apply dget_In in H. apply filter_In in H as [_ H]. discriminate. Qed.

Lemma rogue_list_part fs mp d : NoDup (dkeys d) -> (forall y, dget y d = Some VUndef -> In y (dkeys fs)) ->
  rogue_list fs mp (defined_part d) = rogue_list fs mp d.
Proof.
  intros Hd Hu. unfold rogue_list. induction d as [|[y v] l IH]; [reflexivity|].
  cbn [dkeys map fst] in Hd. inversion Hd as [|? ? Hy Hl]; subst.
  assert (IH' : filter (fun y => negb (kmem y (all_input_keys fs mp))) (dkeys (defined_part l)) =
                filter (fun y => negb (kmem y (all_input_keys fs mp))) (dkeys l)).
  { apply IH; [exact Hl|]. intros z Hz. apply Hu. cbn [dget]. destruct (key_eqb_spec z y) as [->|_]; [|exact Hz].
    exfalso. apply Hy. apply dget_In in Hz. now apply (in_map fst) in Hz. }
  clear IH. unfold defined_part. cbn [filter snd]. fold (defined_part l). destruct (is_undef v) eqn:U; cbn [negb].
  - rewrite IH'. cbn [dkeys map fst filter]. replace (kmem y (all_input_keys fs mp)) with true; [reflexivity|].
    symmetry. apply kmem_In, all_input_keys_acceptable.
    assert (I : In y (dkeys fs)) by (apply Hu; cbn [dget]; rewrite key_eqb_refl; destruct v; try discriminate; reflexivity).
    apply in_map_iff in I as ([y' f'] & Ey & I). cbn in Ey. subst y'. exact (acc_name _ _ _ _ I).
  - cbn [dkeys map fst filter]. change (map fst (defined_part l)) with (dkeys (defined_part l)).
    change (map fst l) with (dkeys l). now rewrite IH'.
Qed.

Section Part.
  Context (E : env) (fc : fspec -> pyval -> ictx -> res pyval) (x : ictx) (fs : list (key * field)) (d : list (key * pyval)).
  Hypothesis Hd : NoDup (dkeys d).
  Hypothesis Hu : forall y, dget y d = Some VUndef -> In y (dkeys fs).
  Hypothesis Hs : separate_names fs (cx_mapping x).

  Lemma atom_part n : atom_value E (VDict (defined_part d)) n = atom_value E (VDict d) n.
  Proof using Hd. unfold atom_value. cbn [py_getitem]. rewrite dget_defined_part by assumption. destruct (dget n d) as [[]|]; reflexivity. Qed.
  Lemma mem_part y : dget y d <> Some VUndef -> dmem y (defined_part d) = dmem y d.
  Proof using Hd. intros H. unfold dmem. rewrite dget_defined_part by assumption. destruct (dget y d) as [[]|]; try reflexivity. congruence. Qed.
  Lemma alt_part n f ks : In (n, f) fs -> (forall y, In y ks -> key_true y = true -> In y (accepted_names n (fd_spec f) (cx_mapping x))) ->
    find_alt E (VDict (defined_part d)) n ks = find_alt E (VDict d) n ks.
  Proof using Hd Hu Hs.
    intros Hi. induction ks as [|y ks IH]; intros Hk; cbn [find_alt]; [reflexivity|].
    rewrite IH by (intros z Hz; apply Hk; now right). clear IH.
    destruct (key_true y) eqn:T; [|reflexivity]. destruct (key_eqb_spec y n) as [|Hne]; [reflexivity|]. cbn [negb andb].
    assert (U : dget y d <> Some VUndef).
    { intros U. apply Hne. apply Hu in U. apply in_map_iff in U as ([y' f'] & Ey & U). cbn in Ey. subst y'.
      apply (Hs n f y f' Hi U). apply Hk; [now left|exact T]. }
    cbn [py_contains]. rewrite (mem_part y U). cbn [py_getitem].
    rewrite dget_defined_part by assumption. destruct (dmem y d); [|reflexivity]. destruct (dget y d) as [[]|]; try reflexivity. congruence.
  Qed.
  Lemma input_keys_accepted n f y : In y (input_keys n f (cx_mapping x)) -> key_true y = true -> In y (accepted_names n f (cx_mapping x)).
  Proof using Type.
    unfold input_keys, accepted_names. intros Hy T. destruct Hy as [<-|Hy]; [now left|]. right. apply filter_In. split; [|exact T].
    change (given_names (cx_mapping x)) with (map_keys (cx_mapping x)).
    cbn [app] in Hy. apply in_app_iff in Hy as [Hy|Hy]; apply in_app_iff; [left|right; exact Hy].
    destruct (fo_sname (fs_opts f)) as [s|]; [|destruct Hy]. destruct (key_true s) eqn:K; [exact Hy|destruct Hy].
  Qed.
  Lemma field_part got n f s : In (n, f) fs ->
    import_field E fc x got (VDict (defined_part d)) n f s = import_field E fc x got (VDict d) n f s.
  Proof using Hd Hu Hs.
    intros Hi. unfold import_field. rewrite atom_part.
    rewrite (alt_part n f) by (try assumption; intros y; apply input_keys_accepted). reflexivity.
  Qed.
  Lemma fields_part got gs : (forall p, In p gs -> In p fs) -> forall s,
    import_fields E fc x got (VDict (defined_part d)) gs s = import_fields E fc x got (VDict d) gs s.
  Proof using Hd Hu Hs.
    induction gs as [|[n f] gs IH]; intros Hg s; cbn [import_fields]; [reflexivity|].
    assert (IH' := IH (fun p H => Hg p (or_intror H))). destruct (negb (cx_validate x) && has_setter f); [apply IH'|].
    rewrite field_part by (apply Hg; now left). destruct (import_field E fc x got (VDict d) n f s); cbn [rbind]; [apply IH'|reflexivity].
  Qed.
  Lemma rogues_part errs : rogues E x fs (VDict (defined_part d)) errs = rogues E x fs (VDict d) errs.
  Proof using Hd Hu.
    rewrite !rogues_dict. destruct (cx_strict x); [|reflexivity]. unfold rogue_errors. now rewrite rogue_list_part.
  Qed.
End Part.

(** ** validate() *)
Lemma py_items_keys E v ks l : py_items E v ks = Ok l -> dkeys l = ks.
Proof.
  revert l. induction ks as [|a ks IH]; intros l; cbn [py_items]; [now intros [= <-]|].
  destruct (py_getitem E v a); cbn [rbind]; [|discriminate]. destruct (py_items E v ks) as [l0|]; cbn [rbind]; [|discriminate].
  intros [= <-]. cbn [dkeys map fst]. now rewrite <- (IH l0).
Qed.
Lemma instance_items E c m items : NoDup (dkeys (fields_of E c)) -> py_dict E (VModel c m) = Ok items ->
  NoDup (dkeys items) /\ forall y, In y (dkeys items) -> In y (dkeys (fields_of E c)).
Proof.
  intros Hnd. cbn [py_dict py_keys rbind]. intros H. apply py_items_keys in H. rewrite H. split.
  - now apply model_iter_NoDup.
  - intros y Hy. apply model_iter_In in Hy as (_ & f & Hf & _); [|exact Hnd]. apply dget_In in Hf. now apply (in_map fst) in Hf.
Qed.

Lemma no_keys_nil {A} (l : list (key * A)) : (forall y, ~ In y (dkeys l)) -> l = [].
Proof. destruct l as [|[y a] l]; [reflexivity|]. intros H. exfalso. apply (H y). now left. Qed.

Lemma field_outcome_untrusted E fc x d n f : field_outcome E fc x d [] n f =
  match fc f (candidate x f (supplied d n f (cx_mapping x))) (field_ctx E x n f) with
  | Ok VUndef => Keep
  | Ok w => Store w
  | Raise e => Fail e
  end.
Proof. unfold field_outcome. cbn [dget]. destruct (supplied d n f (cx_mapping x)); reflexivity. Qed.

Section After.
  Context (E : env) (r : conv) (c : cid) (m : mdata pyval) (w : kwargs).
  Let fs := fields_of E c.
  Let vfs := mc_validators (e_class E c).
  Let x := vctx m w.
  Hypothesis Hnd : NoDup (dkeys fs).
  Hypothesis Hun : md_unsafe m = [].
  Hypothesis Hmd : NoDup (dkeys (md_converted m)).
  Hypothesis Hrun : md_converted m <> [] \/ kw_partial w = false.

  Let loop := import_loop E (cv_field r) (cv_pre r) x fs (VModel c m) AliasConverted (VDict (md_converted m)).

  Lemma body_eq : model_validate E r c m w =
    let out := validate_fn E (cv_field r) (cv_pre r) x (e_class E c) (VModel c m) AliasConverted (VDict (md_converted m)) in
    let m1 := match lo_mut out with VModel _ m2 => m2 | _ => m end in
    match lo_res out with
    | Ok data => (MD (md_unsafe m1) [] data (md_hidden (md_set_valid m1 data)), None)
    | Raise (XData errs pd) => (MD (md_unsafe m1) [] (dupdate (md_valid m1) pd) (md_hidden (md_set_valid m1 (dupdate (md_valid m1) pd))), Some (XData errs pd))
    | Raise e => (md_set_converted m1 [], Some e)
    end.
  Proof using Hun Hmd Hrun.
    assert (G : model_validate E r c m w =
      let '(m1, oe) := model_validate_body E r c m w in (md_set_converted m1 [], oe)).
    { unfold model_validate. destruct (md_converted m); [|reflexivity].
      destruct (kw_partial w) eqn:Pw; [|reflexivity]. destruct Hrun; congruence. }
    rewrite G. clear G. rewrite validate_body_eq by assumption. cbn zeta. rewrite Hun.
    replace (vbase m) with m by (unfold vbase; destruct m as [un ? ? ?]; cbn in Hun; now subst un).
    cbn [dupdate]. rewrite dupdate_nil_l by assumption. fold x.
    set (out := validate_fn _ _ _ _ _ _ _ _). destruct (lo_mut out) as [| | | | | | | | | |c1 m1| | | | | | |];
      (destruct (lo_res out) as [data|e]; [reflexivity|destruct e; reflexivity]).
  Qed.

  (** A setter raised something else. *)
  Lemma breaks_validate e : breaks r c x fs m e -> (forall errs pd, e <> XData errs pd) ->
    exists m1, model_validate E r c m w = (m1, Some e).
  Proof using Hun Hmd Hrun.
    intros B Hx. destruct (breaks_run E r c x fs m e B []) as (m1 & R). rewrite body_eq. cbn zeta.
    unfold validate_fn, import_loop. cbn [is_none negb andb].
    change (truthy (cx_trusted x)) with false. change (cx_validate x) with true. cbn match.
    unfold mutate. fold fs. change (mc_fields (e_class E c)) with fs. rewrite R. cbn [lo_res lo_mut rbind].
    destruct e; try (eexists; reflexivity). exfalso. eapply Hx. reflexivity.
  Qed.

  Context (m1 : mdata pyval) (errs1 : list (key * errnode)) (items : list (key * pyval)).
  Hypothesis Hset : settles r c x fs m [] m1 errs1.
  Hypothesis Hwk : well_kept fs m1.
  Hypothesis Hit : py_dict E (VModel c m1) = Ok items.
  Hypothesis Hsep : separate_names fs (kw_mapping w).
  Let d2 := dupdate (md_converted m1) items.
  Let d := settled_data m1 items.
  Let mut := VModel c (MD [] d2 (md_valid m1) (md_hidden m1)).

  Lemma d2_NoDup : NoDup (dkeys d2).
  Proof using Hwk. destruct Hwk as (_ & H & _). unfold d2. now apply NoDup_dupdate. Qed.
  Lemma d2_undef y : dget y d2 = Some VUndef -> In y (dkeys fs).
  Proof using Hwk Hit Hnd.
    destruct Hwk as (_ & _ & H). destruct (instance_items E c m1 items Hnd Hit) as [N K]. unfold d2. rewrite dget_dupdate by assumption.
    destruct (dget y items) as [v|] eqn:G; [|apply H]. intros _. apply K, dget_keys. congruence.
  Qed.
  Let errs2 := errs_before x fs d errs1.
  Lemma settled_loop : lo_mut loop = mut /\
    lo_res loop = finish_import E x (VDict d2) fs (run_outcomes E (cv_field r) x d [] fs ([], errs2)).
  Proof using Hnd Hset Hwk Hit Hsep Hun.
    unfold loop, import_loop. cbn [is_none negb andb].
    change (truthy (cx_trusted x)) with false. change (cx_validate x) with true. cbn match.
    unfold mutate. rewrite (settles_run E r c x fs m [] m1 errs1 Hset). rewrite Hit. cbn [lo_mut lo_res].
    split.
    { unfold mut. cbn [set_converted]. destruct Hwk as (-> & _). reflexivity. }
    fold d2. cbn [rbind]. assert (Hsep' : separate_names fs (cx_mapping x)) by exact Hsep.
    rewrite <- (rogues_part E x fs d2 d2_NoDup d2_undef). change (defined_part d2) with d. rewrite rogues_dict. cbn [rbind].
    rewrite <- (fields_part E (cv_field r) x fs d2 d2_NoDup d2_undef Hsep' true fs (fun p H => H)). change (defined_part d2) with d.
    rewrite (import_fields_outcomes E (cv_field r) x d []); [|apply defined_part_defined|exact Hnd|reflexivity].
    replace (active x fs) with fs; [reflexivity|]. unfold active, handledb. change (cx_validate x) with true. cbn [orb].
    symmetry. clear. induction fs as [|p l IH]; [reflexivity|]. cbn [filter]. now rewrite IH.
  Qed.
  Lemma errs2_In y : In y (dkeys errs2) <-> In y (dkeys errs1) \/ (kw_strict w = true /\ rogue_key fs (kw_mapping w) d y).
  Proof using Type.
    clear Hrun. unfold errs2, errs_before, rogue_errors. change (cx_strict x) with (kw_strict w). change (cx_mapping x) with (kw_mapping w).
    destruct (kw_strict w).
    - rewrite fold_rogue_In, rogue_list_In. tauto.
    - intuition discriminate.
  Qed.

  Hypothesis Hro : readonly_validators vfs.
  Definition hidden_then := match md_hidden m1 with None => Some (md_valid m1) | h => h end.
  Definition settled_result : res (list (key * pyval)) :=
    rbind (run_outcomes E (cv_field r) x d [] fs ([], errs2)) (fun '(data, errs) =>
    rbind (validate_model vfs mut fs data) (fun '(data', e') =>
      match dupdate errs e' with [] => Ok data' | errs' => Raise (XData errs' data') end)).
  Lemma settled_validate : model_validate E r c m w =
    match settled_result with
    | Ok data => (MD [] [] data hidden_then, None)
    | Raise (XData errs pd) => (MD [] [] (dupdate (md_valid m1) pd) hidden_then, Some (XData errs pd))
    | Raise e => (MD [] [] (md_valid m1) (md_hidden m1), Some e)
    end.
  Proof using Hnd Hun Hmd Hrun Hset Hwk Hit Hsep.
    rewrite body_eq. cbn zeta. destruct settled_loop as [L1 L2].
    set (out := validate_fn _ _ _ _ _ _ _ _).
    assert (O1 : lo_mut out = mut) by exact L1.
    assert (O2 : lo_res out = settled_result).
    { unfold out, validate_fn. cbn [lo_res].
      change (import_loop E (cv_field r) (cv_pre r) x (mc_fields (e_class E c)) (VModel c m) AliasConverted (VDict (md_converted m))) with loop.
      rewrite L1, L2. unfold settled_result, finish_import. change (cx_validate x) with true. cbn match.
      destruct (run_outcomes E (cv_field r) x d [] fs ([], errs2)) as [[data errs]|e] eqn:R; cbn [rbind].
      - destruct errs; reflexivity.
      - apply run_outcomes_raise in R as (n & f & _ & _ & C). destruct e; try reflexivity. discriminate. }
    rewrite O1, O2. unfold mut. destruct settled_result as [data|e]; [reflexivity|]. destruct e; reflexivity.
  Qed.

  Lemma settled_data_NoDup data errs : run_outcomes E (cv_field r) x d [] fs ([], errs2) = Ok (data, errs) -> NoDup (dkeys data).
  Proof using Hnd. clear Hrun. intros H. eapply run_outcomes_NoDup; [exact H|]. constructor. Qed.

  Lemma settled_ok m' : model_validate E r c m w = (m', None) ->
    errs1 = [] /\ (kw_strict w = true -> forall y, ~ rogue_key fs (kw_mapping w) d y) /\
    (forall n f, In (n, f) fs -> exists v',
       cv_field r (fd_spec f) (candidate x (fd_spec f) (supplied d n (fd_spec f) (kw_mapping w))) (field_ctx E x n (fd_spec f)) = Ok v' /\
       chain_get m' n = if is_undef v' then None else Some v') /\
    (forall n f e, In (n, f) fs -> ~ objects vfs mut (md_valid m') n e).
  Proof using Hnd Hun Hmd Hrun Hset Hwk Hit Hsep Hro.
    rewrite settled_validate. unfold settled_result.
    destruct (run_outcomes E (cv_field r) x d [] fs ([], errs2)) as [[data errs]|e] eqn:R; cbn [rbind]; [|destruct e; discriminate].
    destruct (validate_model vfs mut fs data) as [[d0 e0]|e0] eqn:V; cbn [rbind]; [|destruct e0; discriminate].
    destruct (dupdate errs e0) as [|p l] eqn:U; [|discriminate]. intros [= <-].
    assert (U' : errs = [] /\ e0 = []).
    { split.
      - destruct errs as [|[y nd] e1]; [reflexivity|].
        assert (K : In y (dkeys (dupdate ((y, nd) :: e1) e0))) by (apply dkeys_dupdate_in; cbn; auto). rewrite U in K. destruct K.
      - destruct e0 as [|[y nd] e2]; [reflexivity|].
        assert (K : In y (dkeys (dupdate errs ((y, nd) :: e2)))) by (apply dkeys_dupdate_in; cbn; auto). rewrite U in K. destruct K. }
    destruct U' as [-> ->].
    pose proof (validate_model_clean _ _ _ Hro _ _ Hnd V) as ->.
    assert (N : forall y, ~ (In y (dkeys errs2) \/ exists n f e, In (n, f) fs /\ fails E (cv_field r) x d [] n f e /\ y = public_name n f)).
    { intros y H. apply (run_outcomes_errors _ _ _ _ _ _ _ _ _ _ y R) in H. exact H. }
    split; [|split; [|split]].
    - apply no_keys_nil. intros y Hy. apply (N y). left. apply errs2_In. now left.
    - intros Hs y Hy. apply (N y). left. apply errs2_In. right. now split.
    - intros n f Hi. pose proof (run_outcomes_data _ _ _ _ _ _ _ _ _ _ n f Hnd R Hi) as G.
      assert (F : forall e, ~ fails E (cv_field r) x d [] n f e) by (intros e He; apply (N (public_name n f)); right; eauto 6).
      unfold fails in F. rewrite field_outcome_untrusted in F, G. change (cx_mapping x) with (kw_mapping w) in *.
      destruct (cv_field r (fd_spec f) (candidate x (fd_spec f) (supplied d n (fd_spec f) (kw_mapping w))) (field_ctx E x n (fd_spec f))) as [v'|e];
        [|destruct (F e eq_refl)].
      exists v'. split; [reflexivity|]. unfold chain_get. cbn [md_unsafe md_converted md_valid dget]. rewrite G.
      destruct v'; reflexivity.
    - intros n f e Hi Ho.
      assert (K : In (public_name n f) (dkeys (@nil (key * errnode)))).
      { apply (validate_model_ok _ _ _ Hro _ _ _ Hnd (settled_data_NoDup _ _ R) V). cbn in Ho. eauto 6. }
      destruct K.
  Qed.

  Lemma settled_fail m' errs pd : model_validate E r c m w = (m', Some (XData errs pd)) ->
    exists data, (forall n f, In (n, f) fs ->
        dget n data = value_after x (fd_spec f) (field_outcome E (cv_field r) x d [] n (fd_spec f)) None) /\
      forall s, In s (dkeys errs) <->
        In s (dkeys errs1) \/ (kw_strict w = true /\ rogue_key fs (kw_mapping w) d s) \/
        (exists n f e, In (n, f) fs /\ fails E (cv_field r) x d [] n f e /\ s = public_name n f) \/
        (exists n f e, In (n, f) fs /\ objects vfs mut data n e /\ s = public_name n f).
  Proof using Hnd Hun Hmd Hrun Hset Hwk Hit Hsep Hro.
    rewrite settled_validate. unfold settled_result.
    destruct (run_outcomes E (cv_field r) x d [] fs ([], errs2)) as [[data errs0]|e] eqn:R; cbn [rbind].
    2:{ apply run_outcomes_raise in R as (n & f & _ & _ & C). destruct e; discriminate. }
    destruct (validate_model vfs mut fs data) as [[d0 e0]|e0] eqn:V; cbn [rbind].
    2:{ apply (validate_model_raise _ _ _ Hro _ _ Hnd (settled_data_NoDup _ _ R)) in V as (n & f & _ & _ & C). destruct e0; discriminate. }
    destruct (dupdate errs0 e0) as [|p l] eqn:U; [discriminate|]. rewrite <- U. intros [= _ <- <-].
    exists data. split.
    - intros n f Hi. exact (run_outcomes_data _ _ _ _ _ _ _ _ _ _ n f Hnd R Hi).
    - intros s. destruct (validate_model_ok _ _ _ Hro _ _ _ Hnd (settled_data_NoDup _ _ R) V) as (_ & _ & _ & K & _).
      rewrite dkeys_dupdate_in, K, (run_outcomes_errors _ _ _ _ _ _ _ _ _ _ s R), errs2_In. clear Hrun. tauto.
  Qed.

  Lemma settled_other m' e : model_validate E r c m w = (m', Some e) -> (forall errs pd, e <> XData errs pd) ->
    exists n f, In (n, f) fs /\
      ((fails E (cv_field r) x d [] n f e /\ collectable e = false) \/ exists data, objects vfs mut data n e /\ mv_caught e = None).
  Proof using Hnd Hun Hmd Hrun Hset Hwk Hit Hsep Hro.
    rewrite settled_validate. unfold settled_result. intros H Hx.
    destruct (run_outcomes E (cv_field r) x d [] fs ([], errs2)) as [[data errs0]|e0] eqn:R; cbn [rbind] in H.
    2:{ apply run_outcomes_raise in R as (n & f & Hi & Hf & C). exists n, f. split; [exact Hi|left].
        destruct e0; try discriminate; injection H as _ <-; now split. }
    destruct (validate_model vfs mut fs data) as [[d0 e0]|e0] eqn:V; cbn [rbind] in H.
    2:{ apply (validate_model_raise _ _ _ Hro _ _ Hnd (settled_data_NoDup _ _ R)) in V as (n & f & Hi & Hf & C). exists n, f. split; [exact Hi|right].
        exists data. destruct e0; try discriminate; injection H as _ <-; now split. }
    destruct (dupdate errs0 e0) as [|p l]; [discriminate|]. injection H as _ <-. exfalso. eapply Hx. reflexivity.
  Qed.
End After.

(** ** Imports *)
Lemma import_settable E r c d td w m n f : defined_dict d -> NoDup (dkeys (fields_of E c)) -> kw_validate w = false ->
  model_init E r c (VDict d) (VDict td) w = Ok m -> In (n, f) (fields_of E c) -> has_setter f = true ->
  dget n (md_converted m) = Some (match dget n d with Some v => v | None => VUndef end).
Proof.
  intros Hd Hnd Hv H Hi Hs. apply init_ok in H as (data & Hl & ->); [|exact Hv]. cbn [md_converted].
  eapply (data_settable E (cv_field r) (cv_pre r) (kw_ctx w (VDict td)) (fields_of E c)).
  - apply eff_convert. exact Hv.
  - exact Hd.
  - exact Hnd.
  - apply trusted_dict_kw.
  - left. exact Hl.
  - exact Hi.
  - unfold handled. cbn [cx_validate kw_ctx]. rewrite Hv, Hs. intuition discriminate.
  Unshelve. exact [].
Qed.
