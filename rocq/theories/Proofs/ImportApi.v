(** The import properties at the level of Model(...) and import_data(...). *)
From Verif.Model Require Import Py Core Export Api.
From Verif.Spec Require Import ImportSpec.
From Verif.Proofs Require Import DictLemmas ImportLemmas ApiLemmas.

Section Init.
  Context (E : env) (r : conv) (c : cid) (d td : list (key * pyval)) (w : kwargs).
  Hypothesis Hdef : defined_dict d.
  Hypothesis Hnd : NoDup (dkeys (fields_of E c)).
  Hypothesis Hv : kw_validate w = false.
  Let x := kw_ctx w (VDict td).
  Let fs := fields_of E c.
  Let mut := VModel c (MD [] [] td None).
  Let loop := lo_res (import_loop E (cv_field r) (cv_pre r) x fs mut NoAlias (VDict d)).

  Lemma init_loop : model_init E r c (VDict d) (VDict td) w = rbind loop (fun data => Ok (MD [] data td None)).
  Proof. apply init_plain, Hv. Qed.

  Lemma init_eff : effective_input E x fs mut d d.
  Proof. apply eff_convert; exact Hv. Qed.
  Lemma init_td : trusted_dict E x td.
  Proof. apply trusted_dict_kw. Qed.

  Lemma init_raise e : model_init E r c (VDict d) (VDict td) w = Raise e <-> loop = Raise e.
  Proof. rewrite init_loop. destruct loop; cbn; split; congruence. Qed.
  Lemma init_ok m : model_init E r c (VDict d) (VDict td) w = Ok m <->
    exists data, loop = Ok data /\ m = MD [] data td None.
  Proof.
    rewrite init_loop. destruct loop as [data|e]; cbn; split.
    - intros [= <-]; eauto.
    - intros (data' & [= ->] & ->); reflexivity.
    - discriminate.
    - intros (data' & H & _); discriminate.
  Qed.

  Lemma init_rogue_rejected y : kw_strict w = true -> rogue_key fs (kw_mapping w) d y ->
    (forall m, model_init E r c (VDict d) (VDict td) w <> Ok m) /\
    (forall errs pd, model_init E r c (VDict d) (VDict td) w = Raise (XData errs pd) ->
       dget y errs = Some (NText m_rogue)).
  Proof.
    intros Hs Hr. split.
    - intros m H. apply init_ok in H as (data & Hl & _).
      eapply (success_no_errors E (cv_field r) (cv_pre r) x fs mut NoAlias d d td init_eff Hdef Hnd init_td data y); [exact Hl|].
      left; split; [exact Hs|exact Hr].
    - intros errs pd H. apply init_raise in H.
      eapply (rogue_payload E (cv_field r) (cv_pre r) x fs mut NoAlias d d td init_eff Hdef Hnd init_td); [exact H|exact Hs|exact Hr].
  Qed.

  Lemma init_rogue_only errs pd y : model_init E r c (VDict d) (VDict td) w = Raise (XData errs pd) ->
    dget y errs = Some (NText m_rogue) -> kw_strict w = true /\ rogue_key fs (kw_mapping w) d y.
  Proof.
    intros H G. apply init_raise in H.
    exact (payload_rogue E (cv_field r) (cv_pre r) x fs mut NoAlias d d td init_eff Hdef Hnd init_td _ _ _ H G).
  Qed.

  Definition init_reported (y : key) : Prop :=
    (kw_strict w = true /\ rogue_key fs (kw_mapping w) d y) \/
    exists n f e, In (n, f) fs /\ has_setter f = false /\ fails E (cv_field r) x d td n f e /\ y = public_name n f.

  Lemma handled_init f : handled x f <-> has_setter f = false.
  Proof. unfold handled; cbn. rewrite Hv. intuition discriminate. Qed.

  Lemma init_reported_iff y : reported E (cv_field r) x fs d td y <-> init_reported y.
  Proof.
    unfold reported, init_reported. cbn.
    split; (intros [H|(n & f & e & H)]; [left; exact H|right; exists n, f, e]); rewrite handled_init in *; exact H.
  Qed.

  Lemma init_error_keys errs pd y : model_init E r c (VDict d) (VDict td) w = Raise (XData errs pd) ->
    (In y (dkeys errs) <-> init_reported y).
  Proof.
    intros H. apply init_raise in H. rewrite <- init_reported_iff.
    exact (error_keys E (cv_field r) (cv_pre r) x fs mut NoAlias d d td init_eff Hdef Hnd init_td _ _ y H).
  Qed.

  Lemma init_success_iff :
    (forall n f e, In (n, f) fs -> has_setter f = false -> fails E (cv_field r) x d td n f e -> caught_by_loop e = true) ->
    ((exists m, model_init E r c (VDict d) (VDict td) w = Ok m) <-> (forall y, ~ init_reported y)).
  Proof.
    intros Hc. split.
    - intros (m & H) y. apply init_ok in H as (data & Hl & _). rewrite <- init_reported_iff.
      exact (success_no_errors E (cv_field r) (cv_pre r) x fs mut NoAlias d d td init_eff Hdef Hnd init_td data y Hl).
    - intros Hn.
      destruct (no_errors_success E (cv_field r) (cv_pre r) x fs mut NoAlias d d td init_eff Hdef Hnd init_td) as (data & Hl).
      + intros n f e Hi Hh. apply handled_init in Hh. eauto.
      + intros y. rewrite init_reported_iff. apply Hn.
      + exists (MD [] data td None). apply init_ok. eauto.
  Qed.

  Lemma init_other_exception e : model_init E r c (VDict d) (VDict td) w = Raise e ->
    (forall errs pd, e <> XData errs pd) ->
    exists n f, In (n, f) fs /\ has_setter f = false /\ fails E (cv_field r) x d td n f e /\ caught_by_loop e = false.
  Proof.
    intros H Hx. apply init_raise in H.
    destruct (result_crash E (cv_field r) (cv_pre r) x fs mut NoAlias d d td init_eff Hdef Hnd init_td e H Hx)
      as (n & f & Hi & Hh & Hr). apply handled_init in Hh. exists n, f; tauto.
  Qed.

  Lemma init_payload errs pd y nd : model_init E r c (VDict d) (VDict td) w = Raise (XData errs pd) ->
    dget y errs = Some nd ->
    (kw_strict w = true /\ rogue_key fs (kw_mapping w) d y /\ nd = NText m_rogue) \/
    exists n f e, In (n, f) fs /\ has_setter f = false /\ fails E (cv_field r) x d td n f e /\
      y = public_name n f /\ nd = err_node e.
  Proof.
    intros H G. apply init_raise in H.
    destruct (error_payload E (cv_field r) (cv_pre r) x fs mut NoAlias d d td init_eff Hdef Hnd init_td _ _ _ _ H G)
      as [Hl|(n & f & e & Hi & Hh & Hr)]; [left; exact Hl|right].
    apply handled_init in Hh. exists n, f, e; tauto.
  Qed.

  Lemma init_field_value m n f : model_init E r c (VDict d) (VDict td) w = Ok m ->
    In (n, f) fs -> has_setter f = false ->
    chain_get m n = value_after x (fd_spec f) (field_outcome E (cv_field r) x d td n (fd_spec f)) (dget n td).
  Proof.
    intros H Hi Hs. apply init_ok in H as (data & Hl & ->). unfold chain_get; cbn.
    rewrite (data_field E (cv_field r) (cv_pre r) x fs mut NoAlias d d td init_eff Hdef Hnd init_td data [] n f
               (or_introl Hl) Hi (proj2 (handled_init f) Hs)).
    destruct (value_after _ _ _ _) eqn:V; [reflexivity|].
    unfold value_after in V. destruct (field_outcome _ _ _ _ _ _ _) eqn:O; [assumption|discriminate|].
    exfalso.
    eapply (success_no_errors E (cv_field r) (cv_pre r) x fs mut NoAlias d d td init_eff Hdef Hnd init_td data (public_name n f)); [exact Hl|].
    right. exists n, f, e. repeat split; try assumption. now apply handled_init.
  Qed.

  Lemma init_no_failure m n f e : model_init E r c (VDict d) (VDict td) w = Ok m ->
    In (n, f) fs -> has_setter f = false -> ~ fails E (cv_field r) x d td n f e.
  Proof.
    intros H Hi Hs Hf. apply init_ok in H as (data & Hl & ->).
    eapply (success_no_errors E (cv_field r) (cv_pre r) x fs mut NoAlias d d td init_eff Hdef Hnd init_td data (public_name n f)); [exact Hl|].
    right. exists n, f, e. repeat split; try assumption. now apply handled_init.
  Qed.

  Lemma init_value_supplied m n f v : model_init E r c (VDict d) (VDict td) w = Ok m ->
    In (n, f) fs -> has_setter f = false -> supplied d n (fd_spec f) (kw_mapping w) = Some v ->
    exists v', cv_field r (fd_spec f) v (field_ctx E x n (fd_spec f)) = Ok v' /\
      (v' <> VUndef -> chain_get m n = Some v').
  Proof.
    intros H Hi Hs Hsup.
    pose proof (init_field_value m n f H Hi Hs) as G.
    assert (Hf := fun e => init_no_failure m n f e H Hi Hs).
    unfold fails, field_outcome in *. cbn in Hsup. change (cx_mapping x) with (kw_mapping w) in *. rewrite Hsup in *.
    unfold candidate in *.
    destruct (cv_field r (fd_spec f) v (field_ctx E x n (fd_spec f))) as [v'|e].
    - exists v'. split; [reflexivity|]. intros Hu. destruct v'; try exact G. congruence.
    - exfalso. now apply (Hf e).
  Qed.
  Lemma init_value_trusted m n f t : model_init E r c (VDict d) (VDict td) w = Ok m ->
    In (n, f) fs -> has_setter f = false -> supplied d n (fd_spec f) (kw_mapping w) = None -> dget n td = Some t ->
    chain_get m n = Some t.
  Proof.
    intros H Hi Hs Hsup Ht.
    rewrite (init_field_value m n f H Hi Hs). unfold field_outcome.
    change (cx_mapping x) with (kw_mapping w). rewrite Hsup, Ht. reflexivity.
  Qed.
  Lemma init_value_missing m n f : model_init E r c (VDict d) (VDict td) w = Ok m ->
    In (n, f) fs -> has_setter f = false -> supplied d n (fd_spec f) (kw_mapping w) = None -> dget n td = None ->
    exists v', cv_field r (fd_spec f) (candidate x (fd_spec f) None) (field_ctx E x n (fd_spec f)) = Ok v' /\
      chain_get m n = if is_undef v' then None else Some v'.
  Proof.
    intros H Hi Hs Hsup Ht.
    pose proof (init_field_value m n f H Hi Hs) as G.
    assert (Hf := fun e => init_no_failure m n f e H Hi Hs).
    unfold fails, field_outcome in *. change (cx_mapping x) with (kw_mapping w) in *. rewrite Hsup, Ht in *.
    destruct (cv_field r (fd_spec f) _ (field_ctx E x n (fd_spec f))) as [v'|e].
    - exists v'. split; [reflexivity|]. destruct v'; exact G.
    - exfalso. now apply (Hf e).
  Qed.
  Lemma init_value_other m y : model_init E r c (VDict d) (VDict td) w = Ok m ->
    ~ In y (dkeys fs) -> chain_get m y = dget y td.
  Proof.
    intros H Hy. apply init_ok in H as (data & Hl & ->). unfold chain_get; cbn.
    rewrite (data_other E (cv_field r) (cv_pre r) x fs mut NoAlias d d td init_eff Hdef Hnd init_td data [] y (or_introl Hl) Hy).
    destruct (dget y td); reflexivity.
  Qed.

  Lemma init_partial errs pd n f : model_init E r c (VDict d) (VDict td) w = Raise (XData errs pd) ->
    In (n, f) fs -> has_setter f = false ->
    dget n pd = value_after x (fd_spec f) (field_outcome E (cv_field r) x d td n (fd_spec f)) (dget n td).
  Proof.
    intros H Hi Hs. apply init_raise in H.
    exact (data_field E (cv_field r) (cv_pre r) x fs mut NoAlias d d td init_eff Hdef Hnd init_td pd errs n f
               (or_intror H) Hi (proj2 (handled_init f) Hs)).
  Qed.
  Lemma init_partial_other errs pd y : model_init E r c (VDict d) (VDict td) w = Raise (XData errs pd) ->
    ~ In y (dkeys fs) -> dget y pd = dget y td.
  Proof.
    intros H Hy. apply init_raise in H.
    exact (data_other E (cv_field r) (cv_pre r) x fs mut NoAlias d d td init_eff Hdef Hnd init_td pd errs y (or_intror H) Hy).
  Qed.
End Init.

Lemma init_noninterference E r c d1 d2 td w :
  defined_dict d1 -> defined_dict d2 -> NoDup (dkeys (fields_of E c)) ->
  kw_validate w = false -> kw_strict w = false ->
  (forall y, acceptable (fields_of E c) (kw_mapping w) y -> dget y d1 = dget y d2) ->
  model_init E r c (VDict d1) (VDict td) w = model_init E r c (VDict d2) (VDict td) w.
Proof.
  intros H1 H2 Hn Hv Hs Ha. rewrite !init_plain by assumption. f_equal.
  eapply import_noninterference; try eassumption. apply trusted_dict_kw.
Qed.

Lemma import_data_noninterference E r c m d1 d2 td w :
  defined_dict d1 -> defined_dict d2 -> d1 <> [] -> d2 <> [] -> NoDup (dkeys (fields_of E c)) ->
  kw_validate w = false -> kw_strict w = false -> md_unsafe m = [] -> py_dict E (VModel c m) = Ok td ->
  (forall y, acceptable (fields_of E c) (kw_mapping w) y -> dget y d1 = dget y d2) ->
  model_import_data E r c m (VDict d1) w = model_import_data E r c m (VDict d2) w.
Proof.
  intros H1 H2 Hd1 Hd2 Hn Hv Hs Hu Ht Ha. rewrite !(import_data_plain E r c m _ td) by assumption.
  replace (nonempty d1) with true by (destruct d1; [congruence|reflexivity]).
  replace (nonempty d2) with true by (destruct d2; [congruence|reflexivity]).
  change (mc_fields (e_class E c)) with (fields_of E c).
  rewrite (import_noninterference E (cv_field r) (cv_pre r) (kw_ctx w (VDict td)) (fields_of E c)
             (VModel c m) (VModel c m) NoAlias NoAlias d1 d2 td); try assumption; try reflexivity.
  apply trusted_dict_kw.
Qed.

(** Atomicity. *)
Lemma convert_keeps_data E r c m raw trusted w :
  kw_validate w = false -> md_unsafe m = [] -> fst (model__convert E r c m raw trusted w) = m.
Proof.
  intros Hv Hu. unfold model__convert.
  destruct (if truthy raw then _ else _) as [d|e]; [|reflexivity].
  rewrite Hu, Hv. cbn [fst]. rewrite import_loop_no_validate_mut by exact Hv. reflexivity.
Qed.
Lemma import_data_atomic E r c m raw w m' e :
  kw_validate w = false -> md_unsafe m = [] ->
  model_import_data E r c m raw w = (m', Some e) -> m' = m.
Proof.
  intros Hv Hu. unfold model_import_data.
  destruct (py_dict E (VModel c m)) as [td|e0]; [|now intros [= -> ->]].
  pose proof (convert_keeps_data E r c m raw (VDict td) w Hv Hu) as H.
  destruct (model__convert E r c m raw (VDict td) w) as [m1 [data|e1]]; cbn in H; subst m1.
  - rewrite Hv. discriminate.
  - now intros [= -> _].
Qed.

(** Frame. *)
Section ImportData.
  Context (E : env) (r : conv) (c : cid) (m : mdata pyval) (d : list (key * pyval)) (w : kwargs).
  Hypothesis Hdef : defined_dict d.
  Hypothesis Hne : d <> [].
  Hypothesis Hnd : NoDup (dkeys (fields_of E c)).
  Hypothesis Hv : kw_validate w = false.
  Hypothesis Hu : md_unsafe m = [].
  Hypothesis Hp : plain_fields (fields_of E c).
  Hypothesis Hdd : defined_data m.
  Let fs := fields_of E c.
  Let td := model_items E c m.
  Let x := kw_ctx w (VDict td).
  Let mut := VModel c m.
  Let loop := lo_res (import_loop E (cv_field r) (cv_pre r) x fs mut NoAlias (VDict d)).

  Lemma idata_td : py_dict E (VModel c m) = Ok td.
  Proof. apply model_items_dict; assumption. Qed.
  Lemma idata_eq : model_import_data E r c m (VDict d) w =
    match loop with
    | Ok data => (md_set_converted m (dupdate (md_converted m) data), None)
    | Raise e => (m, Some e)
    end.
  Proof.
    rewrite (import_data_plain E r c m d td) by (try assumption; apply idata_td).
    replace (nonempty d) with true by (destruct d; [congruence|reflexivity]). reflexivity.
  Qed.
  Lemma idata_eff : effective_input E x fs mut d d.
  Proof. apply eff_convert; exact Hv. Qed.
  Lemma idata_trusted : trusted_dict E x td.
  Proof. apply trusted_dict_kw. Qed.
  Lemma idata_handled n f : In (n, f) fs -> handled x f.
  Proof. intros Hi. right. unfold has_setter. destruct (Hp n f Hi) as [_ ->]. reflexivity. Qed.

  Lemma idata_ok m' : model_import_data E r c m (VDict d) w = (m', None) ->
    exists data, loop = Ok data /\ NoDup (dkeys data) /\
      forall n, chain_get m' n = match dget n data with Some v => Some v | None => chain_get m n end.
  Proof.
    rewrite idata_eq. destruct loop as [data|e] eqn:L; [|discriminate]. intros [= <-].
    exists data. split; [reflexivity|].
    assert (Hnd' : NoDup (dkeys data)).
    { eapply result_NoDup with (errs := []); [exact idata_eff|exact Hdef|exact Hnd|exact idata_trusted| |left; exact L].
      apply model_items_NoDup, Hnd. }
    split; [assumption|]. intros n. unfold chain_get; cbn. rewrite Hu. cbn.
    rewrite dget_dupdate by assumption. destruct (dget n data); reflexivity.
  Qed.

  Lemma idata_value m' n f : model_import_data E r c m (VDict d) w = (m', None) -> In (n, f) fs ->
    chain_get m' n = value_after x (fd_spec f) (field_outcome E (cv_field r) x d td n (fd_spec f)) (chain_get m n) /\
    forall e, ~ fails E (cv_field r) x d td n f e.
  Proof.
    intros H Hi. apply idata_ok in H as (data & L & _ & G).
    assert (Hnf : forall e, ~ fails E (cv_field r) x d td n f e).
    { intros e Hf.
      eapply (success_no_errors E (cv_field r) (cv_pre r) x fs mut NoAlias d d td idata_eff Hdef Hnd idata_trusted data (public_name n f)); [exact L|].
      right. exists n, f, e. repeat split; try assumption. now apply (idata_handled n). }
    split; [|exact Hnf].
    assert (Ht : dget n td = chain_get m n).
    { unfold td. rewrite model_items_get by assumption.
      replace (dmem n (mc_fields (e_class E c))) with true; [reflexivity|].
      symmetry; apply dmem_In. apply (in_map fst) in Hi; exact Hi. }
    rewrite G, (data_field E (cv_field r) (cv_pre r) x fs mut NoAlias d d td idata_eff Hdef Hnd idata_trusted data [] n f
               (or_introl L) Hi (idata_handled n f Hi)), Ht.
    destruct (field_outcome _ _ _ _ _ _ _) eqn:O; cbn.
    - destruct (chain_get m n); reflexivity.
    - reflexivity.
    - exfalso. now apply (Hnf e).
  Qed.

  Lemma idata_other m' y : model_import_data E r c m (VDict d) w = (m', None) -> ~ In y (dkeys fs) ->
    chain_get m' y = chain_get m y.
  Proof.
    intros H Hy. apply idata_ok in H as (data & L & _ & G). rewrite G.
    rewrite (data_other E (cv_field r) (cv_pre r) x fs mut NoAlias d d td idata_eff Hdef Hnd idata_trusted data [] y (or_introl L) Hy).
    unfold td. rewrite model_items_get by assumption.
    replace (dmem y (mc_fields (e_class E c))) with false; [reflexivity|].
    symmetry; now apply dmem_nIn.
  Qed.

  Lemma idata_supplied m' n f v : model_import_data E r c m (VDict d) w = (m', None) -> In (n, f) fs ->
    supplied d n (fd_spec f) (kw_mapping w) = Some v ->
    exists v', cv_field r (fd_spec f) v (field_ctx E x n (fd_spec f)) = Ok v' /\
      (v' <> VUndef -> chain_get m' n = Some v').
  Proof.
    intros H Hi Hs. destruct (idata_value m' n f H Hi) as [G Hf].
    unfold fails, field_outcome in *. change (cx_mapping x) with (kw_mapping w) in *. rewrite Hs in *. unfold candidate in *.
    destruct (cv_field r (fd_spec f) v (field_ctx E x n (fd_spec f))) as [v'|e].
    - exists v'. split; [reflexivity|]. intros Hu'. destruct v'; try exact G. congruence.
    - exfalso. now apply (Hf e).
  Qed.
  Lemma idata_unsupplied m' n f v : model_import_data E r c m (VDict d) w = (m', None) -> In (n, f) fs ->
    supplied d n (fd_spec f) (kw_mapping w) = None -> chain_get m n = Some v -> chain_get m' n = Some v.
  Proof.
    intros H Hi Hs Hc. destruct (idata_value m' n f H Hi) as [G _].
    rewrite G. unfold field_outcome. change (cx_mapping x) with (kw_mapping w). rewrite Hs.
    assert (Ht : dget n td = chain_get m n).
    { unfold td. rewrite model_items_get by assumption.
      replace (dmem n (mc_fields (e_class E c))) with true; [reflexivity|].
      symmetry; apply dmem_In. apply (in_map fst) in Hi; exact Hi. }
    rewrite Ht, Hc. reflexivity.
  Qed.
  Lemma idata_absent m' n f : model_import_data E r c m (VDict d) w = (m', None) -> In (n, f) fs ->
    supplied d n (fd_spec f) (kw_mapping w) = None -> chain_get m n = None ->
    exists v', cv_field r (fd_spec f) (candidate x (fd_spec f) None) (field_ctx E x n (fd_spec f)) = Ok v' /\
      chain_get m' n = if is_undef v' then None else Some v'.
  Proof.
    intros H Hi Hs Hc. destruct (idata_value m' n f H Hi) as [G Hf].
    unfold fails, field_outcome in *. change (cx_mapping x) with (kw_mapping w) in *. rewrite Hs in *.
    assert (Ht : dget n td = chain_get m n).
    { unfold td. rewrite model_items_get by assumption.
      replace (dmem n (mc_fields (e_class E c))) with true; [reflexivity|].
      symmetry; apply dmem_In. apply (in_map fst) in Hi; exact Hi. }
    rewrite Ht, Hc in *.
    destruct (cv_field r (fd_spec f) _ (field_ctx E x n (fd_spec f))) as [v'|e].
    - exists v'. split; [reflexivity|]. destruct v'; exact G.
    - exfalso. now apply (Hf e).
  Qed.
End ImportData.

(** Required fields, library converters. *)
Lemma required_fails E k f v x :
  fo_required (fs_opts f) = true -> is_nil v = true ->
  (fo_named (fs_opts f) = false \/ cx_partial x = false) ->
  cv_field (conv_at E (S k)) f v x = Raise (XConv [m_required]).
Proof.
  intros Hr Hn Hp. cbn. unfold field_step, check_required. rewrite Hr, Hn. cbn.
  destruct Hp as [->| ->]; cbn; [reflexivity|]. now rewrite orb_true_r.
Qed.
Lemma nil_passes E k f v x :
  is_nil v = true ->
  (fo_required (fs_opts f) = false \/ fo_named (fs_opts f) = true /\ cx_partial x = true) ->
  cv_field (conv_at E (S k)) f v x = Ok v.
Proof.
  intros Hn Hp. cbn. unfold field_step, check_required. rewrite Hn.
  destruct Hp as [->|[-> ->]]; cbn; [reflexivity|]. now rewrite andb_false_r.
Qed.

Lemma supplied_first d n f mp pre y post v :
  accepted_names n f mp = pre ++ y :: post -> (forall z, In z pre -> ~ In z (dkeys d)) ->
  dget y d = Some v -> supplied d n f mp = Some v.
Proof.
  intros Ha Hp Hy. unfold supplied. rewrite Ha. clear Ha.
  induction pre as [|z pre IH]; cbn.
  - replace (dmem y d) with true; [assumption|]. symmetry; apply dmem_true_dget; eauto.
  - replace (dmem z d) with false; [|symmetry; apply dmem_nIn, Hp; cbn; auto].
    apply IH. intros; apply Hp; cbn; auto.
Qed.

Lemma init_precedence E r c d td w pre y post m n f v :
    defined_dict d -> NoDup (dkeys (fields_of E c)) -> kw_validate w = false ->
    model_init E r c (VDict d) (VDict td) w = Ok m ->
    In (n, f) (fields_of E c) -> has_setter f = false ->
    accepted_names n (fd_spec f) (kw_mapping w) = pre ++ y :: post ->
    (forall z, In z pre -> ~ In z (dkeys d)) -> dget y d = Some v ->
    exists v', cv_field r (fd_spec f) v (field_ctx E (kw_ctx w (VDict td)) n (fd_spec f)) = Ok v' /\
      (v' <> VUndef -> chain_get m n = Some v').
Proof.
  intros Hd Hn Hv H Hi Hs Ha Hp Hy.
  eapply init_value_supplied; try eassumption. eapply supplied_first; eassumption.
Qed.

Lemma init_required E k0 c d td w m n f :
    defined_dict d -> NoDup (dkeys (fields_of E c)) -> kw_validate w = false ->
    In (n, f) (fields_of E c) -> has_setter f = false -> fo_required (fs_opts (fd_spec f)) = true ->
    kw_partial w = false ->
    (exists v, supplied d n (fd_spec f) (kw_mapping w) = Some v /\ v = VNone) \/
    (supplied d n (fd_spec f) (kw_mapping w) = None /\ dget n td = None /\
       is_nil (candidate (kw_ctx w (VDict td)) (fd_spec f) None) = true) ->
    model_init E (conv_at E (S k0)) c (VDict d) (VDict td) w <> Ok m /\
    (forall errs pd, model_init E (conv_at E (S k0)) c (VDict d) (VDict td) w = Raise (XData errs pd) ->
       In (public_name n f) (dkeys errs)).
Proof.
  intros Hd Hn Hv Hi Hs Hr Hp Hsup.
  assert (Hf : fails E (cv_field (conv_at E (S k0))) (kw_ctx w (VDict td)) d td n f (XConv [m_required])).
  { unfold fails, field_outcome. change (cx_mapping (kw_ctx w (VDict td))) with (kw_mapping w).
    assert (Hpc : forall g, cx_partial (field_ctx E (kw_ctx w (VDict td)) n g) = false).
    { intros g. unfold field_ctx. destruct (is_compound g); exact Hp. }
    destruct Hsup as [(v & -> & ->)|(-> & -> & Hc)]; rewrite required_fails; auto. }
  split.
  - intros H. eapply init_no_failure in H; try eassumption. exact (H Hf).
  - intros errs pd H. eapply init_error_keys in H; try eassumption. apply H.
    right. exists n, f, (XConv [m_required]). auto.
Qed.

