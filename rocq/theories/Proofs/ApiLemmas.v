(** Model(...), import_data in terms of the import loop. *)
From Verif.Model Require Import Py Core Export Api.
From Verif.Spec Require Import ImportSpec.
From Verif.Proofs Require Import DictLemmas ImportLemmas.

Lemma trusted_dict_kw E w td : trusted_dict E (kw_ctx w (VDict td)) td.
Proof. unfold trusted_dict; cbn. destruct td; reflexivity. Qed.

Lemma truthy_dict d : truthy (VDict d) = nonempty d.
Proof. reflexivity. Qed.

Lemma import_loop_no_validate_mut E fc pre x fs mut a raw :
  cx_validate x = false -> lo_mut (import_loop E fc pre x fs mut a raw) = mut.
Proof.
  intros Hv. unfold import_loop. destruct (if truthy _ then _ else _) as [td|e]; [|reflexivity].
  rewrite Hv, andb_false_r. reflexivity.
Qed.
Lemma import_loop_no_validate_alias E fc pre x fs mut mut' a a' raw :
  cx_validate x = false ->
  lo_res (import_loop E fc pre x fs mut a raw) = lo_res (import_loop E fc pre x fs mut' a' raw).
Proof.
  intros Hv. unfold import_loop. destruct (if truthy _ then _ else _) as [td|e]; [|reflexivity].
  rewrite Hv, andb_false_r. reflexivity.
Qed.

Lemma trusted_norm td : (if truthy (VDict td) then VDict td else VDict []) = VDict td.
Proof. destruct td; reflexivity. Qed.

(** Model._convert on an instance without lazily stored data. *)
Lemma convert_plain E r c m d td w :
  kw_validate w = false -> md_unsafe m = [] ->
  model__convert E r c m (VDict d) (VDict td) w
  = (m, lo_res (import_loop E (cv_field r) (cv_pre r) (kw_ctx w (VDict td)) (mc_fields (e_class E c))
                   (VModel c m) NoAlias (VDict (if nonempty d then d else md_converted m)))).
Proof.
  intros Hv Hu. unfold model__convert. rewrite truthy_dict.
  assert (Hx : cx_validate (kw_ctx w (VDict td)) = false) by (cbn; assumption).
  destruct (nonempty d); cbn [py_dict]; rewrite Hu, Hv, trusted_norm, import_loop_no_validate_mut by assumption.
  - reflexivity.
  - f_equal. apply import_loop_no_validate_alias; assumption.
Qed.

Lemma init_plain E r c d td w :
  kw_validate w = false ->
  model_init E r c (VDict d) (VDict td) w
  = rbind (lo_res (import_loop E (cv_field r) (cv_pre r) (kw_ctx w (VDict td)) (mc_fields (e_class E c))
                   (VModel c (MD [] [] td None)) NoAlias (VDict d)))
          (fun data => Ok (MD [] data td None)).
Proof.
  intros Hv. unfold model_init. rewrite convert_plain by (try assumption; reflexivity).
  replace (if nonempty d then d else md_converted (MD [] [] td None)) with d by (destruct d; reflexivity).
  destruct (lo_res _) as [data|e]; cbn [rbind]; [|reflexivity]. rewrite Hv. reflexivity.
Qed.

Lemma import_data_plain E r c m d td w :
  kw_validate w = false -> md_unsafe m = [] -> py_dict E (VModel c m) = Ok td ->
  model_import_data E r c m (VDict d) w
  = match lo_res (import_loop E (cv_field r) (cv_pre r) (kw_ctx w (VDict td)) (mc_fields (e_class E c))
                   (VModel c m) NoAlias (VDict (if nonempty d then d else md_converted m))) with
    | Ok data => (md_set_converted m (dupdate (md_converted m) data), None)
    | Raise e => (m, Some e)
    end.
Proof.
  intros Hv Hu Ht. unfold model_import_data. rewrite Ht, convert_plain by assumption.
  destruct (lo_res _); [|reflexivity]. now rewrite Hv.
Qed.

(** Keys stay distinct. *)
Lemma apply_outcome_NoDup x n f o data errors data' errors' :
  apply_outcome x n f o (data, errors) = Ok (data', errors') -> NoDup (dkeys data) -> NoDup (dkeys data').
Proof.
  destruct o as [|v|e]; cbn.
  - now intros [= -> ->].
  - intros [= <- <-]. apply NoDup_dset.
  - destruct (caught_by_loop e); [|discriminate]. intros [= <- <-].
    destruct (fallback x f e None); [apply NoDup_dset|auto].
Qed.
Lemma run_outcomes_NoDup E fc x d td fs data errors data' errors' :
  run_outcomes E fc x d td fs (data, errors) = Ok (data', errors') -> NoDup (dkeys data) -> NoDup (dkeys data').
Proof.
  revert data errors; induction fs as [|[n f] fs IH]; intros data errors; cbn [run_outcomes].
  - now intros [= -> ->].
  - destruct (apply_outcome _ _ _ _ _) as [[data1 errors1]|e] eqn:A; cbn [rbind]; [|discriminate].
    intros H Hn. eapply IH; [exact H|]. eapply apply_outcome_NoDup; [exact A|exact Hn].
Qed.
Lemma copy_settable_NoDup E raw fs data : NoDup (dkeys data) -> NoDup (dkeys (copy_settable E raw fs data)).
Proof.
  revert data; induction fs as [|[n f] fs IH]; intros data H; cbn; [assumption|].
  apply IH. destruct (has_setter f); [apply NoDup_dset|]; assumption.
Qed.
Lemma result_NoDup E fc pre x fs mut a d d' td data errs :
  effective_input E x fs mut d d' -> defined_dict d' -> NoDup (dkeys fs) -> trusted_dict E x td ->
  NoDup (dkeys td) ->
  lo_res (import_loop E fc pre x fs mut a (VDict d)) = Ok data \/
  lo_res (import_loop E fc pre x fs mut a (VDict d)) = Raise (XData errs data) ->
  NoDup (dkeys data).
Proof.
  intros Heff Hd Hnd Ht Htd [H|H].
  - eapply run_ok_of_ok in H as (data0 & Hr & ->); try eassumption.
    apply run_outcomes_NoDup in Hr; [|assumption].
    destruct (cx_validate x); [assumption|now apply copy_settable_NoDup].
  - eapply run_ok_of in H as (data0 & Hr & _ & ->); try eassumption.
    apply run_outcomes_NoDup in Hr; [|assumption].
    destruct (cx_validate x); [assumption|now apply copy_settable_NoDup].
Qed.

(** ** Classes without computed fields *)
Lemma plain_no_setters fs : plain_fields fs -> no_setters fs.
Proof. intros H n f Hi. now destruct (H n f Hi). Qed.

Lemma plain_getitem E c m n f v :
  plain_fields (mc_fields (e_class E c)) -> defined_data m ->
  dget n (mc_fields (e_class E c)) = Some f -> chain_get m n = Some v ->
  model_getitem E c m n = Ok v.
Proof.
  intros Hp Hd Hf Hv. unfold model_getitem. rewrite Hf. unfold field_get.
  apply dget_In in Hf. destruct (Hp n f Hf) as [-> _]. rewrite Hv.
  destruct v; try reflexivity. exfalso; now apply (Hd n).
Qed.

Lemma plain_getitem_absent E c m n f :
  plain_fields (mc_fields (e_class E c)) ->
  dget n (mc_fields (e_class E c)) = Some f -> chain_get m n = None ->
  model_getitem E c m n = Raise (XPy EUndefinedValueError).
Proof.
  intros Hp Hf Hv. unfold model_getitem. rewrite Hf. unfold field_get.
  apply dget_In in Hf. destruct (Hp n f Hf) as [-> _]. now rewrite Hv.
Qed.

Lemma model_iter_In E c m n : NoDup (dkeys (mc_fields (e_class E c))) ->
  (In n (model_iter E c m) <-> chain_mem m n = true /\
     exists f, dget n (mc_fields (e_class E c)) = Some f /\ fd_set f = None).
Proof.
  intros Hnd. unfold model_iter. rewrite in_map_iff. split.
  - intros ([y f] & <- & H). apply filter_In in H as [Hi H]. cbn in *.
    apply andb_true_iff in H as [H1 H2]. split; [assumption|]. exists f. split.
    + now apply In_dget.
    + destruct (fd_set f); [discriminate|reflexivity].
  - intros (H1 & f & Hf & Hs). exists (n, f). split; [reflexivity|].
    apply filter_In. split; [now apply dget_In|]. cbn. rewrite H1, Hs. reflexivity.
Qed.

Lemma model_iter_NoDup E c m : NoDup (dkeys (mc_fields (e_class E c))) -> NoDup (model_iter E c m).
Proof.
  unfold model_iter, dkeys. generalize (mc_fields (e_class E c)) as fs.
  induction fs as [|[n f] fs IH]; cbn; [auto|].
  intros H; inversion H as [|? ? H1 H2]; subst.
  destruct (chain_mem m n && is_none_opt (fd_set f)); cbn; [constructor|]; auto.
  intros Hi; apply H1. apply in_map_iff in Hi as ([a b] & <- & Hi).
  apply filter_In in Hi as [Hi _]. apply (in_map fst) in Hi; exact Hi.
Qed.

Lemma py_items_map E v ks (g : key -> pyval) :
  (forall n, In n ks -> py_getitem E v n = Ok (g n)) ->
  py_items E v ks = Ok (map (fun n => (n, g n)) ks).
Proof.
  induction ks as [|n ks IH]; intros H; cbn; [reflexivity|].
  rewrite H by (cbn; auto). cbn. rewrite IH by (intros; apply H; cbn; auto). reflexivity.
Qed.

Lemma dget_map_keys (g : key -> pyval) n ks :
  dget n (map (fun y => (y, g y)) ks) = if kmem n ks then Some (g n) else None.
Proof.
  induction ks as [|y ks IH]; cbn; [reflexivity|].
  destruct (key_eqb_spec n y) as [->|H]; cbn; [reflexivity|exact IH].
Qed.

Lemma model_items_dict E c m :
  NoDup (dkeys (mc_fields (e_class E c))) ->
  plain_fields (mc_fields (e_class E c)) -> defined_data m ->
  py_dict E (VModel c m) = Ok (model_items E c m).
Proof.
  intros Hnd Hp Hd. unfold py_dict, py_keys, rbind, model_items.
  apply py_items_map. intros n Hn. apply model_iter_In in Hn as (H1 & f & Hf & _); [|assumption].
  unfold chain_mem in H1. destruct (chain_get m n) as [v|] eqn:G; [|discriminate].
  cbn. eapply plain_getitem; eassumption.
Qed.

Lemma model_items_get E c m n :
  NoDup (dkeys (mc_fields (e_class E c))) ->
  plain_fields (mc_fields (e_class E c)) ->
  dget n (model_items E c m) = if dmem n (mc_fields (e_class E c)) then chain_get m n else None.
Proof.
  intros Hnd Hp. unfold model_items. rewrite (dget_map_keys (fun x => match chain_get m x with Some v => v | None => VUndef end)).
  destruct (kmem n (model_iter E c m)) eqn:K.
  - apply kmem_In in K. apply model_iter_In in K as (H1 & f & Hf & _); [|assumption].
    unfold dmem. rewrite Hf. unfold chain_mem in H1. destruct (chain_get m n); [reflexivity|discriminate].
  - apply kmem_nIn in K. unfold dmem. destruct (dget n (mc_fields (e_class E c))) as [f|] eqn:Hf; [|reflexivity].
    destruct (chain_get m n) as [v|] eqn:G; [|reflexivity].
    exfalso; apply K. apply model_iter_In; [assumption|]. split.
    + unfold chain_mem. now rewrite G.
    + exists f. split; [exact Hf|]. apply dget_In in Hf. now destruct (Hp n f Hf).
Qed.
Lemma dkeys_model_items E c m : dkeys (model_items E c m) = model_iter E c m.
Proof. unfold model_items, dkeys. rewrite map_map. cbn. apply map_id. Qed.
Lemma model_items_NoDup E c m : NoDup (dkeys (mc_fields (e_class E c))) -> NoDup (dkeys (model_items E c m)).
Proof. intros H. rewrite dkeys_model_items. now apply model_iter_NoDup. Qed.
