(** Nested models are handled like models on their own. *)
From Verif.Model Require Import Py Core Export Api.
From Verif.Spec Require Import ImportSpec CompoundSpec NestedSpec.
From Verif.Proofs Require Import DictLemmas ApiLemmas ImportLemmas ImportApi CompoundLemmas PolyLemmas.

Definition sub_of (mp : mapping) (n : key) : mapping :=
  match map_models mp with [] => no_mapping | mm => match dget n mm with Some s => s | None => mp end end.
Lemma sub_spec mp n s : nested_mapping mp n s -> sub_of mp n = s.
Proof. unfold sub_of. change (map_models mp) with (nested_mappings mp). intros [H|s' H]; [now rewrite H|]. destruct (nested_mappings mp); [discriminate H|]. now rewrite H. Qed.
Lemma field_ctx_sub E w tr n f : is_compound f = true ->
  field_ctx E (kw_ctx w tr) n f = kw_ctx (with_mapping w (sub_of (kw_mapping w) n)) (nested_td E (kw_ctx w tr) n).
Proof.
  intros H. unfold field_ctx. rewrite H. unfold branch, kw_ctx, nested_map, sub_of. cbn.
  destruct (map_models (kw_mapping w)) as [|p mm]; [reflexivity|]. destruct (dget n (p :: mm)); reflexivity.
Qed.
Lemma td_none E w td n : kw_recursive w = false \/ td = [] -> nested_td E (kw_ctx w (VDict td)) n = VDict [].
Proof. unfold nested_td. cbn. intros [->| ->]; [now rewrite andb_false_r|reflexivity]. Qed.

(** Constructing from a dictionary inside is constructing it outside. *)
Lemma new_is_init E k c v w : kw_validate w = false ->
  model_new E (cv_field (conv_at E k)) (cv_pre (conv_at E k)) c (VDict v) (kw_ctx w (VDict [])) =
  rbind (model_init E (conv_at E k) c (VDict v) (VDict []) w) (fun m => Ok (VModel c m)).
Proof.
  intros Hv. unfold model_new, model_init, model__convert. cbn [cx_validate kw_ctx]. rewrite Hv.
  cbn [truthy nonempty py_dict md_unsafe md_converted].
  destruct v as [|p v]; cbn [nonempty rbind].
  - unfold md_empty. rewrite import_loop_no_validate_mut by exact Hv.
    destruct (lo_res _) as [data|e]; reflexivity.
  - unfold md_empty. rewrite import_loop_no_validate_mut by exact Hv.
    destruct (lo_res _) as [data|e]; reflexivity.
Qed.
Lemma cvf_model E k f c v x : fs_type f = TModel c -> cx_validate x = false -> cx_convert x = true -> cx_oo x = true ->
  cv_field (conv_at E (S (S k))) f (VDict v) x = model_new E (cv_field (conv_at E k)) (cv_pre (conv_at E k)) c (VDict v) x.
Proof.
  intros Ht Hv Hc Ho. change (cv_field (conv_at E (S (S k))) f (VDict v) x) with (field_step (conv_at E (S k)) f (VDict v) x).
  unfold field_step, check_required. change (is_nil (VDict v)) with false. rewrite andb_false_r, Hv. cbn [andb].
  change (cv_convert (conv_at E (S k)) f (VDict v) x) with (convert_step E (conv_at E k) f (VDict v) x).
  unfold convert_step. rewrite Ht. unfold model_convert. now rewrite Hc, Ho.
Qed.
Lemma cvf_list E k f g v x : fs_type f = TList g -> cx_validate x = false ->
  cv_field (conv_at E (S (S k))) f (VList v) x = list_convert E (cv_field (conv_at E k)) g (VList v) x.
Proof.
  intros Ht Hv. change (cv_field (conv_at E (S (S k))) f (VList v) x) with (field_step (conv_at E (S k)) f (VList v) x).
  unfold field_step, check_required. change (is_nil (VList v)) with false. rewrite andb_false_r, Hv. cbn [andb].
  change (cv_convert (conv_at E (S k)) f (VList v) x) with (convert_step E (conv_at E k) f (VList v) x).
  unfold convert_step. now rewrite Ht.
Qed.
Lemma field_eq E k f c v w n td :
  fs_type f = TModel c -> kw_validate w = false -> kw_convert w = true -> kw_recursive w = false \/ td = [] ->
  cv_field (conv_at E (S (S k))) f (VDict v) (field_ctx E (kw_ctx w (VDict td)) n f) =
  rbind (model_init E (conv_at E k) c (VDict v) (VDict []) (with_mapping w (sub_of (kw_mapping w) n))) (fun m => Ok (VModel c m)).
Proof.
  intros Ht Hv Hc Hr. rewrite field_ctx_sub by (unfold is_compound; now rewrite Ht). rewrite td_none by exact Hr.
  rewrite (cvf_model E k f c) by (assumption || reflexivity). now apply new_is_init.
Qed.

Section N.
  Context (E : env) (k : nat) (c : cid) (d td : list (key * pyval)) (w : kwargs) (n : key) (f : field) (c' : cid).
  Hypothesis Hd : defined_dict d.
  Hypothesis Hn : NoDup (dkeys (fields_of E c)).
  Hypothesis Hv : kw_validate w = false.
  Hypothesis Hc : kw_convert w = true.
  Hypothesis Hr : kw_recursive w = false \/ td = [].
  Hypothesis Hi : In (n, f) (fields_of E c).
  Hypothesis Hs : has_setter f = false.
  Context (mp : mapping).
  Hypothesis Hm : nested_mapping (kw_mapping w) n mp.

  Theorem nested_constructed v m : fs_type (fd_spec f) = TModel c' ->
    supplied d n (fd_spec f) (kw_mapping w) = Some (VDict v) ->
    model_init E (conv_at E (S (S k))) c (VDict d) (VDict td) w = Ok m ->
    exists m', model_init E (conv_at E k) c' (VDict v) (VDict []) (with_mapping w mp) = Ok m' /\
      chain_get m n = Some (VModel c' m').
  Proof.
    intros Ht Hsup H. destruct (init_value_supplied E _ c d td w Hd Hn Hv m n f (VDict v) H Hi Hs Hsup) as (v' & Hf & Hg).
    rewrite (field_eq E k (fd_spec f) c' v w n td Ht Hv Hc Hr), (sub_spec _ _ _ Hm) in Hf.
    destruct (model_init E (conv_at E k) c' (VDict v) (VDict []) (with_mapping w mp)) as [m'|e]; [|discriminate].
    cbn in Hf. injection Hf as <-. exists m'. split; [reflexivity|]. now apply Hg.
  Qed.
  Theorem nested_failure v e : fs_type (fd_spec f) = TModel c' ->
    supplied d n (fd_spec f) (kw_mapping w) = Some (VDict v) ->
    model_init E (conv_at E k) c' (VDict v) (VDict []) (with_mapping w mp) = Raise e ->
    (forall m, model_init E (conv_at E (S (S k))) c (VDict d) (VDict td) w <> Ok m) /\
    (forall errs pd, model_init E (conv_at E (S (S k))) c (VDict d) (VDict td) w = Raise (XData errs pd) ->
       In (public_name n f) (dkeys errs) /\
       ((forall n' f', In (n', f') (fields_of E c) -> public_name n' f' = public_name n f -> (n', f') = (n, f)) ->
        ~ rogue_key (fields_of E c) (kw_mapping w) d (public_name n f) ->
        dget (public_name n f) errs = Some (err_node e))).
  Proof.
    intros Ht Hsup H.
    assert (Hf : fails E (cv_field (conv_at E (S (S k)))) (kw_ctx w (VDict td)) d td n f e).
    { unfold fails, field_outcome. change (cx_mapping (kw_ctx w (VDict td))) with (kw_mapping w). rewrite Hsup. cbn [candidate].
      rewrite (field_eq E k (fd_spec f) c' v w n td Ht Hv Hc Hr), (sub_spec _ _ _ Hm), H. reflexivity. }
    split.
    - intros m Hok. eapply init_no_failure in Hok; eauto.
    - intros errs pd Hx.
      assert (K : In (public_name n f) (dkeys errs)) by (eapply init_error_keys in Hx; eauto; apply Hx; right; exists n, f, e; auto).
      split; [exact K|]. intros U NR. apply dmem_In in K. apply dmem_true_dget in K as [nd K]. rewrite K.
      destruct (init_payload E _ c d td w Hd Hn Hv errs pd _ nd Hx K) as [(_ & R & _)|(n' & f' & e' & Hi' & Hs' & Hf' & Ep & ->)]; [tauto|].
      specialize (U _ _ Hi' (eq_sym Ep)). injection U as -> ->. unfold fails in *. rewrite Hf in Hf'. now injection Hf' as ->.
  Qed.
  Theorem nested_list g vs m : fs_type (fd_spec f) = TList g -> fs_type g = TModel c' ->
    supplied d n (fd_spec f) (kw_mapping w) = Some (VList (map VDict vs)) ->
    model_init E (conv_at E (S (S (S (S k))))) c (VDict d) (VDict td) w = Ok m ->
    exists ms, Forall2 (fun v m' => model_init E (conv_at E k) c' (VDict v) (VDict []) (with_mapping w mp) = Ok m') vs ms /\
      chain_get m n = Some (VList (map (VModel c') ms)).
  Proof.
    intros Ht Hg Hsup H. destruct (init_value_supplied E _ c d td w Hd Hn Hv m n f _ H Hi Hs Hsup) as (v' & Hf & Hget).
    rewrite field_ctx_sub in Hf by (unfold is_compound; now rewrite Ht). rewrite td_none in Hf by exact Hr.
    rewrite (sub_spec _ _ _ Hm) in Hf.
    rewrite (cvf_list E (S (S k)) _ g) in Hf by assumption.
    apply list_convert_ok in Hf as (l & ws & El & -> & Ha). cbn in El. injection El as <-. specialize (Hget ltac:(discriminate)).
    enough (K : exists ms, Forall2 (fun v m' => model_init E (conv_at E k) c' (VDict v) (VDict []) (with_mapping w mp) = Ok m') vs ms /\ ws = map (VModel c') ms)
      by (destruct K as (ms & K & ->); eauto).
    clear Hget Hsup H. unfold all_convert in Ha. revert ws Ha. induction vs as [|v vs' IH]; intros ws Ha.
    - inversion Ha; subst. exists []. split; [constructor|reflexivity].
    - cbn [map] in Ha. inversion Ha as [|a b la lb H1 H2 E1 E2]; subst. apply IH in H2 as (ms & F & ->).
      rewrite (cvf_model E k g c'), new_is_init in H1 by (assumption || reflexivity).
      destruct (model_init E (conv_at E k) c' (VDict v) (VDict []) (with_mapping w mp)) as [m'|e] eqn:Em; [|discriminate].
      injection H1 as <-. exists (m' :: ms). split; [constructor; [exact Em|exact F]|reflexivity].
  Qed.
End N.

(** ** Importing into nested instances *)
Definition with_trusted (x : ictx) (t : pyval) : ictx :=
  {| cx_trusted := t; cx_mapping := cx_mapping x; cx_partial := cx_partial x; cx_strict := cx_strict x;
     cx_init_values := cx_init_values x; cx_apply_defaults := cx_apply_defaults x; cx_convert := cx_convert x;
     cx_validate := cx_validate x; cx_oo := cx_oo x; cx_recursive := cx_recursive x |}.
Lemma leaf_convert_trusted E k o l v x t :
  cv_convert (conv_at E k) (FS o (TLeaf l)) v (with_trusted x t) = cv_convert (conv_at E k) (FS o (TLeaf l)) v x.
Proof. destruct k as [|k]; reflexivity. Qed.
Lemma leaf_validate_trusted E k o l v x t :
  cv_validate (conv_at E k) (FS o (TLeaf l)) v (with_trusted x t) = cv_validate (conv_at E k) (FS o (TLeaf l)) v x.
Proof.
  destruct k as [|k]; [reflexivity|]. cbn [conv_at conv_step cv_validate]. unfold validate_step. cbn [fs_type cx_convert with_trusted].
  now rewrite leaf_convert_trusted.
Qed.
Lemma leaf_trusted E k f v x t : is_compound f = false -> leaf_members f -> cv_field (conv_at E k) f v (with_trusted x t) = cv_field (conv_at E k) f v x.
Proof.
  intros H L. destruct k as [|k]; [reflexivity|].
  change (field_step (conv_at E k) f v (with_trusted x t) = field_step (conv_at E k) f v x).
  unfold field_step, check_required. cbn [cx_partial cx_validate with_trusted].
  destruct (_ && _ && _); [reflexivity|]. destruct (is_nil v); [reflexivity|].
  destruct f as [o [l|ms|c|p|g|g ck]]; try discriminate H.
  - now rewrite leaf_convert_trusted, leaf_validate_trusted.
  - cbn in L. destruct k as [|k]; [reflexivity|].
    assert (U : union_resolve (fun m u => cv_convert (conv_at E k) m u (with_trusted x t)) ms v =
                union_resolve (fun m u => cv_convert (conv_at E k) m u x) ms v).
    { clear H. induction ms as [|m ms IH]; [reflexivity|]. cbn [union_resolve].
      destruct (L m) as (o' & l' & ->); [now left|]. rewrite leaf_convert_trusted, IH; [reflexivity|].
      intros m Hm. apply L. now right. }
    cbn [conv_at conv_step cv_validate cv_convert]. unfold validate_step, convert_step. cbn [fs_type]. rewrite U. clear U.
    destruct (cx_validate x); [|reflexivity].
    destruct (union_resolve _ ms v) as [[m w]|e] eqn:R; [|reflexivity]. cbn [rbind].
    apply union_In in R as [R _]. destruct (L m R) as (o' & l' & ->). now rewrite leaf_validate_trusted.
Qed.
Lemma fields_trusted E k x t fs got raw : (forall n f, In (n, f) fs -> leaf_members (fd_spec f)) ->
  (forall n f, In (n, f) fs -> nested_td E (with_trusted x t) n = nested_td E x n) ->
  forall s, import_fields E (cv_field (conv_at E k)) (with_trusted x t) got raw fs s = import_fields E (cv_field (conv_at E k)) x got raw fs s.
Proof.
  induction fs as [|[n f] fs IH]; intros HL H s; [reflexivity|]. cbn [import_fields cx_validate with_trusted].
  assert (C : forall v, cv_field (conv_at E k) (fd_spec f) v (field_ctx E (with_trusted x t) n (fd_spec f)) =
                        cv_field (conv_at E k) (fd_spec f) v (field_ctx E x n (fd_spec f))).
  { intros v. unfold field_ctx. destruct (is_compound (fd_spec f)) eqn:Ec; [|apply leaf_trusted; [exact Ec|apply (HL n); now left]].
    rewrite (H n f) by now left. reflexivity. }
  assert (I : import_field E (cv_field (conv_at E k)) (with_trusted x t) got raw n f s = import_field E (cv_field (conv_at E k)) x got raw n f s).
  { unfold import_field. destruct s as [data errors]. cbn [cx_mapping cx_apply_defaults cx_init_values with_trusted].
    destruct (if got && _ then _ else _) as [v1|e]; [|reflexivity]. cbn [rbind]. destruct (is_undef v1 && dmem n data); [reflexivity|].
    destruct got; [|reflexivity]. rewrite C. reflexivity. }
  rewrite I. clear I C. destruct (negb (cx_validate x) && has_setter f); [apply IH; intros; [eapply HL|eapply H]; right; eauto|].
  destruct (import_field _ _ _ _ _ _ _ _) as [s'|e]; [|reflexivity]. cbn [rbind]. apply IH; intros; [eapply HL|eapply H]; right; eauto.
Qed.
Lemma nested_td_model E c m w n f : NoDup (dkeys (fields_of E c)) -> plain_fields (fields_of E c) -> defined_data m ->
  model_items E c m <> [] -> In (n, f) (fields_of E c) ->
  nested_td E (kw_ctx w (VModel c m)) n = nested_td E (kw_ctx w (VDict (model_items E c m))) n.
Proof.
  intros Hnd Hp Hd Hne Hi. unfold nested_td. cbn [cx_trusted cx_recursive kw_ctx].
  assert (T : truthy (VModel c m) = true).
  { cbn. destruct (model_items E c m) as [|[y v] r] eqn:Ei; [congruence|].
    assert (G : dget y (model_items E c m) = Some v) by (rewrite Ei; cbn; now rewrite key_eqb_refl).
    rewrite (model_items_get E c m y) in G by assumption. destruct (dmem y _); [|discriminate]. unfold chain_get in G.
    destruct (md_unsafe m); [|reflexivity]. destruct (md_converted m); [|reflexivity]. destruct (md_valid m); [discriminate|reflexivity]. }
  rewrite T. replace (truthy (VDict (model_items E c m))) with true by (destruct (model_items E c m); [congruence|reflexivity]).
  cbn [andb]. destruct (kw_recursive w); [|reflexivity].
  assert (Hk : In n (dkeys (fields_of E c))) by (apply (in_map fst) in Hi; exact Hi).
  rewrite (model_items_get E c m n) by assumption. replace (dmem n (mc_fields (e_class E c))) with true by (symmetry; now apply dmem_In).
  cbn [py_getitem]. unfold model_getitem. 
  assert (Gf : dget n (mc_fields (e_class E c)) = Some f) by (apply In_dget; assumption).
  rewrite Gf. unfold field_get. destruct (Hp n f Hi) as [-> _].
  destruct (chain_get m n) as [v|] eqn:G; [|reflexivity]. destruct v; try reflexivity. exfalso. now apply (Hd n).
Qed.
Lemma value_after_none x f o old : value_after x f o old = None -> old = None.
Proof.
  unfold value_after, fallback. destruct o as [|v|e]; [auto|discriminate|]. destruct e; try discriminate;
  destruct (cx_apply_defaults x); auto; destruct (fo_default (fs_opts f)); auto; discriminate.
Qed.
Theorem nested_imported E k c m d w n f c' m0 v m' mp :
  defined_dict d -> d <> [] -> NoDup (dkeys (fields_of E c)) -> md_unsafe m = [] -> plain_fields (fields_of E c) -> defined_data m ->
  kw_validate w = false -> kw_convert w = true -> kw_recursive w = true ->
  In (n, f) (fields_of E c) -> fs_type (fd_spec f) = TModel c' -> nested_mapping (kw_mapping w) n mp ->
  chain_get m n = Some (VModel c' m0) -> supplied d n (fd_spec f) (kw_mapping w) = Some (VDict v) ->
  defined_dict v -> v <> [] -> NoDup (dkeys (fields_of E c')) -> md_unsafe m0 = [] -> plain_fields (fields_of E c') -> defined_data m0 ->
  (forall y g, In (y, g) (fields_of E c') -> leaf_members (fd_spec g)) ->
  (exists y, In y (dkeys (fields_of E c')) /\ chain_get m0 y <> None) ->
  model_import_data E (conv_at E (S (S k))) c m (VDict d) w = (m', None) ->
  exists m1 m2, model_import_data E (conv_at E k) c' m0 (VDict v) (with_mapping w mp) = (m2, None) /\
    chain_get m' n = Some (VModel c' m1) /\ forall y, In y (dkeys (fields_of E c')) -> chain_get m1 y = chain_get m2 y.
Proof.
  intros Hd Hne Hnd Hu Hp Hdd Hv Hc Hr Hi Ht Hm Hg Hsup Hdv Hnv Hnd' Hu' Hp' Hdd' HL Hsome H.
  assert (Hne' : model_items E c' m0 <> []).
  { destruct Hsome as (y & Hy & G). intros Z. apply G.
    assert (K : dget y (model_items E c' m0) = chain_get m0 y).
    { rewrite (model_items_get E c' m0 y) by assumption. apply dmem_In in Hy. unfold fields_of in Hy. now rewrite Hy. }
    rewrite <- K, Z. reflexivity. }
  destruct (idata_supplied E _ c m d w Hd Hne Hnd Hv Hu Hp Hdd m' n f (VDict v) H Hi Hsup) as (v' & Hf & Hget).
  rewrite field_ctx_sub in Hf by (unfold is_compound; now rewrite Ht). rewrite (sub_spec _ _ _ Hm) in Hf.
  assert (Htd : nested_td E (kw_ctx w (VDict (model_items E c m))) n = VModel c' m0).
  { unfold nested_td. cbn [cx_trusted cx_recursive kw_ctx]. rewrite Hr.
    assert (Hk : In n (dkeys (fields_of E c))) by (apply (in_map fst) in Hi; exact Hi).
    assert (G : dget n (model_items E c m) = Some (VModel c' m0)).
    { rewrite (model_items_get E c m n) by assumption. apply dmem_In in Hk. unfold fields_of in Hk. now rewrite Hk. }
    replace (truthy (VDict (model_items E c m))) with true by (destruct (model_items E c m); [discriminate G|reflexivity]).
    cbn [andb]. now rewrite G. }
  rewrite Htd in Hf. set (w' := with_mapping w mp) in *.
  rewrite (cvf_model E k (fd_spec f) c') in Hf by (assumption || reflexivity).
  set (x' := kw_ctx w' (VDict (model_items E c' m0))).
  assert (Hv' : kw_validate w' = false) by exact Hv.
  assert (L : lo_res (import_loop E (cv_field (conv_at E k)) (cv_pre (conv_at E k)) (kw_ctx w' (VModel c' m0)) (mc_fields (e_class E c'))
                        (VModel c' md_empty) NoAlias (VDict v)) =
              lo_res (import_loop E (cv_field (conv_at E k)) (cv_pre (conv_at E k)) x' (mc_fields (e_class E c')) (VModel c' m0) NoAlias (VDict v))).
  { rewrite (import_loop_no_validate_alias E _ _ x' _ (VModel c' m0) (VModel c' md_empty) NoAlias NoAlias) by exact Hv'.
    change (kw_ctx w' (VModel c' m0)) with (with_trusted x' (VModel c' m0)).
    assert (Hdict : py_dict E (VModel c' m0) = Ok (model_items E c' m0)) by (now apply model_items_dict).
    assert (T0 : (if truthy (VModel c' m0) then py_dict E (VModel c' m0) else Ok []) = Ok (model_items E c' m0)).
    { rewrite Hdict. destruct (truthy (VModel c' m0)) eqn:Et; [reflexivity|]. exfalso.
      destruct (model_items E c' m0) as [|[y z] r] eqn:Ei; [congruence|].
      assert (G : dget y (model_items E c' m0) = Some z) by (rewrite Ei; cbn; now rewrite key_eqb_refl).
      rewrite (model_items_get E c' m0 y) in G by assumption. destruct (dmem y _); [|discriminate]. unfold chain_get in G.
      cbn in Et. destruct (md_unsafe m0); [|discriminate]. destruct (md_converted m0); [|discriminate]. destruct (md_valid m0); discriminate. }
    unfold import_loop. cbn [cx_trusted with_trusted]. rewrite T0.
    change (cx_trusted x') with (VDict (model_items E c' m0)).
    replace (if truthy (VDict (model_items E c' m0)) then py_dict E (VDict (model_items E c' m0)) else Ok []) with (Ok (model_items E c' m0))
      by (destruct (model_items E c' m0); reflexivity).
    cbn [cx_validate with_trusted]. change (cx_validate x') with (kw_validate w'). rewrite Hv', andb_false_r. cbn [lo_res rbind].
    unfold rogues. cbn [cx_strict cx_mapping with_trusted].
    destruct (if negb _ then _ else _) as [errs|e]; [|reflexivity]. cbn [rbind].
    rewrite fields_trusted; [reflexivity|exact HL|]. intros n1 f1 Hi1. change (with_trusted x' (VModel c' m0)) with (kw_ctx w' (VModel c' m0)).
    now apply (nested_td_model E c' m0 w' n1 f1). }
  unfold model_new in Hf. cbn [truthy] in Hf. replace (nonempty v) with true in Hf by (destruct v; [congruence|reflexivity]).
  cbn [py_dict rbind] in Hf. change (cx_validate (kw_ctx w' (VModel c' m0))) with (kw_validate w') in Hf. rewrite Hv' in Hf.
  rewrite L in Hf. rewrite import_loop_no_validate_mut in Hf by exact Hv'.
  pose proof (idata_eq E (conv_at E k) c' m0 v w' Hdv Hnv Hnd' Hv' Hu' Hp' Hdd') as Q. fold x' in Q.
  destruct (lo_res (import_loop E (cv_field (conv_at E k)) (cv_pre (conv_at E k)) x' (mc_fields (e_class E c')) (VModel c' m0) NoAlias (VDict v))) as [data|e] eqn:Ld;
    [|discriminate Hf].
  cbn [rbind set_converted md_empty] in Hf. injection Hf as <-. specialize (Hget ltac:(discriminate)).
  unfold fields_of in Q. rewrite Ld in Q. 
  eexists _, _. split; [exact Q|]. split; [exact Hget|]. intros y Hy.
  destruct (idata_ok E (conv_at E k) c' m0 v w' Hdv Hnv Hnd' Hv' Hu' Hp' Hdd' _ Q) as (data' & Ld' & _ & G).
  fold x' in Ld'. unfold fields_of in Ld'. rewrite Ld in Ld'. injection Ld' as <-. rewrite G.
  unfold chain_get at 1. cbn. destruct (dget y data) as [z|] eqn:Ez; [reflexivity|].
  apply in_map_iff in Hy as ([y' g] & Ey & Hy). cbn in Ey. subst y'.
  pose proof (data_field E (cv_field (conv_at E k)) (cv_pre (conv_at E k)) x' (fields_of E c') (VModel c' m0) NoAlias v v (model_items E c' m0)
    (idata_eff E c' m0 v w' Hv') Hdv Hnd' (trusted_dict_kw E w' _) data [] y g (or_introl Ld) Hy (idata_handled E c' m0 w' Hp' y g Hy)) as V.
  rewrite Ez in V. symmetry in V. apply value_after_none in V.
  rewrite (model_items_get E c' m0 y) in V by assumption.
  replace (dmem y (mc_fields (e_class E c'))) with true in V; [now rewrite V|].
  symmetry. apply dmem_In. apply (in_map fst) in Hy. exact Hy.
Qed.
