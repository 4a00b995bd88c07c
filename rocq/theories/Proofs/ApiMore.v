(** Attribute access, mapping view, serialize, lazy instances, import_data(validate=True). *)
From Verif.Model Require Import Py Core Export Api.
From Verif.Spec Require Import ImportSpec ValidateSpec ApiSpec.
From Verif.Proofs Require Import DictLemmas ImportLemmas ApiLemmas ImportApi ValidateLemmas.

(** ** Assignment *)
Lemma setitem_cases E r c m x v f : ordinary E c x f ->
  model_setitem E r c m x v =
  match cv_pre r (fd_spec f) v with
  | Ok w => (md_set_converted m (dset x w (md_converted m)), None)
  | Raise e => (m, Some e)
  end.
Proof. intros [Hf Hg]. unfold model_setitem. unfold fields_of in Hf. now rewrite Hf, Hg. Qed.

Lemma chain_set m x w y :
  chain_get (md_set_converted m (dset x w (md_converted m))) y =
  match dget y (md_unsafe m) with
  | Some u => Some u
  | None => if key_eqb y x then Some w else chain_get m y
  end.
Proof.
  unfold chain_get, md_set_converted; cbn. destruct (dget y (md_unsafe m)); [reflexivity|].
  rewrite dget_dset. destruct (key_eqb y x); reflexivity.
Qed.

Lemma ordinary_getitem E c m n f : ordinary E c n f ->
  model_getitem E c m n = match chain_get m n with
                          | Some v => if is_undef v then Raise (XPy EUndefinedValueError) else Ok v
                          | None => Raise (XPy EUndefinedValueError)
                          end.
Proof. intros [Hf Hg]. unfold model_getitem, field_get. unfold fields_of in Hf. now rewrite Hf, Hg. Qed.

Lemma set_reads E r c m x v f m' : ordinary E c x f -> dget x (md_unsafe m) = None ->
  model_setitem E r c m x v = (m', None) ->
  exists w, cv_pre r (fd_spec f) v = Ok w /\ chain_get m' x = Some w /\
    (w <> VUndef -> model_getitem E c m' x = Ok w).
Proof.
  intros Ho Hu. rewrite (setitem_cases _ _ _ _ _ _ _ Ho). destruct (cv_pre r (fd_spec f) v) as [w|e]; [|discriminate].
  intros [= <-]. exists w. split; [reflexivity|].
  assert (G : chain_get (md_set_converted m (dset x w (md_converted m))) x = Some w).
  { rewrite chain_set, Hu, key_eqb_refl. reflexivity. }
  split; [exact G|]. intros Hw. rewrite (ordinary_getitem _ _ _ _ _ Ho), G. destruct w; try reflexivity. congruence.
Qed.

Lemma set_others E r c m x v f m' oe y g : ordinary E c x f -> ordinary E c y g -> y <> x ->
  model_setitem E r c m x v = (m', oe) ->
  model_getitem E c m' y = model_getitem E c m y.
Proof.
  intros Ho Hy Hn. rewrite (setitem_cases _ _ _ _ _ _ _ Ho). destruct (cv_pre r (fd_spec f) v) as [w|e].
  - intros [= <- _]. rewrite !(ordinary_getitem _ _ _ _ _ Hy), chain_set.
    apply key_eqb_neq in Hn. rewrite Hn. unfold chain_get. destruct (dget y (md_unsafe m)); reflexivity.
  - now intros [= <- _].
Qed.

Lemma set_failed E r c m x v f m' e : ordinary E c x f ->
  model_setitem E r c m x v = (m', Some e) -> m' = m /\ cv_pre r (fd_spec f) v = Raise e.
Proof.
  intros Ho. rewrite (setitem_cases _ _ _ _ _ _ _ Ho). destruct (cv_pre r (fd_spec f) v) as [w|e0]; [discriminate|].
  intros [= <- <-]. auto.
Qed.

Lemma pre_init E r c d :
  model_new E (cv_field r) (cv_pre r) c (VDict d) default_ctx =
  rbind (model_init E r c (VDict d) (VDict []) (KW no_mapping true true true true true false false))
        (fun m => Ok (VModel c m)).
Proof.
  rewrite init_plain by reflexivity.
  change (kw_ctx (KW no_mapping true true true true true false false) (VDict [])) with default_ctx.
  unfold model_new. cbn [py_dict].
  replace (if truthy (VDict d) then Ok d else Ok []) with (Ok d) by (destruct d; reflexivity).
  cbn [rbind default_ctx cx_validate].
  rewrite import_loop_no_validate_mut by reflexivity.
  rewrite (import_loop_no_validate_alias E (cv_field r) (cv_pre r) default_ctx _ _ (VModel c (MD [] [] [] None)) _ NoAlias) by reflexivity.
  destruct (lo_res _); reflexivity.
Qed.

Lemma pre_stored E j f v w : cv_pre (conv_at E (S j)) f v = Ok w <-> stored_form E (conv_at E j) (fs_type f) v w.
Proof.
  cbn [conv_at conv_step cv_pre]. unfold pre_step. destruct (fs_type f) as [l|ms|c|p|g|g ck].
  all: try (split; [intros [= ->]; constructor; congruence|intros H; inversion H; subst; congruence]).
  split.
  - destruct v; try discriminate.
    + intros [= <-]. apply st_none.
    + rewrite pre_init. destruct (model_init _ _ _ _ _ _) as [m|e] eqn:I; [|discriminate].
      intros [= <-]. now apply st_dict.
    + intros [= <-]. apply st_inst.
  - intros H; inversion H; subst.
    + exfalso. now apply (H0 c).
    + reflexivity.
    + reflexivity.
    + rewrite pre_init. match goal with H : model_init _ _ _ _ _ _ = Ok _ |- _ => rewrite H end. reflexivity.
Qed.

(** ** Deletion *)
Lemma delitem_cases E c m x f : ordinary E c x f -> model_delitem E c m x = md_del m x.
Proof. intros [Hf Hg]. unfold model_delitem. unfold fields_of in Hf. now rewrite Hf, Hg. Qed.

Lemma del_reads E c m x f m' oe : ordinary E c x f -> proper m -> unvalidated m ->
  model_delitem E c m x = (m', oe) -> chain_get m' x = None.
Proof.
  intros Ho (P1 & P2 & P3) Hh. rewrite (delitem_cases _ _ _ _ _ Ho). unfold md_del. rewrite Hh.
  intros [= <- _]. unfold chain_get; cbn. now rewrite !dget_ddel_eq.
Qed.
Lemma del_outcome E c m x f m' oe : ordinary E c x f -> unvalidated m ->
  model_delitem E c m x = (m', oe) ->
  (chain_get m x <> None -> oe = None) /\ (chain_get m x = None -> oe = Some (XPy EKeyError) /\ m' = m).
Proof.
  intros Ho Hh. rewrite (delitem_cases _ _ _ _ _ Ho). unfold md_del. rewrite Hh.
  intros [= <- <-]. unfold chain_get, dmem.
  split.
  - destruct (dget x (md_unsafe m)); [now rewrite orb_true_r|].
    destruct (dget x (md_converted m)); [now rewrite orb_true_r|].
    destruct (dget x (md_valid m)); [reflexivity|congruence].
  - destruct (dget x (md_unsafe m)) eqn:G1; [discriminate|].
    destruct (dget x (md_converted m)) eqn:G2; [discriminate|]. intros G3. rewrite G3. split; [reflexivity|].
    unfold unvalidated in Hh. destruct m as [u c0 vd h]; cbn in *. subst h. f_equal; apply ddel_notin; now apply dget_None_keys.
Qed.
Lemma del_chain_other m x y : y <> x -> chain_get (fst (md_del m x)) y = chain_get m y.
Proof.
  intros H. unfold md_del, chain_get; cbn. rewrite !dget_ddel_neq by assumption.
  destruct (dget y (md_unsafe m)); [reflexivity|]. destruct (dget y (md_converted m)); [reflexivity|].
  destruct (md_hidden m); [reflexivity|]. now apply dget_ddel_neq.
Qed.
Lemma del_others E c m x f m' oe y g : ordinary E c x f -> ordinary E c y g -> y <> x ->
  model_delitem E c m x = (m', oe) -> model_getitem E c m' y = model_getitem E c m y.
Proof.
  intros Ho Hy Hn. rewrite (delitem_cases _ _ _ _ _ Ho). intros H.
  rewrite !(ordinary_getitem _ _ _ _ _ Hy). pose proof (del_chain_other m x y Hn) as G.
  rewrite H in G. cbn in G. now rewrite G.
Qed.

(** After validation the visible data cannot be deleted. *)
Lemma del_validated_chain m h x : md_hidden m = Some h -> md_unsafe m = [] -> md_converted m = [] ->
  chain_get (fst (md_del m x)) x = chain_get m x /\
  snd (md_del m x) = if dmem x h then None else Some (XPy EKeyError).
Proof.
  intros Hh Hu Hc. unfold md_del. rewrite Hh, Hu, Hc. unfold chain_get; cbn. rewrite Hu, Hc.
  destruct (dmem x h); auto.
Qed.
Lemma del_after_validate E r c m w m' x f v :
  NoDup (dkeys (fields_of E c)) -> plain_fields (fields_of E c) -> defined_layers m ->
  NoDup (dkeys (md_converted m)) -> (md_converted m <> [] \/ kw_partial w = false) ->
  readonly_validators (mc_validators (e_class E c)) ->
  model_validate E r c m w = (m', None) -> ordinary E c x f -> model_getitem E c m' x = Ok v ->
  exists m'' oe, model_delitem E c m' x = (m'', oe) /\ model_getitem E c m'' x = Ok v /\
    (unvalidated m -> dget x (md_valid m) = None -> oe = Some (XPy EKeyError)).
Proof.
  intros Hnd Hp Hd Hk Hr Hro H Ho G.
  apply (validate_ok E r c m w Hnd Hp Hd Hk Hr Hro) in H as (data & -> & _ & _).
  rewrite (delitem_cases _ _ _ _ _ Ho).
  destruct (md_del _ x) as [m'' oe] eqn:D. exists m'', oe. split; [reflexivity|].
  assert (exists h, hidden_after m = Some h) as [h Hh].
  { unfold hidden_after. destruct (md_hidden m); eauto. }
  destruct (del_validated_chain (MD [] [] data (hidden_after m)) h x Hh eq_refl eq_refl) as [K1 K2].
  rewrite D in K1, K2. cbn [fst snd] in K1, K2. split.
  - rewrite (ordinary_getitem _ _ _ _ _ Ho) in G. rewrite (ordinary_getitem _ _ _ _ _ Ho). now rewrite K1.
  - intros Hun Hv. unfold hidden_after in Hh. rewrite Hun in Hh. injection Hh as <-.
    unfold dmem in K2. rewrite Hv in K2. exact K2.
Qed.

(** ** The mapping view *)
Lemma subseq_filter {A} (p : A -> bool) l : subseq (filter p l) l.
Proof. induction l as [|a l IH]; cbn; [constructor|]. destruct (p a); now constructor. Qed.
Lemma subseq_map {A B} (g : A -> B) l L : subseq l L -> subseq (map g l) (map g L).
Proof. induction 1; cbn; now constructor. Qed.
Lemma keys_in_order E c m : subseq (model_keys E c m) (dkeys (fields_of E c)).
Proof. unfold model_keys, model_iter. apply (subseq_map fst), subseq_filter. Qed.

Lemma keys_exact E c m n : NoDup (dkeys (fields_of E c)) ->
  (In n (model_keys E c m) <->
   chain_get m n <> None /\ exists f, dget n (fields_of E c) = Some f /\ fd_set f = None).
Proof.
  intros H. unfold model_keys. rewrite model_iter_In by exact H. unfold chain_mem.
  destruct (chain_get m n); split; intros [K1 K2]; split; auto; congruence.
Qed.
Lemma items_keys E c m : map fst (model_items E c m) = model_keys E c m.
Proof. apply dkeys_model_items. Qed.
Lemma items_values E c m : map snd (model_items E c m) = model_values E c m.
Proof. unfold model_items, model_values. rewrite map_map. reflexivity. Qed.
Lemma items_read E c m n v f : ordinary E c n f -> defined_data m -> In (n, v) (model_items E c m) ->
  model_getitem E c m n = Ok v /\ model_get E c m n VNone = Ok v.
Proof.
  intros Ho Hd Hi. unfold model_items in Hi. apply in_map_iff in Hi as (y & [= -> <-] & Hi).
  unfold model_iter in Hi. apply in_map_iff in Hi as ([y g] & E1 & Hi). cbn in E1. subst y.
  apply filter_In in Hi as [_ Hi]. cbn in Hi. apply andb_true_iff in Hi as [Hi _]. unfold chain_mem in Hi.
  assert (G : model_getitem E c m n = Ok (match chain_get m n with Some v => v | None => VUndef end)).
  { rewrite (ordinary_getitem _ _ _ _ _ Ho). destruct (chain_get m n) as [v|] eqn:G; [|discriminate].
    destruct v; try reflexivity. exfalso. now apply (Hd n). }
  split; [exact G|]. destruct Ho as [Hf Hg]. unfold model_getitem in G. unfold model_get. unfold fields_of in Hf.
  rewrite Hf in *. now rewrite G.
Qed.
Lemma contains_keys E c m n : NoDup (dkeys (fields_of E c)) -> plain_fields (fields_of E c) -> defined_data m ->
  (model_contains E c m n = true <-> In n (model_keys E c m)).
Proof.
  intros Hnd Hp Hd. rewrite keys_exact by exact Hnd. unfold model_contains, chain_mem, model_getitem.
  change (mc_fields (e_class E c)) with (fields_of E c).
  destruct (dget n (fields_of E c)) as [f|] eqn:Hf.
  - pose proof (dget_In _ _ _ Hf) as Hi. destruct (Hp n f Hi) as [Hg Hs]. unfold field_get. rewrite Hg. cbn. rewrite orb_false_r.
    destruct (chain_get m n) as [v|] eqn:G.
    + cbn. split; [|intros _; destruct v; try reflexivity; exfalso; now apply (Hd n)].
      intros _. split; [discriminate|]. eauto.
    + cbn. split; [discriminate|]. intros [K _]. congruence.
  - rewrite andb_false_r. cbn. split; [discriminate|]. intros (_ & f & K & _). discriminate.
Qed.
Lemma get_unknown E c m n dflt : ~ In n (dkeys (fields_of E c)) ->
  model_getitem E c m n = Raise (XPy EUnknownFieldError) /\ model_get E c m n dflt = Ok dflt.
Proof.
  intros H. apply dget_None_keys in H. unfold model_getitem, model_get. unfold fields_of in H. now rewrite H.
Qed.
Lemma get_default E c m n f dflt : ordinary E c n f -> chain_get m n = None -> model_get E c m n dflt = Ok dflt.
Proof.
  intros [Hf Hg] G. unfold model_get, field_get. unfold fields_of in Hf. now rewrite Hf, Hg, G.
Qed.

Lemma get_computed E c m n f g dflt : dget n (fields_of E c) = Some f -> fd_get f = Some g ->
  (forall v, g (VModel c m) = Ok v -> model_get E c m n dflt = Ok (if is_undef v then dflt else v)) /\
  (g (VModel c m) = Raise (XPy EAttributeError) \/ g (VModel c m) = Raise (XPy EUndefinedValueError) -> model_get E c m n dflt = Ok dflt) /\
  (forall e, g (VModel c m) = Raise e -> e <> XPy EAttributeError -> e <> XPy EUndefinedValueError -> model_get E c m n dflt = Raise e).
Proof.
  intros Hf Hg. unfold model_get, field_get. unfold fields_of in Hf. rewrite Hf, Hg. split; [|split].
  - intros v ->. destruct v; reflexivity.
  - now intros [-> | ->].
  - intros e -> A B. destruct e as [| | | |e|]; try reflexivity. destruct e; try reflexivity; now destruct A || destruct B.
Qed.
Lemma distinct_cons y l : distinct (y :: l) = if kmem y (distinct l) then distinct l else y :: distinct l.
Proof. reflexivity. Qed.
Lemma distinct_NoDup l : NoDup (distinct l).
Proof.
  induction l as [|y l IH]; [constructor|]. rewrite distinct_cons. destruct (kmem y (distinct l)) eqn:K; [exact IH|].
  constructor; [now apply kmem_nIn|exact IH].
Qed.
Lemma distinct_In l y : In y (distinct l) <-> In y l.
Proof.
  induction l as [|z l IH]; [reflexivity|]. rewrite distinct_cons. destruct (kmem z (distinct l)) eqn:K.
  - apply kmem_In in K. rewrite IH. split; [cbn; auto|]. intros [->|H]; [now apply IH|exact H].
  - cbn. now rewrite IH.
Qed.
Lemma chain_keys m y : chain_get m y <> None <-> In y (dkeys (md_unsafe m) ++ dkeys (md_converted m) ++ dkeys (md_valid m)).
Proof.
  rewrite !in_app_iff, <- !dget_keys. unfold chain_get.
  destruct (dget y (md_unsafe m)); [intuition congruence|].
  destruct (dget y (md_converted m)); intuition congruence.
Qed.
Lemma len_keys E c m : NoDup (dkeys (fields_of E c)) -> plain_fields (fields_of E c) -> declared_only E c m ->
  model_len m = length (model_keys E c m).
Proof.
  intros Hnd Hp Hd. unfold model_len. apply Nat.le_antisymm; apply NoDup_incl_length.
  - apply distinct_NoDup.
  - intros y Hy. apply distinct_In, chain_keys in Hy. apply keys_exact; [exact Hnd|]. split; [exact Hy|].
    apply Hd in Hy. apply dget_keys in Hy. destruct (dget y (fields_of E c)) as [f|] eqn:G; [|congruence].
    exists f. split; [reflexivity|]. apply dget_In in G. now destruct (Hp _ _ G).
  - now apply model_iter_NoDup.
  - intros y Hy. apply keys_exact in Hy as [Hy _]; [|exact Hnd]. now apply distinct_In, chain_keys.
Qed.

(** ** serialize *)
Lemma serialize_validate E r fe c m x :
  model_serialize E r fe c m x =
  let '(m1, oe) := model_validate_body E r c m kw_serialize in
  let m2 := fst (model_validate E r c m kw_serialize) in
  match oe with
  | None | Some (XData _ _) =>
      match model_export_top E fe c m2 x with
      | Ok d => (md_set_converted m2 (md_converted m1), Ok d)
      | Raise e => (m2, Raise e)
      end
  | Some e => (m2, Raise e)
  end.
Proof.
  unfold model_serialize, model_validate. change (kw_partial kw_serialize) with false.
  fold kw_serialize. destruct (model_validate_body E r c m kw_serialize) as [m1 oe].
  destruct (md_converted m); reflexivity.
Qed.
Lemma serialize_exports E r fe c m x m' d : model_serialize E r fe c m x = (m', Ok d) ->
  exists mv oe, model_validate E r c m kw_serialize = (mv, oe) /\
    (oe = None \/ exists errs pd, oe = Some (XData errs pd)) /\
    model_export_top E fe c mv x = Ok d.
Proof.
  rewrite serialize_validate.
  assert (V : snd (model_validate E r c m kw_serialize) = snd (model_validate_body E r c m kw_serialize)).
  { unfold model_validate. change (kw_partial kw_serialize) with false.
    destruct (md_converted m); destruct (model_validate_body _ _ _ _ _); reflexivity. }
  destruct (model_validate_body E r c m kw_serialize) as [m1 oe]. cbn [snd] in V.
  destruct (model_validate E r c m kw_serialize) as [mv oe']. cbn [fst snd] in *. subst oe'.
  intros H. exists mv, oe. split; [reflexivity|].
  destruct oe as [e|].
  - destruct e; try discriminate. split; [eauto|]. destruct (model_export_top E fe c mv x); congruence.
  - split; [auto|]. destruct (model_export_top E fe c mv x); congruence.
Qed.
Lemma serialize_keeps E r fe c m x m' d n f v :
  NoDup (dkeys (fields_of E c)) -> plain_fields (fields_of E c) -> defined_layers m ->
  NoDup (dkeys (md_converted m)) -> md_unsafe m = [] ->
  model_serialize E r fe c m x = (m', Ok d) -> In (n, f) (fields_of E c) -> chain_get m n = Some v ->
  chain_get m' n = Some v.
Proof.
  intros Hnd Hp Hd Hk Hu H Hi G. rewrite serialize_validate in H.
  assert (B : exists vd h, fst (model_validate_body E r c m kw_serialize) = MD [] (vinput E c m) vd h).
  { rewrite validate_body_eq by assumption. cbn zeta. set (out := validate_fn _ _ _ _ _ _ _ _).
    assert (O1 : lo_mut out = vmut E c m) by (exact (vloop_mut E r c m kw_serialize Hnd Hp Hd)).
    rewrite O1. unfold vmut. rewrite Hu.
    destruct (lo_res out) as [dd|[]]; do 2 eexists; reflexivity. }
  destruct B as (vd & h & B).
  destruct (model_validate_body E r c m kw_serialize) as [m1 oe]. cbn [fst] in B. subst m1. cbn [md_converted] in H.
  assert (U2 : md_unsafe (fst (model_validate E r c m kw_serialize)) = []).
  { rewrite (validate_eq E r c m kw_serialize Hnd Hp Hd Hk (or_intror eq_refl)).
    destruct (vres _ _ _ _ _) as [dd|[]]; reflexivity. }
  set (m2 := fst _) in *.
  assert (m' = md_set_converted m2 (vinput E c m)) as ->.
  { destruct oe as [e|]; [destruct e; try discriminate|]; destruct (model_export_top E fe c m2 x); congruence. }
  unfold chain_get, md_set_converted; cbn. rewrite U2. cbn.
  rewrite (vget E c m Hnd Hp Hk n). rewrite (proj2 (dmem_In n _)) by (apply (in_map fst) in Hi; exact Hi).
  replace (chain_get (vbase m) n) with (Some v); [reflexivity|].
  rewrite <- G. unfold chain_get, vbase; cbn. now rewrite Hu.
Qed.

(** ** Lazy instances *)
Lemma lazy_reads E c raw td n f v : ordinary E c n f -> dget n raw = Some v -> v <> VUndef ->
  model_getitem E c (model_init_lazy raw td) n = Ok v.
Proof.
  intros Ho G Hv. rewrite (ordinary_getitem _ _ _ _ _ Ho). unfold chain_get, model_init_lazy; cbn. rewrite G.
  destruct v; try reflexivity. congruence.
Qed.
Lemma lazy_vinput E c raw : vinput E c (model_init_lazy raw []) = raw.
Proof.
  unfold vinput, model_init_lazy; cbn. unfold model_items.
  replace (model_iter E c _) with (@nil key); [reflexivity|]. unfold model_iter, chain_mem, chain_get; cbn.
  induction (mc_fields (e_class E c)) as [|p l IH]; cbn; auto.
Qed.
Lemma lazy_validated E r c raw w m' n f v :
  NoDup (dkeys (fields_of E c)) -> plain_fields (fields_of E c) -> defined_dict raw ->
  readonly_validators (mc_validators (e_class E c)) -> kw_partial w = false ->
  model_validate E r c (model_init_lazy raw []) w = (m', None) -> In (n, f) (fields_of E c) ->
  supplied raw n (fd_spec f) (kw_mapping w) = Some v ->
  exists v', cv_field r (fd_spec f) v (field_ctx E (vctx (model_init_lazy raw []) w) n (fd_spec f)) = Ok v' /\
    chain_get m' n = if is_undef v' then None else Some v'.
Proof.
  intros Hnd Hp Hd Hro Hw H Hi Hs.
  eapply validate_ok_value; try eassumption.
  - split; [exact Hd|]. split; intros y; cbn; congruence.
  - constructor.
  - now right.
  - now rewrite lazy_vinput.
Qed.

(** ** import_data(raw, validate=True) *)
Lemma import_validate_convert E r c m d td w :
  kw_validate w = true -> md_unsafe m = [] -> d <> [] ->
  model__convert E r c m (VDict d) (VDict td) w
  = let out := validate_fn E (cv_field r) (cv_pre r) (kw_ctx w (VDict td)) (e_class E c) (VModel c m) NoAlias (VDict d) in
    (match lo_mut out with VModel _ m2 => m2 | _ => m end, lo_res out).
Proof.
  intros Hv Hu Hd. unfold model__convert. rewrite truthy_dict. destruct d as [|p d]; [congruence|]. cbn [nonempty py_dict].
  rewrite Hu, Hv, trusted_norm. reflexivity.
Qed.

Lemma validate_no_convert_id E j x : cx_convert x = false -> forall f v w,
  cv_validate (conv_at E j) f v x = Ok w -> w = v.
Proof.
  intros Hx. induction j as [|j IH]; intros f v w; [discriminate|].
  cbn [conv_at conv_step cv_validate]. unfold validate_step. rewrite Hx.
  assert (G : forall vs, rbind (if is_compound f then rbind (cv_convert (conv_at E j) f v x) (fun _ => Ok v) else Ok v)
    (validators_result vs) = Ok w -> w = v).
  { intros vs. assert (K : forall u, validators_result vs u = Ok w -> w = u)
      by (intros u0; unfold validators_result; destruct (run_validators _ _ _) as [[|]|]; congruence).
    destruct (is_compound f); [|apply K]. destruct (cv_convert _ _ _ _); [apply K|discriminate]. }
  destruct (fs_type f) as [l|ms|c|p|g|g ck]; try apply G.
  destruct (union_resolve _ ms v) as [[m u0]|]; [|discriminate]. cbn [rbind]. apply IH.
Qed.
Lemma no_convert_id E j f v x w : cx_convert x = false -> cx_validate x = true ->
  cv_field (conv_at E j) f v x = Ok w -> w = v.
Proof.
  intros Hx Hv. destruct j as [|j]; [discriminate|]. cbn [conv_at conv_step cv_field]. unfold field_step.
  destruct (check_required f v x); [discriminate|]. destruct (is_nil v); [congruence|]. rewrite Hv.
  now apply validate_no_convert_id.
Qed.

Section ImportValidate.
  Context (E : env) (j : nat) (c : cid) (m : mdata pyval) (d : list (key * pyval)) (w : kwargs).
  Let r := conv_at E (S (S j)).
  Let fs := fields_of E c.
  Let td := model_items E c m.
  Let x := kw_ctx w (VDict td).
  Hypothesis Hnd : NoDup (dkeys fs).
  Hypothesis Hp : plain_fields fs.
  Hypothesis Hdef : defined_layers m.
  Hypothesis Hdd : defined_dict d.
  Hypothesis Hk : NoDup (dkeys (md_converted m)).
  Hypothesis Hu : md_unsafe m = [].
  Hypothesis Hro : readonly_validators (mc_validators (e_class E c)).
  Hypothesis Hv : kw_validate w = true.
  Hypothesis Hd : d <> [].

  Lemma layers_defined : defined_data m.
  Proof.
    intros n. unfold chain_get. destruct Hdef as (H1 & H2 & H3).
    destruct (dget n (md_unsafe m)) eqn:G1; [intros [= ->]; now apply (H1 n)|].
    destruct (dget n (md_converted m)) eqn:G2; [intros [= ->]; now apply (H2 n)|]. apply H3.
  Qed.
  Lemma iv_items : py_dict E (VModel c m) = Ok td.
  Proof. apply model_items_dict; [exact Hnd|exact Hp|apply layers_defined]. Qed.
  Lemma iv_td : trusted_dict E x td.
  Proof. apply trusted_dict_kw. Qed.
  Lemma iv_eff : effective_input E x fs (VModel c m) d (dupdate d td).
  Proof. apply eff_validate; [exact Hv|now apply plain_no_setters|exact iv_items]. Qed.
  Lemma iv_def : defined_dict (dupdate d td).
  Proof.
    intros y. rewrite dget_dupdate by (apply model_items_NoDup, Hnd). unfold td. rewrite model_items_get by assumption.
    destruct (dmem y _); [|apply Hdd]. destruct (chain_get m y) eqn:G; [|apply Hdd].
    intros [= ->]. now apply (layers_defined y).
  Qed.
  Let loop := import_loop E (cv_field r) (cv_pre r) x fs (VModel c m) NoAlias (VDict d).
  Let out := validate_fn E (cv_field r) (cv_pre r) x (e_class E c) (VModel c m) NoAlias (VDict d).
  Lemma iv_mut : lo_mut out = VModel c m.
  Proof.
    unfold out, validate_fn; cbn [lo_mut]. unfold import_loop.
    pose proof iv_td as T. unfold trusted_dict in T. rewrite T. cbn [is_none negb andb].
    change (cx_validate x) with (kw_validate w). rewrite Hv. unfold mutate.
    rewrite mutate_fields_none by (apply plain_no_setters, Hp). rewrite iv_items. reflexivity.
  Qed.
  Lemma iv_ok data : lo_res out = Ok data -> lo_res loop = Ok data.
  Proof.
    intros H.
    assert (F : exists errs0 data0 e0, ((lo_res loop = Ok data0 /\ errs0 = []) \/ lo_res loop = Raise (XData errs0 data0)) /\
       validate_model (mc_validators (e_class E c)) (lo_mut loop) fs data0 = Ok (data, e0) /\ dupdate errs0 e0 = []).
    { unfold out, validate_fn in H; cbn [lo_res] in H. fold fs in H.
      change (import_loop _ _ _ _ _ _ _ _) with loop in H.
      destruct (lo_res loop) as [data0|e]; [|destruct e; try discriminate].
      - destruct (validate_model _ _ _ data0) as [[d0 e0]|] eqn:V; cbn [rbind] in H; [|discriminate].
        destruct (dupdate [] e0) eqn:U; [|discriminate]. injection H as ->. exists [], data0, e0. auto.
      - destruct (validate_model _ _ _ partial) as [[d0 e0]|] eqn:V; cbn [rbind] in H; [|discriminate].
        destruct (dupdate errs e0) eqn:U; [|discriminate]. injection H as ->. exists errs, partial, e0. auto. }
    destruct F as (errs0 & data0 & e0 & [[L _]|L] & V & U); apply dupdate_nil_keys in U as [-> ->].
    - now rewrite (validate_model_clean _ _ _ Hro _ _ Hnd V).
    - exfalso. destruct (run_ok_of _ _ _ _ _ _ _ _ _ _ iv_eff iv_def Hnd iv_td _ _ L) as (? & _ & K & _). congruence.
  Qed.

  Lemma import_validate_value m' n f v : model_import_data E r c m (VDict d) w = (m', None) ->
    In (n, f) fs -> is_compound (fd_spec f) = false ->
    supplied (dupdate d td) n (fd_spec f) (kw_mapping w) = Some v ->
    exists v', cv_field r (fd_spec f) v x = Ok v' /\ (v' <> VUndef -> chain_get m' n = Some v').
  Proof.
    intros H Hi Hc Hs. unfold model_import_data in H. rewrite iv_items in H.
    rewrite import_validate_convert in H by assumption. cbn zeta in H.
    change (validate_fn _ _ _ _ _ _ _ _) with out in H. rewrite iv_mut in H.
    destruct (lo_res out) as [data|e] eqn:O; [|discriminate].
    apply iv_ok in O. rewrite Hv in H.
    pose proof (success_no_errors _ (cv_field r) (cv_pre r) _ _ _ NoAlias _ _ _ iv_eff iv_def Hnd iv_td data) as NE.
    pose proof (data_field _ (cv_field r) (cv_pre r) _ _ _ NoAlias _ _ _ iv_eff iv_def Hnd iv_td data [] n f (or_introl O) Hi (or_introl Hv)) as DF.
    assert (Fx : field_ctx E x n (fd_spec f) = x) by (unfold field_ctx; now rewrite Hc).
    assert (Ho : field_outcome E (cv_field r) x (dupdate d td) td n (fd_spec f) =
                 match cv_field r (fd_spec f) v x with Ok VUndef => Keep | Ok w => Store w | Raise e => Fail e end).
    { unfold field_outcome. change (cx_mapping x) with (kw_mapping w). rewrite Hs. unfold candidate. rewrite Fx. reflexivity. }
    destruct (cv_field r (fd_spec f) v x) as [v'|e] eqn:F.
    - exists v'. split; [reflexivity|]. intros Hv'.
      assert (D : dget n data = Some v').
      { rewrite DF, Ho. destruct v'; try reflexivity. congruence. }
      set (m2 := md_set_converted m (dupdate (md_converted m) data)) in *.
      assert (ND : NoDup (dkeys data)).
      { eapply (result_NoDup _ _ _ _ _ _ _ _ _ _ data []); [apply iv_eff|apply iv_def|exact Hnd|apply iv_td|apply model_items_NoDup, Hnd|left; exact O]. }
      assert (Df : defined_dict data).
      { intros y. destruct (in_dec key_dec y (dkeys fs)) as [Hy|Hy].
        - unfold dkeys in Hy. apply in_map_iff in Hy as ([y' g] & E1 & Hy). cbn in E1. subst y'.
          rewrite (data_field _ (cv_field r) (cv_pre r) _ _ _ NoAlias _ _ _ iv_eff iv_def Hnd iv_td data [] y g (or_introl O) Hy (or_introl Hv)).
          assert (T : dget y td <> Some VUndef).
          { unfold td. rewrite model_items_get by assumption. destruct (dmem _ _); [apply layers_defined|discriminate]. }
          assert (NF : forall e, field_outcome E (cv_field r) x (dupdate d td) td y (fd_spec g) <> Fail e).
          { intros e He. apply (NE (public_name y g) O). right. exists y, g, e. repeat split; auto. left; exact Hv. }
          destruct (field_outcome E (cv_field r) x (dupdate d td) td y (fd_spec g)) as [|w0|e0] eqn:FO; cbn [value_after].
          + exact T.
          + unfold field_outcome in FO. intros [= ->].
            destruct (supplied (dupdate d td) y (fd_spec g) (cx_mapping x)); [|destruct (dget y td); [discriminate FO|]];
            destruct (cv_field r (fd_spec g) _ _) as [[]|]; discriminate FO.
          + exfalso. now apply (NF e0).
        - rewrite (data_other _ (cv_field r) (cv_pre r) _ _ _ NoAlias _ _ _ iv_eff iv_def Hnd iv_td data [] y (or_introl O) Hy).
          unfold td. rewrite model_items_get by assumption. destruct (dmem _ _); [apply layers_defined|discriminate]. }
      assert (C2 : md_converted m2 = dupdate (md_converted m) data) by reflexivity.
      assert (L2 : defined_layers m2).
      { destruct Hdef as (H1 & H2 & H3). split; [exact H1|]. split; [|exact H3].
        intros y. rewrite C2, dget_dupdate by exact ND. destruct (dget y data) eqn:G; [|apply H2].
        intros [= ->]. now apply (Df y). }
      destruct (validate_ok_visible E r c m2 (KW no_mapping false false false false false true false) Hnd Hp L2 (NoDup_dupdate _ _ Hk) (or_intror eq_refl) Hro m' n f v' Hu H Hi) as (v2 & F2 & G2).
      + unfold chain_get. change (md_unsafe m2) with (md_unsafe m). rewrite Hu, C2, dget_dupdate, D by exact ND. reflexivity.
      + apply no_convert_id in F2.
        * subst v2. rewrite G2. destruct v'; try reflexivity. congruence.
        * unfold field_ctx. rewrite Hc. cbn. now rewrite Hu.
        * unfold field_ctx. rewrite Hc. reflexivity.
    - exfalso. apply (NE (public_name n f) O). right. exists n, f, e. repeat split; auto. left; exact Hv.
  Qed.

  Lemma import_validate_existing m' n f v : model_import_data E r c m (VDict d) w = (m', None) ->
    In (n, f) fs -> is_compound (fd_spec f) = false -> chain_get m n = Some v ->
    exists v', cv_field r (fd_spec f) v x = Ok v' /\ (v' <> VUndef -> chain_get m' n = Some v').
  Proof.
    intros H Hi Hc G. eapply import_validate_value; eauto.
    apply (supplied_first _ n (fd_spec f) (kw_mapping w) [] n (tl (accepted_names n (fd_spec f) (kw_mapping w)))).
    - reflexivity.
    - intros z [].
    - rewrite dget_dupdate by (apply model_items_NoDup, Hnd). unfold td. rewrite model_items_get by assumption.
      change (mc_fields (e_class E c)) with fs.
      rewrite (proj2 (dmem_In n fs)) by (apply (in_map fst) in Hi; exact Hi). now rewrite G.
  Qed.
End ImportValidate.
