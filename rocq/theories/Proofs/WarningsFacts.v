(** Facts about warnings that are exceptions. *)
From Verif.Model Require Import Py Core Export Api Warnings.
From Verif.Spec Require Import ImportSpec.
From Verif.Proofs Require Import ImportLemmas.

Lemma shown_loop E r x fs mut a raw : w_import_loop E r None x fs mut a raw = import_loop E (cv_field r) (cv_pre r) x fs mut a raw.
Proof. reflexivity. Qed.
Lemma shown_fn E r x mc mut a raw : w_validate_fn E r None x mc mut a raw = validate_fn E (cv_field r) (cv_pre r) x mc mut a raw.
Proof. reflexivity. Qed.
Lemma shown_convert E r c m raw t w : w__convert E r None c m raw t w = model__convert E r c m raw t w.
Proof. reflexivity. Qed.
Lemma shown_validate E r c m w : w_validate E r None c m w = model_validate E r c m w.
Proof.
  unfold w_validate, model_validate, model_validate_body. rewrite shown_convert.
  destruct (md_converted m); [destruct (kw_partial w); [reflexivity|]|]; destruct (model__convert E r c m VNone _ _) as [m1 [d|[]]]; reflexivity.
Qed.
Lemma shown_all E r : forall c m raw t w,
  w_init E r None c raw t w = model_init E r c raw t w /\
  w_import_data E r None c m raw w = model_import_data E r c m raw w /\
  w_validate E r None c m w = model_validate E r c m w.
Proof.
  intros; split; [|split; [|apply shown_validate]].
  - unfold w_init, model_init. rewrite shown_convert. destruct (model__convert E r c _ raw t w) as [m1 [d|y]]; [|reflexivity].
    destruct (kw_validate w); [|reflexivity]. rewrite shown_validate. reflexivity.
  - unfold w_import_data, model_import_data. destruct (py_dict E (VModel c m)) as [td|y]; [|reflexivity].
    rewrite shown_convert. destruct (model__convert E r c m raw (VDict td) w) as [m1 [d|y]]; [|reflexivity].
    destruct (kw_validate w); [|reflexivity]. apply shown_validate.
Qed.
Lemma shown_setitem E r c m x v : w_setitem E r None c m x v = model_setitem E r c m x v.
Proof. unfold w_setitem, deprecated. destruct (dget x (mc_fields (e_class E c))) as [[s [g|] o]|]; reflexivity. Qed.
Lemma shown_contains E c m x : w_contains E None c m x = Ok (model_contains E c m x).
Proof.
  unfold w_contains, model_contains, model_getitem, deprecated. destruct (chain_mem m x); cbn [andb]; [|reflexivity].
  destruct (dget x (mc_fields (e_class E c))) as [f|]; [|reflexivity]. destruct (field_get c m x f); reflexivity.
Qed.

Lemma shown_serialize E r fe c m x : w_serialize E r None fe c m x = model_serialize E r fe c m x.
Proof.
  unfold w_serialize, model_serialize, model_validate_body, deprecated. rewrite shown_convert. cbn [kw_mapping kw_partial kw_strict kw_init_values kw_apply_defaults kw_convert kw_recursive].
  destruct (model__convert E r c m VNone _ _) as [m1 [d|[]]]; reflexivity.
Qed.

Section Errors.
  Context (E : env) (r : conv) (e : pyexc).
  Notation W := (Some e).

  Lemma loop_raises x fs mut a d : exists y, lo_res (w_import_loop E r W x fs mut a (VDict d)) = Raise y.
  Proof.
    unfold w_import_loop. destruct (if truthy (cx_trusted x) then _ else _) as [d0|y]; [|eexists; reflexivity].
    cbn [is_none negb andb]. destruct (if cx_validate x then _ else _) as [[mut1 raw1] [errs|y]]; eexists; reflexivity.
  Qed.
  Lemma loop_plain x fs mut a d d0 : (if truthy (cx_trusted x) then py_dict E (cx_trusted x) else Ok []) = Ok d0 -> cx_validate x = false ->
    w_import_loop E r W x fs mut a (VDict d) = LO mut (VDict d) (Raise (XPy e)).
  Proof. intros H Hv. unfold w_import_loop. rewrite H, Hv. reflexivity. Qed.
  (** What the loop leaves of the instance. *)
  Lemma loop_no_setters x fs c m a d q : no_setters fs -> (exists td, cx_trusted x = VDict td) -> py_dict E (VModel c m) = Ok q ->
    a <> AliasSelf ->
    exists m', lo_mut (w_import_loop E r W x fs (VModel c m) a (VDict d)) = VModel c m' /\ lo_res (w_import_loop E r W x fs (VModel c m) a (VDict d)) = Raise (XPy e) /\ md_unsafe m' = md_unsafe m /\ md_valid m' = md_valid m.
  Proof.
    intros Hs Ht Hq Ha. assert (Hd : exists d0, (if truthy (cx_trusted x) then py_dict E (cx_trusted x) else Ok []) = Ok d0).
    { destruct Ht as [td Ht]; rewrite Ht; destruct (truthy (VDict td)); eexists; reflexivity. }
    destruct Hd as [d0 Hd]. unfold w_import_loop. rewrite Hd. cbn [is_none negb andb].
    destruct (cx_validate x); [|exists m; repeat split].
    unfold mutate. rewrite (mutate_fields_none E (cv_field r) (cv_pre r) x a fs (VModel c m) (VDict d) []) by exact Hs.
    rewrite Hq. destruct a; [| |contradiction]; eexists; (split; [reflexivity|split; [reflexivity|split; reflexivity]]) || idtac.
  Qed.

  Lemma fn_no_setters x mc c m a d q : no_setters (mc_fields mc) -> (exists td, cx_trusted x = VDict td) ->
    py_dict E (VModel c m) = Ok q -> a <> AliasSelf ->
    exists m', lo_mut (w_validate_fn E r W x mc (VModel c m) a (VDict d)) = VModel c m' /\ lo_res (w_validate_fn E r W x mc (VModel c m) a (VDict d)) = Raise (XPy e) /\ md_unsafe m' = md_unsafe m /\ md_valid m' = md_valid m.
  Proof.
    intros Hs Ht Hq Ha. destruct (loop_no_setters x (mc_fields mc) c m a d q Hs Ht Hq Ha) as (m' & H1 & H2 & H3).
    exists m'. unfold w_validate_fn. cbn [lo_mut lo_res]. rewrite H1, H2. auto.
  Qed.

  Lemma convert_no_setters c m td w q : no_setters (fields_of E c) -> py_dict E (VModel c (md_set_unsafe m [])) = Ok q ->
    forall raw d, (truthy raw = true -> py_dict E raw = Ok d) ->
    exists m', w__convert E r W c m raw (VDict td) w = (m', Raise (XPy e)) /\ md_unsafe m' = [] /\ md_valid m' = md_valid m.
  Proof.
    intros Hs Hq raw d Hr. unfold w__convert.
    assert (Hd : exists d0, (if truthy raw then py_dict E raw else Ok (md_converted m)) = Ok d0) by (destruct (truthy raw); eauto).
    destruct Hd as [d0 Hd]. rewrite Hd.
    assert (Hm : md_unsafe m = [] -> md_set_unsafe m [] = m) by (destruct m as [u0 c0 v0 l0]; cbn; intros ->; reflexivity).
    assert (Ht : forall w1, (exists t, cx_trusted (kw_ctx w1 (if truthy (VDict td) then VDict td else VDict [])) = VDict t)).
    { intros w1; cbn [kw_ctx cx_trusted]. destruct (truthy (VDict td)); eauto. }
    destruct (md_unsafe m) as [|p un] eqn:Hu.
    - rewrite (Hm eq_refl) in Hq. set (a0 := if truthy raw then NoAlias else AliasConverted).
      assert (Ha : a0 <> AliasSelf) by (unfold a0; destruct (truthy raw); discriminate).
      destruct (kw_validate w).
      + destruct (fn_no_setters _ (e_class E c) c m a0 d0 q Hs (Ht w) Hq Ha) as (m' & H1 & H2 & H3 & H4). rewrite H1, H2. exists m'; rewrite <- Hu; auto.
      + destruct (loop_no_setters _ (mc_fields (e_class E c)) c m a0 d0 q Hs (Ht w) Hq Ha) as (m' & H1 & H2 & H3 & H4). rewrite H1, H2. exists m'; rewrite <- Hu; auto.
    - cbv beta iota zeta. assert (Ha : NoAlias <> AliasSelf) by discriminate.
      set (w1 := KW _ _ _ _ _ _ _ _). destruct (kw_validate w) eqn:Hv.
      + edestruct (fn_no_setters _ (e_class E c) c _ NoAlias (dupdate (p :: un) d0) q Hs (Ht w1) Hq Ha) as (m' & H1 & H2 & H3 & H4).
        rewrite H1, H2. exists m'. rewrite H3, H4. auto.
      + edestruct (loop_no_setters _ (mc_fields (e_class E c)) c _ NoAlias (dupdate (p :: un) d0) q Hs (Ht w1) Hq Ha) as (m' & H1 & H2 & H3 & H4).
        rewrite H1, H2. exists m'. rewrite H3, H4. auto.
  Qed.

  Lemma validate_loses c m w q : no_setters (fields_of E c) -> py_dict E (VModel c (md_set_unsafe m [])) = Ok q ->
    md_converted m <> [] \/ kw_partial w = false ->
    exists m', w_validate E r W c m w = (m', Some (XPy e)) /\ md_unsafe m' = [] /\ md_converted m' = [] /\ md_valid m' = md_valid m.
  Proof.
    intros Hs Hq Hp. unfold w_validate.
    set (wv := KW _ _ _ _ _ _ _ _). destruct (convert_no_setters c m [] wv q Hs Hq VNone [] ltac:(discriminate)) as (m' & H1 & H2 & H3).
    exists (md_set_converted m' []). rewrite H1.
    destruct (md_converted m); [destruct (kw_partial w); [destruct Hp; [contradiction|discriminate]|]|]; cbn; auto.
  Qed.

  Lemma serialize_loses fe c m x q : no_setters (fields_of E c) -> py_dict E (VModel c (md_set_unsafe m [])) = Ok q ->
    exists m', w_serialize E r W fe c m x = (m', Raise (XPy e)) /\ md_unsafe m' = [] /\ md_converted m' = [] /\ md_valid m' = md_valid m.
  Proof.
    intros Hs Hq. unfold w_serialize. set (wv := KW _ _ _ _ _ _ _ _).
    destruct (convert_no_setters c m [] wv q Hs Hq VNone [] ltac:(discriminate)) as (m' & H1 & H2 & H3).
    exists (md_set_converted m' []). rewrite H1. cbn. auto.
  Qed.
  (** With any setters, it does not succeed. *)
  Lemma serialize_raises fe c m x : exists m' y, w_serialize E r W fe c m x = (m', Raise y).
  Proof.
    unfold w_serialize, deprecated. destruct (w__convert E r (Some e) c m VNone _ _) as [m0 [d|[]]]; do 2 eexists; reflexivity.
  Qed.

  Lemma init_raises c d td w q : no_setters (fields_of E c) -> py_dict E (VModel c (MD [] [] td None)) = Ok q ->
    w_init E r W c (VDict d) (VDict td) w = Raise (XPy e).
  Proof.
    intros Hs Hq. unfold w_init.
    destruct (convert_no_setters c (MD [] [] td None) td w q Hs Hq (VDict d) d ltac:(reflexivity)) as (m' & H1 & _). rewrite H1. reflexivity.
  Qed.
  (** Whatever setters there are, if nothing is validated. *)
  Lemma init_raises_plain c d td w : kw_validate w = false -> w_init E r W c (VDict d) (VDict td) w = Raise (XPy e).
  Proof.
    intros Hv. unfold w_init, w__convert. cbn [md_unsafe]. rewrite Hv.
    assert (Hd : exists d0, (if truthy (VDict d) then py_dict E (VDict d) else Ok (md_converted (MD [] [] td None))) = Ok d0) by (destruct (truthy (VDict d)); eexists; reflexivity).
    destruct Hd as [d0 Hd]. rewrite Hd. cbv beta iota zeta.
    assert (Ht : exists t, (if truthy (cx_trusted (kw_ctx w (if truthy (VDict td) then VDict td else VDict []))) then
       py_dict E (cx_trusted (kw_ctx w (if truthy (VDict td) then VDict td else VDict []))) else Ok []) = Ok t).
    { cbn [kw_ctx cx_trusted]. destruct (truthy (VDict td)) eqn:T; [rewrite T; eexists; reflexivity|eexists; reflexivity]. }
    destruct Ht as [t Ht]. rewrite (loop_plain _ _ _ _ _ _ Ht); [reflexivity|exact Hv].
  Qed.
  Lemma import_loses c m d w q td : no_setters (fields_of E c) -> py_dict E (VModel c m) = Ok td -> py_dict E (VModel c (md_set_unsafe m [])) = Ok q ->
    exists m', w_import_data E r W c m (VDict d) w = (m', Some (XPy e)) /\ md_unsafe m' = [] /\ md_valid m' = md_valid m.
  Proof.
    intros Hs Ht Hq. unfold w_import_data. rewrite Ht.
    destruct (convert_no_setters c m td w q Hs Hq (VDict d) d ltac:(reflexivity)) as (m' & H1 & H2). rewrite H1. eauto.
  Qed.
  Lemma import_plain c m d w td : kw_validate w = false -> py_dict E (VModel c m) = Ok td ->
    w_import_data E r W c m (VDict d) w = (md_set_unsafe m [], Some (XPy e)).
  Proof.
    intros Hv Ht. unfold w_import_data. rewrite Ht. unfold w__convert. rewrite Hv.
    assert (Hd : exists d0, (if truthy (VDict d) then py_dict E (VDict d) else Ok (md_converted m)) = Ok d0) by (destruct (truthy (VDict d)); eexists; reflexivity).
    destruct Hd as [d0 Hd]. rewrite Hd.
    assert (Hm : md_unsafe m = [] -> md_set_unsafe m [] = m) by (destruct m as [u0 c0 v0 l0]; cbn; intros ->; reflexivity).
    assert (Hw : forall w1, exists t, (if truthy (cx_trusted (kw_ctx w1 (if truthy (VDict td) then VDict td else VDict []))) then
       py_dict E (cx_trusted (kw_ctx w1 (if truthy (VDict td) then VDict td else VDict []))) else Ok []) = Ok t).
    { intros w1. cbn [kw_ctx cx_trusted]. destruct (truthy (VDict td)) eqn:T; [rewrite T; eexists; reflexivity|eexists; reflexivity]. }
    destruct (md_unsafe m) as [|p un] eqn:Hu; cbv beta iota zeta.
    - destruct (Hw w) as [t H]. rewrite (loop_plain _ _ _ _ _ _ H); [cbn [lo_mut lo_res]; rewrite (Hm eq_refl); reflexivity|exact Hv].
    - set (w1 := KW _ _ _ _ _ _ _ _). destruct (Hw w1) as [t H]. rewrite (loop_plain _ _ _ _ _ _ H); [reflexivity|reflexivity].
  Qed.
  Lemma validate_nothing c m w : md_converted m = [] -> kw_partial w = true -> w_validate E r W c m w = (m, None).
  Proof. intros H1 H2. unfold w_validate. rewrite H1, H2. reflexivity. Qed.
  Lemma assign_plain c m x v f : dget x (fields_of E c) = Some f -> fd_get f = None -> w_setitem E r W c m x v = (m, Some (XPy e)).
  Proof. unfold fields_of. intros H1 H2. unfold w_setitem. rewrite H1. destruct f as [s g o]; cbn in H2; subst g. reflexivity. Qed.
  Lemma assign_other c m x v : (forall f, dget x (fields_of E c) = Some f -> fd_get f <> None) -> w_setitem E r W c m x v = model_setitem E r c m x v.
  Proof.
    unfold fields_of. intros H. unfold w_setitem. destruct (dget x (mc_fields (e_class E c))) as [[s [g|] o]|]; try reflexivity.
    destruct (H _ eq_refl). reflexivity.
  Qed.
  Lemma contains_held c m x v : chain_get m x <> None -> model_getitem E c m x = Ok v -> w_contains E W c m x = Ok true.
  Proof.
    unfold model_getitem, w_contains. intros H1 H2. assert (Hm : chain_mem m x = true).
    { unfold chain_mem. destruct (chain_get m x); [reflexivity|contradiction]. }
    rewrite Hm. destruct (dget x (mc_fields (e_class E c))); [rewrite H2; reflexivity|discriminate].
  Qed.
  Lemma contains_other c m x : chain_get m x = None \/ (exists y, model_getitem E c m x = Raise y) -> w_contains E W c m x = Raise (XPy e).
  Proof.
    unfold model_getitem, w_contains. intros [H|[y H]].
    - assert (Hm : chain_mem m x = false) by (unfold chain_mem; rewrite H; reflexivity). rewrite Hm. reflexivity.
    - destruct (dget x (mc_fields (e_class E c))); [rewrite H|]; rewrite Bool.andb_false_r; reflexivity.
  Qed.
End Errors.
