(** Item access to unknown and computed fields, classes of converted instances, errors of setters, equality of
    simple values. *)
From Coq Require Import QArith.
From Verif.Model Require Import Py Core Num Calendar Export Api Equality.
From Verif.Spec Require Import CallSpec ImportSpec ValidateSpec ApiSpec CompoundSpec TypeSpec EqSpec.
From Verif.Proofs Require Import DictLemmas ImportLemmas ApiLemmas CompoundLemmas PolyLemmas TypeLemmas EqLemmas.
Local Close Scope Q_scope.

(** ** Item access *)
Lemma set_unknown E r c m n v : ~ In n (dkeys (fields_of E c)) ->
  model_setitem E r c m n v = (m, Some (XPy EUnknownFieldError)) /\ model_delitem E c m n = (m, Some (XPy EUnknownFieldError)).
Proof. intros H. unfold model_setitem, model_delitem. apply dget_None_keys in H. unfold fields_of in H. now rewrite H. Qed.

Lemma computed_access E r c m n f g : dget n (fields_of E c) = Some f -> fd_get f = Some g ->
  model_delitem E c m n = (m, Some (XPy EAttributeError)) /\
  (forall v, v <> VUndef -> (model_getitem E c m n = Ok v <-> g (VModel c m) = Ok v)) /\
  (forall v, fd_set f = None -> model_setitem E r c m n v = (m, Some (XPy EAttributeError))).
Proof.
  unfold fields_of. intros D G. unfold model_delitem, model_getitem, model_setitem, field_get. rewrite D, G.
  split; [reflexivity|]. split.
  - intros v N. destruct (g (VModel c m)) as [w|e]; [|split; discriminate].
    destruct w; cbn; split; intros [= <-]; try reflexivity; congruence.
  - now intros v ->.
Qed.
Lemma computed_set E r c m n f g s v : dget n (fields_of E c) = Some f -> fd_get f = Some g -> fd_set f = Some s ->
  (forall e, cv_pre r (fd_spec f) v = Raise e -> model_setitem E r c m n v = (m, Some e)) /\
  (forall w m' oe, cv_pre r (fd_spec f) v = Ok w -> s (VModel c m) w = (VModel c m', oe) -> model_setitem E r c m n v = (m', oe)).
Proof.
  unfold fields_of. intros D G S. unfold model_setitem. rewrite D, G, S. split.
  - now intros e ->.
  - now intros w m' oe -> ->.
Qed.

(** ** Lists and models *)
Lemma list_refused E fc g v x : elements E v = None -> list_convert E fc g v x = Raise (XConv [m_list_input]).
Proof. unfold list_convert. change (list_elems E v) with (elements E v). now intros ->. Qed.

Lemma model_converts_to E fc pre c v x w : (forall c, proper_setters E c) -> cx_convert x = true -> cx_oo x = true ->
  model_convert E fc pre c v x = Ok w ->
  (exists d m, v = VDict d /\ w = VModel c m) \/
  (exists c' m0 m, v = VModel c' m0 /\ e_issub E c' c = true /\ w = VModel c' m).
Proof.
  intros Hset Hc Ho. unfold model_convert. rewrite Hc, Ho. cbn [andb]. destruct v; try discriminate.
  - intros H. apply model_new_class in H as [m ->]; [|apply Hset]. left. eauto.
  - destruct (e_issub E c0 c) eqn:G; [|discriminate].
    intros H. apply model_new_class in H as [m' ->]; [|apply Hset]. right. eauto 6.
Qed.
Lemma model_refuses E fc pre c v x :
  (forall d, v <> VDict d) -> (forall c' m, v = VModel c' m -> e_issub E c' c = false) ->
  model_convert E fc pre c v x = Raise (XConv [m_model_input]).
Proof. intros A B. destruct v; try reflexivity; [exfalso; now eapply A|]. cbn. now rewrite (B _ _ eq_refl). Qed.

(** ** Errors of setters *)
Lemma mutate_fields_keys E fc pre x a fs : forall mut raw errs mut1 raw1 errs1,
  mutate_fields E fc pre x a fs mut raw errs = (mut1, raw1, Ok errs1) -> incl (dkeys errs) (dkeys errs1).
Proof.
  induction fs as [|[n f] fs IH]; intros mut raw errs mut1 raw1 errs1; cbn [mutate_fields].
  - intros [= <- <- <-]. apply incl_refl.
  - destruct (fd_set f) as [s|]; [|apply IH].
    destruct (is_undef (atom_value E raw n)); [apply IH|].
    assert (K : forall e m r, (if caught_by_loop e
        then mutate_fields E fc pre x a fs m r (dset (sname_of n (fd_spec f)) (err_node e) errs)
        else match e with XPy pe => if is_attribute_error pe then mutate_fields E fc pre x a fs m r errs else (m, r, Raise e)
             | _ => (m, r, Raise e) end) = (mut1, raw1, Ok errs1) -> incl (dkeys errs) (dkeys errs1)).
    { intros e m r. destruct (caught_by_loop e).
      - intros H. apply IH in H. intros y Hy. apply H. apply dkeys_dset_in. auto.
      - destruct e; try discriminate. destruct (is_attribute_error e); [apply IH|discriminate]. }
    destruct (rbind _ _) as [w|e]; [|apply K]. destruct (s mut w) as [m1 [e|]]; [apply K|apply IH].
Qed.
Lemma mutate_fields_skip E fc pre x a fs1 : (forall p, In p fs1 -> fd_set (snd p) = None) -> forall fs2 mut raw errs,
  mutate_fields E fc pre x a (fs1 ++ fs2) mut raw errs = mutate_fields E fc pre x a fs2 mut raw errs.
Proof.
  induction fs1 as [|[n f] fs1 IH]; intros H fs2 mut raw errs; [reflexivity|]. cbn [app mutate_fields].
  pose proof (H (n, f) (or_introl eq_refl)) as K. cbn [snd] in K. rewrite K. apply IH. intros p Hp. apply H. now right.
Qed.
Lemma import_fields_keys E fc x got raw fs : forall d errs d1 errs1,
  import_fields E fc x got raw fs (d, errs) = Ok (d1, errs1) -> incl (dkeys errs) (dkeys errs1).
Proof.
  induction fs as [|[n f] fs IH]; intros d errs d1 errs1; cbn [import_fields].
  - intros [= <- <-]. apply incl_refl.
  - destruct (negb (cx_validate x) && has_setter f); [apply IH|].
    destruct (import_field E fc x got raw n f (d, errs)) as [[d2 errs2]|e] eqn:F; [|discriminate]. cbn [rbind]. intros H.
    apply IH in H. apply incl_tran with (2 := H). clear IH H. unfold import_field in F.
    destruct (if got && _ then _ else _) as [v1|]; [|discriminate]. cbn [rbind] in F.
    destruct (is_undef v1 && dmem n d); [injection F as <- <-; apply incl_refl|].
    destruct got.
    + destruct (fc _ _ _) as [w|e].
      * destruct (is_undef w); injection F as <- <-; apply incl_refl.
      * destruct (caught_by_loop e); [|discriminate]. injection F as <- <-. intros y Hy. apply dkeys_dset_in. auto.
    + destruct (is_undef _); injection F as <- <-; apply incl_refl.
Qed.
Lemma fold_rogues_keys (l : list key) : forall errs, incl (dkeys errs) (dkeys (fold_left (fun acc y => dset y (NText m_rogue) acc) l errs)).
Proof.
  induction l as [|y l IH]; intros errs; cbn; [apply incl_refl|]. apply incl_tran with (2 := IH _).
  intros z Hz. apply dkeys_dset_in. auto.
Qed.

Lemma quiet_items E v d errs pd : quiet_getters E -> py_items E v d <> Raise (XData errs pd).
Proof.
  intros Q. induction d as [|y d IH]; cbn; [discriminate|].
  assert (G : py_getitem E v y <> Raise (XData errs pd)).
  { destruct v; cbn; try discriminate; [destruct (dget y d0); discriminate|]. unfold model_getitem, field_get.
    destruct (dget y _) as [f|] eqn:D; [|discriminate]. destruct (fd_get f) as [g|] eqn:Gf.
    - destruct (g (VModel c m)) as [w|e] eqn:H; [destruct (is_undef w); discriminate|]. intros [= ->].
      apply dget_In in D. exact (Q c y f g (VModel c m) errs pd D Gf H).
    - destruct (chain_get m y) as [w|]; [destruct (is_undef w)|]; discriminate. }
  destruct (py_getitem E v y) as [w|e]; cbn; [|congruence]. destruct (py_items E v d); cbn; congruence.
Qed.
Lemma quiet_dict E v errs pd : quiet_getters E -> py_dict E v <> Raise (XData errs pd).
Proof.
  intros Q. destruct v; try discriminate. cbn. now apply quiet_items.
Qed.
Lemma quiet_fields E fc x d fs : forall s errs pd, import_fields E fc x true (VDict d) fs s <> Raise (XData errs pd).
Proof.
  induction fs as [|[n f] fs IH]; intros s errs pd; cbn [import_fields]; [discriminate|].
  destruct (negb (cx_validate x) && has_setter f); [apply IH|].
  destruct (import_field E fc x true (VDict d) n f s) as [s1|e] eqn:F; cbn [rbind]; [apply IH|]. intros [= ->].
  unfold import_field in F. destruct s as [d0 errs0].
  assert (A : forall ks, exists v, find_alt E (VDict d) n ks = Ok v).
  { induction ks as [|y ks [v Hv]]; cbn; [eauto|]. destruct (key_true y && negb (key_eqb y n)) eqn:B; cbn [andb].
    - destruct (dmem y d) eqn:M; [|eauto]. unfold dmem in M. destruct (dget y d); [eauto|discriminate].
    - eauto. }
  destruct (A (input_keys n (fd_spec f) (cx_mapping x))) as [va Hva]. cbn [andb] in F.
  destruct (if is_undef (atom_value E (VDict d) n) then _ else _) as [v1|e1] eqn:V.
  2:{ destruct (is_undef _); congruence. }
  cbn [rbind] in F. destruct (is_undef v1 && dmem n d0); [discriminate|]. destruct (fc _ _ _) as [w|e].
  - destruct (is_undef w); discriminate.
  - destruct (caught_by_loop e) eqn:C; [discriminate|]. injection F as ->. discriminate.
Qed.
Lemma quiet_mutate E fc pre x a fs : forall mut raw errs mut1 raw1 e,
  mutate_fields E fc pre x a fs mut raw errs = (mut1, raw1, Raise e) -> forall er pd, e <> XData er pd.
Proof.
  induction fs as [|[n f] fs IH]; intros mut raw errs mut1 raw1 e0; cbn [mutate_fields]; [discriminate|].
  destruct (fd_set f) as [s|]; [|apply IH].
  destruct (is_undef (atom_value E raw n)); [apply IH|].
  assert (K : forall e m r, (if caught_by_loop e
      then mutate_fields E fc pre x a fs m r (dset (sname_of n (fd_spec f)) (err_node e) errs)
      else match e with XPy pe => if is_attribute_error pe then mutate_fields E fc pre x a fs m r errs else (m, r, Raise e)
           | _ => (m, r, Raise e) end) = (mut1, raw1, Raise e0) -> forall er pd, e0 <> XData er pd).
  { intros e m r. destruct (caught_by_loop e) eqn:C; [apply IH|].
    destruct e; try (intros [= _ _ <-] er pd [=]; fail); try discriminate C.
    destruct (is_attribute_error e); [apply IH|]. intros [= _ _ <-] er pd [=]. }
  destruct (rbind _ _) as [w|e]; [|apply K]. destruct (s mut w) as [m1 [e|]]; [apply K|apply IH].
Qed.

Lemma setter_error_loop E fc pre x fs mut a d fs1 n f fs2 s v v1 v2 mut1 e : quiet_getters E ->
  fs = fs1 ++ (n, f) :: fs2 -> (forall p, In p fs1 -> fd_set (snd p) = None) -> fd_set f = Some s ->
  cx_trusted x = VDict [] -> cx_validate x = true -> dget n d = Some v -> v <> VUndef ->
  fc (fd_spec f) v x = Ok v1 -> pre (fd_spec f) v1 = Ok v2 -> s mut v2 = (mut1, Some e) -> caught_by_loop e = true ->
  exists e', lo_res (import_loop E fc pre x fs mut a (VDict d)) = Raise e' /\
    forall errs pd, e' = XData errs pd -> In (sname_of n (fd_spec f)) (dkeys errs).
Proof.
  intros Q Hf H1 Hs Ht Hv Ha Hn C P S Hc. unfold import_loop. rewrite Ht, Hv. change (truthy (VDict [])) with false. cbv iota. cbn [is_none negb andb].
  unfold mutate. rewrite Hf, mutate_fields_skip by assumption. cbn [mutate_fields]. rewrite Hs.
  unfold atom_value. cbn [py_getitem]. rewrite Ha.
  replace (is_undef v) with false by (destruct v; try reflexivity; congruence).
  rewrite C. cbn [rbind]. rewrite P, S, Hc. rewrite <- Hf.
  destruct (mutate_fields E fc pre x a fs2 mut1 (sync a mut1 (VDict d)) _) as [[m2 r2] [errs|e2]] eqn:M.
  2:{ cbn. exists e2. split; [reflexivity|]. intros errs pd ->. exfalso. eapply quiet_mutate; [exact M|reflexivity]. }
  pose proof (mutate_fields_keys _ _ _ _ _ _ _ _ _ _ _ _ M) as I.
  assert (I0 : In (sname_of n (fd_spec f)) (dkeys errs)) by (apply I, dkeys_dset_in; auto).
  destruct r2; try (cbn; eexists; split; [reflexivity|]; intros ? ? [=]; fail).
  destruct (py_dict E m2) as [items|e3] eqn:D.
  2:{ cbn. exists e3. split; [reflexivity|]. intros er pd ->. exfalso. eapply quiet_dict; eassumption. }
  cbn [lo_res rbind]. set (d2 := dupdate d0 items).
  assert (R : exists errs1, rogues E x fs (VDict d2) errs = Ok errs1 /\ In (sname_of n (fd_spec f)) (dkeys errs1)).
  { unfold rogues. destruct (cx_strict x); [|eauto]. cbn [py_keys rbind]. eexists. split; [reflexivity|]. now apply fold_rogues_keys. }
  destruct R as (errs1 & -> & I1). cbn [rbind].
  destruct (import_fields E fc x true (VDict d2) fs ([], errs1)) as [[da errs2]|e4] eqn:F.
  2:{ cbn [rbind]. exists e4. split; [reflexivity|]. intros er pd ->. exfalso. eapply quiet_fields; eassumption. }
  cbn [rbind]. apply import_fields_keys in F. specialize (F _ I1). destruct errs2 as [|p errs2]; [destruct F|].
  eexists. split; [reflexivity|]. intros er pd [= <- _]. exact F.
Qed.
Lemma mv_raise vfs mut fs : forall d errs bad e, validate_model_loop vfs mut fs d errs bad = Raise e -> forall er pd, e <> XData er pd.
Proof.
  induction fs as [|[n f] fs IH]; intros d errs bad e; cbn [validate_model_loop]; [discriminate|].
  destruct (dget n d) as [v|]; [|apply IH]. destruct (dget n vfs) as [vf|]; [|apply IH].
  destruct (is_undef v); [apply IH|]. destruct (vf mut d v) as [d1 [e1|]]; [|apply IH].
  destruct (mv_caught e1) eqn:M; [apply IH|]. intros [= <-] er pd ->. discriminate.
Qed.
Lemma pop_raise bad : forall d e, pop_all bad d = Raise e -> e = XPy EKeyError.
Proof. induction bad as [|n bad IH]; intros d e; cbn; [discriminate|]. destruct (dmem n d); [apply IH|congruence]. Qed.

Lemma setter_errors E r c m w fs1 n f fs2 s v v1 v2 mut1 e : quiet_getters E ->
  fields_of E c = fs1 ++ (n, f) :: fs2 -> (forall p, In p fs1 -> fd_set (snd p) = None) -> fd_set f = Some s ->
  md_unsafe m = [] -> dget n (md_converted m) = Some v -> v <> VUndef ->
  cv_field r (fd_spec f) v (vctx m w) = Ok v1 -> cv_pre r (fd_spec f) v1 = Ok v2 ->
  s (VModel c m) v2 = (mut1, Some e) -> caught_by_loop e = true ->
  exists m' e', model_validate E r c m w = (m', Some e') /\
    forall errs pd, e' = XData errs pd -> In (public_name n f) (dkeys errs).
Proof.
  intros Q Hf H1 Hs Hu Ha Hn C P S Hc. unfold model_validate, model_validate_body, model__convert. cbn [truthy].
  destruct (md_converted m) as [|p0 dd] eqn:Dm; [discriminate|]. rewrite <- Dm in *. clear Dm p0 dd.
  rewrite Hu. cbn [kw_validate kw_mapping kw_partial kw_strict kw_init_values kw_apply_defaults kw_convert kw_recursive].
  unfold vctx, vkw in C. rewrite Hu, orb_false_r in C.
  change (call_ctx ?k ?t) with (kw_ctx k t) in C.
  set (x := kw_ctx _ _) in *. cbn [truthy].
  destruct (setter_error_loop E (cv_field r) (cv_pre r) x (fields_of E c) (VModel c m) AliasConverted (md_converted m) fs1 n f fs2 s v v1 v2 mut1 e
              Q Hf H1 Hs eq_refl eq_refl Ha Hn C P S Hc) as (e' & L & K).
  unfold fields_of in L.
  set (out := validate_fn _ _ _ _ _ _ _ _).
  assert (V : exists e2, lo_res out = Raise e2 /\ forall errs pd, e2 = XData errs pd -> In (public_name n f) (dkeys errs)).
  { unfold out, validate_fn. cbn [lo_res]. rewrite L. destruct e' as [| | |errs data| |]; try (eexists; split; [reflexivity|]; exact K).
    unfold validate_model.
    destruct (validate_model_loop _ _ _ _ _ _) as [[[d1 er1] bad]|e3] eqn:W; cbn [rbind].
    2:{ exists e3. split; [reflexivity|]. intros er pd ->. exfalso. eapply mv_raise; [exact W|reflexivity]. }
    destruct (pop_all bad d1) as [d2|e4] eqn:B; cbn [rbind].
    2:{ exists e4. split; [reflexivity|]. intros er pd ->. apply pop_raise in B. discriminate. }
    specialize (K _ _ eq_refl).
    assert (I : In (sname_of n (fd_spec f)) (dkeys (dupdate errs er1))) by (apply dkeys_dupdate_in; auto).
    destruct (dupdate errs er1) as [|q l]; [destruct I|]. eexists. split; [reflexivity|]. intros er pd [= <- _]. exact I. }
  destruct V as (e2 & V & K2). rewrite V.
  destruct e2; (destruct (md_converted m) as [|p0 dd]; [discriminate Ha|]; do 2 eexists; split; [reflexivity|]; exact K2).
Qed.

(** ** Equality of simple values *)
Lemma date_eqb_iff a b : date_eqb a b = true <-> a = b.
Proof.
  destruct a, b. unfold date_eqb. cbn. rewrite !andb_true_iff, !Z.eqb_eq. split; [intros [[-> ->] ->]; reflexivity|intros [= -> -> ->]; auto].
Qed.
Lemma time_eqb_iff a b : time_eqb a b = true <-> a = b.
Proof.
  destruct a, b. unfold time_eqb. cbn. rewrite !andb_true_iff, !Z.eqb_eq. split; [intros [[[-> ->] ->] ->]; reflexivity|intros [= -> -> -> ->]; auto].
Qed.
Lemma num_eqb_value n d m e p q : (n # d == p)%Q -> (m # e == q)%Q -> num_eqb (NFin n d) (NFin m e) = true <-> (p == q)%Q.
Proof. intros A B. cbn [num_eqb]. rewrite Z.eqb_eq, <- A, <- B. reflexivity. Qed.

Lemma no_number v q : value_of v q -> exists n d, num_of v = Some (NFin n d).
Proof. intros H. apply num_value in H as (n & d & H & _). eauto. Qed.
Lemma atoms_equal a b : atom_eq a b = true <-> equal_atoms a b.
Proof.
  split.
  - unfold atom_eq. destruct (num_of a) as [x|] eqn:A.
    + destruct (num_of b) as [y|] eqn:B.
      * destruct x as [n d|s|], y as [m e|t|]; try discriminate.
        -- intros H. destruct (value_num _ _ _ A) as (p & Hp & Ep). destruct (value_num _ _ _ B) as (q & Hq & Eq).
           apply ea_number with p q; auto. now apply (num_eqb_value n d m e).
        -- cbn. intros H. apply Bool.eqb_prop in H. subst t.
           destruct a; try discriminate A; try (cbn in A; unfold decimal_num in A; destruct (0 <=? exp)%Z; discriminate A).
           destruct b; try discriminate B; try (cbn in B; unfold decimal_num in B; destruct (0 <=? exp)%Z; discriminate B).
           destruct f as [|s1| |]; try discriminate A; try (cbn in A; unfold dyadic in A; destruct (0 <=? e)%Z; discriminate A).
           destruct f0 as [|s2| |]; try discriminate B; try (cbn in B; unfold dyadic in B; destruct (0 <=? e)%Z; discriminate B).
           cbn in A, B. injection A as ->. injection B as ->. constructor.
      * destruct a; try discriminate A; discriminate.
    + destruct a; try discriminate A; destruct b; try discriminate; intros H;
        try (destruct off; discriminate H).
      * constructor.
      * constructor.
      * apply pstr_eqb_eq in H. subst. constructor.
      * apply pstr_eqb_eq in H. subst. constructor.
      * apply date_eqb_iff in H. subst. constructor.
      * destruct off as [o|], off0 as [o'|]; try discriminate.
        -- apply Z.eqb_eq in H. now constructor.
        -- apply andb_prop in H as [H1 H2]. apply date_eqb_iff in H1. apply time_eqb_iff in H2. subst. constructor.
      * apply Z.eqb_eq in H. subst. constructor.
      * apply N.eqb_eq in H. subst. constructor.
      * apply andb_prop in H as [H1 H2]. apply N.eqb_eq in H1. apply pstr_eqb_eq in H2. subst. constructor.
      * apply N.eqb_eq in H. subst. constructor.
  - intros H. destruct H; unfold atom_eq; cbn [num_of]; try reflexivity.
    + destruct (num_value _ _ H) as (n & d & -> & Q1). destruct (num_value _ _ H0) as (m & e & -> & Q2).
      now apply (num_eqb_value n d m e p q).
    + cbn. apply Bool.eqb_reflx.
    + now apply pstr_eqb_eq.
    + now apply pstr_eqb_eq.
    + now apply date_eqb_iff.
    + apply andb_true_intro. split; [now apply date_eqb_iff|now apply time_eqb_iff].
    + now apply Z.eqb_eq.
    + apply Z.eqb_refl.
    + apply N.eqb_refl.
    + apply andb_true_intro. split; [apply N.eqb_refl|now apply pstr_eqb_eq].
    + apply N.eqb_refl.
Qed.
Lemma simple_equal E n a b : ~ same_container a b ->
  (forall c c' m m', a = VModel c m -> b <> VModel c' m') ->
  (eq_at E (S n) a b = Ok true <-> equal_atoms a b).
Proof.
  intros N M. rewrite <- atoms_equal. cbn [eq_at]. destruct a, b; cbn [eq_step same_container] in *;
    try (exfalso; tauto); try (exfalso; now eapply M); split; congruence.
Qed.
