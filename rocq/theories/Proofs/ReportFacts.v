(** Data from outside can only cause the library's own errors. *)
From Verif.Model Require Import Py Core Export Api.
From Verif.Spec Require Import ImportSpec FuelSpec OrderSpec ReportSpec.
From Verif.Proofs Require Import DictLemmas ImportLemmas ApiLemmas PolyLemmas Candidates Fuel.

Section Facts.
  Context (A : pyval -> Prop) (cl : bool) (E : env) (vb : bool).
  Hypothesis HE : reporting_env A cl E vb.
  Notation built := (built A).
  Notation all_built := (all_built A).
  Notation own_error := (own_error A cl).
  Notation reporting := (reporting A cl E vb).

  Definition kept (r : res pyval) : Prop :=
    match r with Ok w => cl = true -> built w | Raise e => own_error e \/ e = XFuel end.
  Definition kept_data (r : res (list (key * pyval))) : Prop :=
    match r with
    | Ok d => cl = true -> all_built d
    | Raise (XData _ d) => cl = true -> all_built d
    | Raise e => e = XFuel
    end.
  Definition okx (x : ictx) : Prop :=
    cx_convert x = true /\ cx_oo x = true /\ a_mapping (cx_trusted x) /\ built (cx_trusted x) /\ (cx_validate x = true -> vb = true).

  Lemma own_caught e : own_error e -> caught_by_loop e = true.
  Proof. destruct e; cbn; tauto. Qed.
  Lemma built_undef : ~ built VUndef.
  Proof. intros H. inversion H; subst; try discriminate; auto. Qed.
  Lemma built_dict d : built (VDict d) <-> all_built d.
  Proof. split; [|apply bu_dict]. intros H. inversion H; subst; [discriminate|assumption]. Qed.
  Lemma built_model c m : built (VModel c m) <-> built_data A m.
  Proof.
    split.
    - intros H. inversion H; subst; [discriminate|]. now repeat split.
    - intros (H1 & H2 & H3). now apply bu_model.
  Qed.
  Lemma all_get d n v : all_built d -> dget n d = Some v -> built v.
  Proof. intros H G. apply dget_In in G. eapply H, G. Qed.
  Lemma all_set d n v : all_built d -> built v -> all_built (dset n v d).
  Proof.
    intros Hd Hv. induction d as [|[y w] d IH]; cbn [dset].
    - intros n' v' [[= <- <-]|[]]. exact Hv.
    - assert (Hd' : all_built d) by (intros n' v' I; apply (Hd n'); cbn; auto).
      destruct (key_eqb n y).
      + intros n' v' [[= <- <-]|I]; [exact Hv|eapply Hd', I].
      + intros n' v' [[= <- <-]|I]; [apply (Hd y); cbn; auto|eapply IH; eauto].
  Qed.
  Lemma all_update e : forall d, all_built d -> all_built e -> all_built (dupdate d e).
  Proof.
    induction e as [|[y v] e IH]; intros d Hd He; cbn; [exact Hd|]. change (fold_left _ e ?z) with (dupdate z e).
    apply IH; [|intros n' v' I; apply (He n'); cbn; auto]. apply all_set; [exact Hd|apply (He y); cbn; auto].
  Qed.
  Lemma all_del d n : all_built d -> all_built (ddel n d).
  Proof.
    intros Hd. induction d as [|[y w] d IH]; cbn [ddel]; [exact Hd|].
    assert (Hd' : all_built d) by (intros n' v' I; apply (Hd n'); cbn; auto).
    destruct (key_eqb n y); [now apply IH || exact Hd'|].
    intros n' v' [[= <- <-]|I]; [apply (Hd y); cbn; auto|eapply IH; eauto].
  Qed.
  Lemma all_nil : all_built [].
  Proof. intros n v []. Qed.
  Lemma chain_built m n v : built_data A m -> chain_get m n = Some v -> built v.
  Proof.
    intros (H1 & H2 & H3). unfold chain_get.
    destruct (dget n (md_unsafe m)) eqn:G1; [intros [= ->]; eapply all_get; [exact H1|exact G1]|].
    destruct (dget n (md_converted m)) eqn:G2; [intros [= ->]; eapply all_get; [exact H2|exact G2]|].
    intros G3. eapply all_get; [exact H3|exact G3].
  Qed.
  Lemma is_undef_eq v : is_undef v = true -> v = VUndef.
  Proof. destruct v; cbn; congruence. Qed.
  Lemma not_undef v : built v -> is_undef v = false.
  Proof. intros H. destruct (is_undef v) eqn:U; [|reflexivity]. apply is_undef_eq in U. subst. destruct (built_undef H). Qed.

  (** ** Reading mappings and instances *)
  Lemma getitem_built v y w : built v -> py_getitem E v y = Ok w -> built w.
  Proof.
    intros Hv. destruct v; cbn [py_getitem]; try discriminate.
    - destruct (dget y d) eqn:G; [|discriminate]. intros [= <-]. eapply all_get; [apply built_dict; exact Hv|exact G].
    - unfold model_getitem. destruct (dget y (mc_fields (e_class E c))) as [f|] eqn:G; [|discriminate].
      apply dget_In in G. unfold field_get. destruct (fd_get f) as [g|] eqn:Hg.
      + destruct (rp_getters _ _ _ _ HE c y f g G Hg m Hv) as (v & -> & B). rewrite (not_undef v B). now intros [= <-].
      + destruct (chain_get m y) as [v|] eqn:C; [|discriminate].
        assert (B : built v) by (eapply chain_built; [apply (built_model c); exact Hv|exact C]).
        rewrite (not_undef v B). now intros [= <-].
  Qed.
  Lemma getitem_iter c m y : built (VModel c m) -> In y (model_iter E c m) -> exists w, py_getitem E (VModel c m) y = Ok w.
  Proof.
    intros Hv Hi. unfold model_iter in Hi. apply in_map_iff in Hi as ((n & f) & <- & Hi). apply filter_In in Hi as [Hi Hc].
    cbn [fst snd] in *. apply andb_prop in Hc as [Hc _]. cbn [py_getitem]. unfold model_getitem.
    change (mc_fields (e_class E c)) with (fields_of E c). rewrite (In_dget _ _ _ (rp_names _ _ _ _ HE c) Hi). unfold field_get. destruct (fd_get f) as [g|] eqn:Hg.
    - destruct (rp_getters _ _ _ _ HE c n f g Hi Hg m Hv) as (v & -> & B). rewrite (not_undef v B). eauto.
    - unfold chain_mem in Hc. destruct (chain_get m n) as [v|] eqn:C; [|discriminate].
      assert (B : built v) by (eapply chain_built; [apply (built_model c); exact Hv|exact C]).
      rewrite (not_undef v B). eauto.
  Qed.
  Lemma items_In v ks l y w : py_items E v ks = Ok l -> In (y, w) l -> py_getitem E v y = Ok w.
  Proof.
    revert l. induction ks as [|z ks IH]; cbn; intros l.
    - intros [= <-] [].
    - destruct (py_getitem E v z) as [u0|] eqn:G; [|discriminate]. cbn [rbind].
      destruct (py_items E v ks) as [l'|]; [|discriminate]. cbn [rbind]. intros [= <-] [[= -> ->]|H]; [exact G|eauto].
  Qed.
  Lemma items_built v ks l : built v -> py_items E v ks = Ok l -> all_built l.
  Proof. intros Hv H y w I. eapply getitem_built; [exact Hv|]. eapply items_In; eauto. Qed.
  Lemma items_ok v ks : (forall y, In y ks -> exists w, py_getitem E v y = Ok w) -> exists l, py_items E v ks = Ok l.
  Proof.
    induction ks as [|y ks IH]; intros H; cbn; [eauto|]. destruct (H y (or_introl eq_refl)) as [w ->]. cbn [rbind].
    destruct IH as [l ->]; [intros; apply H; cbn; auto|]. cbn. eauto.
  Qed.
  Lemma dict_built v : built v -> a_mapping v -> exists d, py_dict E v = Ok d /\ all_built d.
  Proof.
    intros Hv Hm. destruct v; try destruct Hm; cbn [py_dict py_keys rbind].
    - exists d. split; [reflexivity|]. now apply built_dict.
    - destruct (items_ok (VModel c m) (model_iter E c m)) as [l Hl]; [intros; now apply getitem_iter|].
      exists l. split; [exact Hl|]. eapply items_built; [exact Hv|exact Hl].
  Qed.
  Lemma nested_built x n : a_mapping (cx_trusted x) -> built (cx_trusted x) -> a_mapping (nested_td E x n) /\ built (nested_td E x n).
  Proof.
    intros Hm Hb. unfold nested_td. destruct (truthy (cx_trusted x) && cx_recursive x); [|split; [exact I|apply built_dict, all_nil]].
    assert (B : built (match cx_trusted x with
              | VDict d => match dget n d with Some v => v | None => VNone end
              | v => match py_getitem E v n with Ok w => w | Raise _ => VNone end end)).
    { destruct (cx_trusted x) eqn:T; try destruct Hm.
      - destruct (dget n d) eqn:G; [eapply all_get; [apply built_dict; exact Hb|exact G]|apply bu_none].
      - destruct (py_getitem E _ n) eqn:G; [eapply getitem_built; [exact Hb|exact G]|apply bu_none]. }
    assert (One : forall v, built v -> built (VDict [(n, v)])).
    { intros v Hv. apply built_dict. intros y w [[= <- <-]|[]]. exact Hv. }
    destruct (match cx_trusted x with VDict d => _ | _ => _ end) eqn:T;
      try (split; [exact I|]; apply One; exact B); (split; [exact I|exact B]).
  Qed.
  Lemma field_ctx_ok x n f : okx x -> okx (field_ctx E x n f).
  Proof.
    intros (H1 & H2 & H3 & H4 & H5). unfold field_ctx. destruct (is_compound f); [|now repeat split].
    destruct (nested_built x n H3 H4). now repeat split.
  Qed.

  Section Level.
    Context (fc : fspec -> pyval -> ictx -> res pyval) (pre : fspec -> pyval -> res pyval).
    Hypothesis Hfc : forall f v x, okx x -> reporting f -> built v -> kept (fc f v x).
    Hypothesis Hfu : forall f x, fc f VUndef x = Ok VUndef \/ exists e, fc f VUndef x = Raise e /\ (own_error e \/ e = XFuel).

    Definition fine_state (s : lstate) : Prop := cl = true -> all_built (fst s).
    Definition fine (r : res lstate) : Prop := match r with Ok s => fine_state s | Raise e => e = XFuel end.

    Lemma find_alt_built raw n ks : built raw -> a_mapping raw ->
      exists w, find_alt E raw n ks = Ok w /\ (w = VUndef \/ built w).
    Proof.
      intros Hr Hm. induction ks as [|y ks IH]; cbn; [eauto|].
      destruct (key_true y && negb (key_eqb y n) && py_contains E raw y) eqn:C; [|exact IH].
      apply andb_prop in C as [_ C].
      assert (G : exists w, py_getitem E raw y = Ok w).
      { destruct raw; try destruct Hm; cbn in C |- *.
        - unfold dmem in C. destruct (dget y d); [eauto|discriminate].
        - unfold model_contains in C. destruct (chain_mem m y && _) eqn:CM.
          + apply andb_prop in CM as [_ CM]. destruct (model_getitem E c m y); [eauto|discriminate].
          + unfold model_getitem. destruct (dget y (mc_fields (e_class E c))) as [f|] eqn:G; [|discriminate].
            apply dget_In in G. unfold field_get. cbn in C. destruct (fd_get f) as [g|] eqn:Hg; [|discriminate].
            destruct (rp_getters _ _ _ _ HE c y f g G Hg m Hr) as (v & -> & B). rewrite (not_undef v B). eauto. }
      destruct G as [w G]. exists w. split; [exact G|]. right. eapply getitem_built; eauto.
    Qed.
    Lemma import_field_fine x got raw c n f s : okx x -> (got = true -> built raw /\ a_mapping raw) ->
      In (n, f) (fields_of E c) -> fine_state s -> (got = false -> raw = VNone) -> fine (import_field E fc x got raw n f s).
    Proof.
      intros Hx Hr Hi Hs Hn. unfold import_field. destruct s as [data errors]. cbn zeta. unfold fine_state in Hs. cbn [fst] in Hs.
      assert (S1 : exists v1, (if got && is_undef (atom_value E raw n) then find_alt E raw n (input_keys n (fd_spec f) (cx_mapping x))
                               else Ok (atom_value E raw n)) = Ok v1 /\ (v1 = VUndef \/ built v1)).
      { assert (V0 : atom_value E raw n = VUndef \/ built (atom_value E raw n)).
        { unfold atom_value. destruct (py_getitem E raw n) eqn:G; [|auto]. right. destruct got.
          - eapply getitem_built; [apply Hr; reflexivity|exact G].
          - rewrite (Hn eq_refl) in G. discriminate G. }
        destruct got; cbn [andb]; [|eauto]. destruct (is_undef (atom_value E raw n)); [|eauto].
        destruct (Hr eq_refl). now apply find_alt_built. }
      destruct S1 as (v1 & -> & D1). cbn [rbind].
      destruct (is_undef v1 && dmem n data); [exact Hs|].
      set (df := fo_default (fs_opts (fd_spec f))).
      assert (Dd : is_undef df = false -> built df).
      { intros U. apply (rp_defaults _ _ _ _ HE c n f Hi). intros K. unfold df in U. rewrite K in U. discriminate U. }
      set (v2 := if is_undef v1 && cx_apply_defaults x then df else v1).
      assert (D2 : v2 = VUndef \/ built v2).
      { unfold v2. destruct (is_undef v1 && _); [|exact D1]. destruct (is_undef df) eqn:U; [left; now apply is_undef_eq|right; auto]. }
      set (v3 := if is_undef v2 && cx_init_values x then VNone else v2).
      assert (D3 : v3 = VUndef \/ built v3).
      { unfold v3. destruct (is_undef v2 && _); [right; apply bu_none|exact D2]. }
      assert (St : forall w, (w = VUndef \/ (cl = true -> built w)) ->
                fine (if is_undef w then Ok (data, errors) else Ok (dset n w data, errors))).
      { intros w [->|Hw]; [exact Hs|]. destruct (is_undef w); [exact Hs|]. intros C. cbn. apply all_set; auto. }
      destruct got.
      - assert (R : match fc (fd_spec f) v3 (field_ctx E x n (fd_spec f)) with
                    | Ok w => w = VUndef \/ (cl = true -> built w) | Raise e => own_error e \/ e = XFuel end).
        { destruct D3 as [->|D3].
          - destruct (Hfu (fd_spec f) (field_ctx E x n (fd_spec f))) as [->|(e & -> & He)]; auto.
          - pose proof (Hfc (fd_spec f) v3 _ (field_ctx_ok x n (fd_spec f) Hx) (rp_fields _ _ _ _ HE c n f Hi) D3) as K.
            destruct (fc _ _ _); [right; exact K|exact K]. }
        destruct (fc _ v3 _) as [w|e]; [now apply St|].
        destruct R as [Re| ->]; [|exact eq_refl]. rewrite (own_caught e Re). intros C. cbn [fst].
        assert (D : all_built (if cx_apply_defaults x && negb (is_undef df) then dset n df data else data)).
        { destruct (cx_apply_defaults x); cbn [andb]; [|auto]. destruct (is_undef df); cbn [negb]; [auto|]. apply all_set; auto. }
        destruct e; try exact D. apply all_set; [exact D|]. apply built_dict. now apply Re.
      - apply St. destruct D3; auto.
    Qed.
    Lemma import_fields_fine x got raw c fs : okx x -> (got = true -> built raw /\ a_mapping raw) -> (got = false -> raw = VNone) ->
      incl fs (fields_of E c) -> forall s, fine_state s -> fine (import_fields E fc x got raw fs s).
    Proof.
      intros Hx Hr Hn. induction fs as [|[n f] fs IH]; intros Hi s Hs; cbn [import_fields]; [exact Hs|].
      assert (Hi' : incl fs (fields_of E c)) by (intros q Hq; apply Hi; cbn; auto).
      destruct (negb (cx_validate x) && has_setter f); [now apply IH|].
      pose proof (import_field_fine x got raw c n f s Hx Hr (Hi _ (or_introl eq_refl)) Hs Hn) as K.
      destruct (import_field E fc x got raw n f s) as [s'|e]; cbn [rbind]; [now apply IH|exact K].
    Qed.
    Lemma copy_none raw fs : no_setters fs -> forall data, copy_settable E raw fs data = data.
    Proof.
      induction fs as [|[n f] fs IH]; intros H data; cbn; [reflexivity|].
      unfold has_setter. rewrite (H n f (or_introl eq_refl)). cbn. apply IH. intros ? ? ?; eapply H; cbn; eauto.
    Qed.
    (** The instance a loop works on. *)
    Lemma import_loop_kept x c mut a raw : okx x -> built (VDict raw) -> (cx_validate x = true -> exists items, py_dict E mut = Ok items /\ all_built items) ->
      kept_data (lo_res (import_loop E fc pre x (fields_of E c) mut a (VDict raw))).
    Proof.
      intros Hx Hr Hm. unfold import_loop. cbn [is_none negb andb].
      pose proof Hx as (_ & _ & X3 & X4 & _).
      assert (T : exists td, (if truthy (cx_trusted x) then py_dict E (cx_trusted x) else Ok []) = Ok td /\ all_built td).
      { destruct (truthy _); [now apply dict_built|]. exists []. split; [reflexivity|exact all_nil]. }
      destruct T as (td & -> & Td).
      assert (F : forall raw1 errs, built (VDict raw1) -> kept_data (
          rbind (rogues E x (fields_of E c) (VDict raw1) errs) (fun errs1 =>
           rbind (import_fields E fc x true (VDict raw1) (fields_of E c) (td, errs1)) (fun s =>
             let '(data, errors) := s in
             let data' := if cx_validate x then data else copy_settable E (VDict raw1) (fields_of E c) data in
             match errors with [] => Ok data' | _ => Raise (XData errors data') end)))).
      { intros raw1 errs Hr1.
        assert (R : exists errs1, rogues E x (fields_of E c) (VDict raw1) errs = Ok errs1).
        { unfold rogues. destruct (cx_strict x); cbn; eauto. }
        destruct R as [errs1 ->]. cbn [rbind].
        pose proof (import_fields_fine x true (VDict raw1) c (fields_of E c) Hx (fun _ => conj Hr1 I) ltac:(discriminate)
          (incl_refl _) (td, errs1) (fun _ => Td)) as K.
        destruct (import_fields _ _ _ _ _ _ _) as [[data errors]|e]; cbn [rbind]; [|cbn in K; subst; exact eq_refl].
        rewrite (copy_none (VDict raw1) _ (rp_setters _ _ _ _ HE c)).
        unfold fine, fine_state in K. cbn [fst] in K. destruct (cx_validate x), errors; exact K. }
      destruct (cx_validate x) eqn:V.
      - unfold mutate. rewrite mutate_fields_none by apply (rp_setters _ _ _ _ HE c).
        destruct (Hm eq_refl) as (items & -> & Hi). cbn [lo_res rbind].
        apply F. apply built_dict. apply all_update; [now apply built_dict|exact Hi].
      - cbn [lo_res rbind]. apply F. exact Hr.
    Qed.

    Lemma vm_loop_kept c mut fs : vb = true -> incl fs (fields_of E c) -> NoDup (dkeys fs) -> forall data errs bad,
      (cl = true -> all_built data) -> NoDup bad -> (forall n, In n bad -> ~ In n (dkeys fs)) ->
      (forall n, In n bad -> dmem n data = true) ->
      exists d e b, validate_model_loop (mc_validators (e_class E c)) mut fs data errs bad = Ok (d, e, b) /\
        (cl = true -> all_built d) /\ NoDup b /\ forall n, In n b -> dmem n d = true.
    Proof.
      intros Hv. induction fs as [|[n f] fs IH]; intros Hi Hd data errs bad Hb Nb Hn Hm; cbn [validate_model_loop]; [eauto 8|].
      assert (Hi' : incl fs (fields_of E c)) by (intros q Hq; apply Hi; cbn; auto).
      cbn [dkeys map fst] in Hd, Hn. fold (dkeys fs) in Hd, Hn. inversion Hd as [|? ? Nin Hd']; subst.
      assert (Hn' : forall y, In y bad -> ~ In y (dkeys fs)) by (intros y Hy Q; apply (Hn y Hy); cbn; auto).
      destruct (dget n data) as [v|] eqn:Gd; [|now apply IH].
      destruct (dget n (mc_validators (e_class E c))) as [vf|] eqn:G; [|now apply IH].
      destruct (is_undef v); [now apply IH|]. apply dget_In in G.
      pose proof (rp_validators _ _ _ _ HE Hv c n vf G mut data v Hb) as S. destruct (vf mut data v) as [d1 oe].
      destruct S as (S1 & S2 & S3).
      destruct oe as [e|]; [|apply IH; auto].
      destruct (mv_caught e) as [nd|]; [|congruence].
      apply IH; auto.
      - apply NoDup_app_intro; [exact Nb|repeat constructor; intros []|]. intros y Hy [<-|[]]. apply (Hn n Hy). cbn. auto.
      - intros y Hy. apply in_app_iff in Hy as [Hy|[<-|[]]]; auto.
      - intros y Hy. apply in_app_iff in Hy as [Hy|[<-|[]]]; [auto|]. apply S1. unfold dmem. now rewrite Gd.
    Qed.
    Lemma pop_all_kept bad : NoDup bad -> forall data, (forall n, In n bad -> dmem n data = true) ->
      (cl = true -> all_built data) -> exists d, pop_all bad data = Ok d /\ (cl = true -> all_built d).
    Proof.
      induction 1 as [|n bad Hn Nb IH]; intros data Hm Hb; cbn [pop_all]; [eauto|].
      rewrite (Hm n (or_introl eq_refl)). apply IH.
      - intros y Hy. unfold dmem. rewrite dget_ddel_neq; [apply Hm; cbn; auto|]. intros ->. now apply Hn.
      - intros C. apply all_del. auto.
    Qed.
    Lemma validate_model_kept c mut data : vb = true -> (cl = true -> all_built data) ->
      exists d e, validate_model (mc_validators (e_class E c)) mut (fields_of E c) data = Ok (d, e) /\ (cl = true -> all_built d).
    Proof.
      intros Hv Hb. unfold validate_model.
      destruct (vm_loop_kept c mut (fields_of E c) Hv (incl_refl _) (rp_names _ _ _ _ HE c) data [] [] Hb)
        as (d & e & b & -> & H1 & H2 & H3); [constructor|intros ? []..|].
      cbn [rbind]. destruct (pop_all_kept b H2 d H3 H1) as (d' & -> & H4). cbn. eauto.
    Qed.
    Lemma validate_fn_kept x c mut a raw : okx x -> vb = true -> built (VDict raw) ->
      (cx_validate x = true -> exists items, py_dict E mut = Ok items /\ all_built items) ->
      kept_data (lo_res (validate_fn E fc pre x (e_class E c) mut a (VDict raw))).
    Proof.
      intros Hx Hv Hr Hm. pose proof (import_loop_kept x c mut a raw Hx Hr Hm) as S. unfold fields_of in S.
      unfold validate_fn; cbn [lo_res].
      assert (Fi : forall errs data, (cl = true -> all_built data) -> kept_data (rbind (validate_model (mc_validators (e_class E c))
         (lo_mut (import_loop E fc pre x (mc_fields (e_class E c)) mut a (VDict raw))) (mc_fields (e_class E c)) data)
         (fun '(d, e) => match dupdate errs e with [] => Ok d | errs' => Raise (XData errs' d) end))).
      { intros errs data Hb. destruct (validate_model_kept c
          (lo_mut (import_loop E fc pre x (mc_fields (e_class E c)) mut a (VDict raw))) data Hv Hb) as (d & e & K & Hd).
        unfold fields_of in K. rewrite K. cbn [rbind]. destruct (dupdate errs e); exact Hd. }
      destruct (lo_res (import_loop _ _ _ _ _ _ _ _)) as [data|e]; [now apply Fi|].
      destruct e; try discriminate S; [now apply Fi|exact eq_refl].
    Qed.
    Lemma loop_mut x c c' m a raw : okx x -> a <> AliasSelf -> built (VModel c' m) -> built (VDict raw) ->
      exists m', lo_mut (import_loop E fc pre x (fields_of E c) (VModel c' m) a (VDict raw)) = VModel c' m' /\
        built (VModel c' m') /\ md_unsafe m' = md_unsafe m /\ md_valid m' = md_valid m.
    Proof.
      intros Hx Ha Hm Hr. unfold import_loop. cbn [is_none negb andb].
      pose proof Hx as (_ & _ & X3 & X4 & _).
      assert (T : exists td, (if truthy (cx_trusted x) then py_dict E (cx_trusted x) else Ok []) = Ok td).
      { destruct (truthy _); [|eauto]. destruct (dict_built _ X4 X3) as (td & -> & _). eauto. }
      destruct T as (td & ->). destruct (cx_validate x); [|exists m; auto].
      unfold mutate. rewrite mutate_fields_none by apply (rp_setters _ _ _ _ HE c).
      destruct (dict_built (VModel c' m) Hm I) as (items & -> & Hi). cbn [lo_mut].
      destruct a; [exists m; auto| |congruence]. cbn [set_converted]. eexists. split; [reflexivity|]. split; [|auto].
      apply built_model in Hm as (H1 & H2 & H3). apply built_model. repeat split; auto. cbn.
      apply all_update; [now apply built_dict|exact Hi].
    Qed.
    Lemma empty_built c : built (VModel c md_empty).
    Proof. apply built_model. repeat split; exact all_nil. Qed.
    Lemma empty_dict c : exists items, py_dict E (VModel c md_empty) = Ok items /\ all_built items.
    Proof. apply dict_built; [apply empty_built|exact I]. Qed.
    Lemma model_new_kept c v x : okx x -> built v -> (truthy v = true -> a_mapping v) ->
      match model_new E fc pre c v x with
      | Ok w => cl = true -> built w | Raise e => (exists errs d, e = XData errs d /\ (cl = true -> all_built d)) \/ e = XFuel end.
    Proof.
      intros Hx Hv Hm. unfold model_new.
      assert (D : exists d, (if truthy v then py_dict E v else Ok []) = Ok d /\ built (VDict d)).
      { destruct (truthy v).
        - destruct (dict_built v Hv (Hm eq_refl)) as (d & H & B). exists d. split; [exact H|now apply built_dict].
        - exists []. split; [reflexivity|apply built_dict, all_nil]. }
      destruct D as (d & -> & Hd). cbn [rbind]. cbv zeta.
      set (a := if truthy v then NoAlias else AliasConverted).
      assert (Ha : a <> AliasSelf) by (unfold a; destruct (truthy v); discriminate).
      destruct (loop_mut x c c md_empty a d Hx Ha (empty_built c) Hd) as (m' & L & B & U & V).
      assert (Fin : forall out, lo_mut out = VModel c m' -> kept_data (lo_res out) ->
        match rbind (lo_res out) (fun data => Ok (set_converted (lo_mut out) data)) with
        | Ok w => cl = true -> built w | Raise e => (exists errs d0, e = XData errs d0 /\ (cl = true -> all_built d0)) \/ e = XFuel end).
      { intros out Lo K. destruct (lo_res out) as [data|e]; cbn [rbind].
        - intros C. rewrite Lo. cbn [set_converted]. apply built_model in B as (B1 & B2 & B3). apply built_model. repeat split; cbn; auto.
        - destruct e; try discriminate K; [left; eauto|right; reflexivity]. }
      destruct (cx_validate x) eqn:Vx.
      - apply Fin; [unfold validate_fn; cbn [lo_mut]; exact L|]. apply validate_fn_kept; auto; [now apply Hx|intros _; apply empty_dict].
      - apply Fin; [exact L|]. apply import_loop_kept; auto. congruence.
    Qed.
    Lemma model_new_kept' c v x : okx x -> built v -> (truthy v = true -> a_mapping v) -> kept (model_new E fc pre c v x).
    Proof.
      intros Hx Hv Hm. pose proof (model_new_kept c v x Hx Hv Hm) as K. destruct (model_new _ _ _ _ _ _) as [w|e]; [exact K|].
      destruct K as [(errs & d & -> & Hd)| ->]; [left; exact Hd|right; reflexivity].
    Qed.
    Lemma conv_kept ms : kept (Raise (XConv ms)).
    Proof. left. exact I. Qed.
    Lemma model_convert_kept c v x : okx x -> built v -> kept (model_convert E fc pre c v x).
    Proof.
      intros Hx Hv. unfold model_convert. pose proof Hx as (-> & -> & _). cbn [andb].
      destruct v; try apply conv_kept.
      - apply model_new_kept'; auto; intros _; exact I.
      - destruct (e_issub E c0 c); [|apply conv_kept]. apply model_new_kept'; auto; intros _; exact I.
    Qed.
    Lemma list_loop_kept f x l : okx x -> reporting f -> (forall v, In v l -> built v) -> forall i data errs,
      (cl = true -> forall v, In v data -> built v) ->
      match list_loop fc f x i l data errs with
      | Ok (d, _) => cl = true -> forall v, In v d -> built v | Raise e => e = XFuel end.
    Proof.
      intros Hx Hf. induction l as [|v l IH]; intros Hl i data errs Hd; cbn [list_loop]; [exact Hd|].
      assert (Hl' : forall u, In u l -> built u) by (intros; apply Hl; cbn; auto).
      pose proof (Hfc f v x Hx Hf (Hl v (or_introl eq_refl))) as K. destruct (fc f v x) as [w|e].
      - apply IH; [exact Hl'|]. intros C u Hu. apply in_app_iff in Hu as [Hu|[<-|[]]]; auto.
      - destruct K as [K| ->]; [|exact eq_refl]. unfold is_base_error. rewrite (own_caught e K). now apply IH.
    Qed.
    Lemma key_built c n f : In (n, f) (fields_of E c) -> built (key_val n).
    Proof.
      intros H. pose proof (rp_keys _ _ _ _ HE c n f H) as K. apply bu_atom; destruct n; try reflexivity; try discriminate; exact K.
    Qed.
    Lemma elems_built v l : built v -> list_elems E v = Some l -> forall u, In u l -> built u.
    Proof.
      intros Hv. destruct v; cbn; try discriminate; intros [= <-] u Hu.
      - apply in_map_iff in Hu as (ch & <- & Hc). inversion Hv; subst.
        apply bu_atom; [reflexivity|discriminate|eauto|discriminate].
      - inversion Hv; subst; [discriminate|auto].
      - inversion Hv; subst; [discriminate|auto].
      - apply in_map_iff in Hu as (y & <- & Hy). unfold model_iter in Hy. apply in_map_iff in Hy as ((n & f) & <- & Hy).
        apply filter_In in Hy as [Hy _]. eapply key_built, Hy.
    Qed.
    Lemma list_convert_kept f v x : okx x -> reporting f -> built v -> kept (list_convert E fc f v x).
    Proof.
      intros Hx Hf Hv. unfold list_convert. destruct (list_elems E v) as [l|] eqn:L; [|apply conv_kept].
      pose proof (list_loop_kept f x l Hx Hf (elems_built v l Hv L) 0%Z [] [] (fun _ _ H => match H with end)) as K.
      destruct (list_loop _ _ _ _ _ _ _) as [[d errs]|e]; cbn [rbind]; [|right; exact K].
      destruct errs; [|left; exact I]. intros C. apply bu_list. auto.
    Qed.
    Lemma dict_loop_kept f ck x l : okx x -> reporting f -> (forall y e, ck y = Raise e -> own_error e) -> all_built l -> forall data errs,
      (cl = true -> all_built data) ->
      match dict_loop fc f ck x l data errs with Ok (d, _) => cl = true -> all_built d | Raise e => e = XFuel end.
    Proof.
      intros Hx Hf Hck. induction l as [|[y v] l IH]; intros Hl data errs Hd; cbn [dict_loop]; [exact Hd|].
      assert (Hl' : all_built l) by (intros n u H; apply (Hl n); cbn; auto).
      pose proof (Hfc f v x Hx Hf (Hl y v (or_introl eq_refl))) as K. destruct (fc f v x) as [w|e]; cbn [rbind].
      - destruct (ck y) as [y'|e] eqn:Ek; cbn [rbind].
        + apply IH; [exact Hl'|]. intros C. apply all_set; auto.
        + unfold is_base_error. rewrite (own_caught e (Hck y e Ek)). now apply IH.
      - destruct K as [K| ->]; [|exact eq_refl]. unfold is_base_error. rewrite (own_caught e K). now apply IH.
    Qed.
    Lemma dict_convert_kept f ck v x : okx x -> reporting f -> (forall y e, ck y = Raise e -> own_error e) -> built v ->
      kept (dict_convert fc f ck v x).
    Proof.
      intros Hx Hf Hck Hv. unfold dict_convert. destruct v; try apply conv_kept. apply built_dict in Hv.
      pose proof (dict_loop_kept f ck x d Hx Hf Hck Hv [] [] (fun _ => all_nil)) as K.
      destruct (dict_loop _ _ _ _ _ _ _) as [[d' errs]|e]; cbn [rbind]; [|right; exact K].
      destruct errs; [|left; exact I]. intros C. apply bu_dict. exact (K C).
    Qed.
    Lemma poly_convert_kept p v x : okx x -> built v ->
      (forall v, built v -> vb = true \/ (exists d, v = VDict d) ->
        match find_model E p v with Ok _ => truthy v = true -> a_mapping v | Raise e => own_error e end) ->
      kept (poly_convert E fc pre p v x).
    Proof.
      intros Hx Hv Hp. unfold poly_convert. destruct (is_none v); [intros _; apply bu_none|].
      destruct (negb (cx_validate x) && poly_allowed E p v); [intros _; exact Hv|].
      destruct (negb (cx_validate x) && negb _) eqn:N; [apply conv_kept|].
      assert (Q : vb = true \/ exists d, v = VDict d).
      { destruct (cx_validate x) eqn:V; [left; now apply Hx|]. right. destruct v; try discriminate N. eauto. }
      pose proof (Hp v Hv Q) as K. destruct (find_model E p v) as [c|e]; cbn [rbind]; [now apply model_new_kept'|left; exact K].
    Qed.
  End Level.

  Lemma run_validators_kept gs v : (forall g e, In g gs -> g v = Some e -> own_error e) -> forall acc,
    match run_validators gs v acc with Ok _ => True | Raise e => own_error e end.
  Proof.
    induction gs as [|g gs IH]; intros H acc; cbn [run_validators]; [exact I|].
    pose proof (H g) as S.
    assert (H' : forall g e, In g gs -> g v = Some e -> own_error e) by (intros; eapply H; cbn; eauto).
    destruct (g v) as [e|]; [|now apply IH]. specialize (S e (or_introl eq_refl) eq_refl).
    destruct e; try exact S. destruct stop; [exact I|now apply IH].
  Qed.
  Lemma validators_kept gs v : (cl = true -> built v) -> (forall g e, In g gs -> g v = Some e -> own_error e) -> kept (validators_result gs v).
  Proof.
    intros Hv H. pose proof (run_validators_kept gs v H []) as S. unfold validators_result.
    destruct (run_validators gs v []) as [[|]|e]; [exact Hv|left; exact I|left; exact S].
  Qed.
  Lemma reporting_sound f : reporting f -> not_a_union f -> vb = true -> sound_validators A cl E f.
  Proof. intros H Hu Hv. destruct H; auto; destruct Hu. Qed.
  Lemma union_kept cvt ms v : (forall m, In m ms -> kept (cvt m v)) ->
    match union_resolve cvt ms v with Ok (m, w) => In m ms /\ cvt m v = Ok w | Raise e => own_error e \/ e = XFuel end.
  Proof.
    induction ms as [|m ms IH]; intros H; cbn [union_resolve]; [left; exact I|].
    pose proof (H m (or_introl eq_refl)) as S.
    assert (IH' := IH (fun q Hq => H q (or_intror Hq))). clear IH.
    destruct (cvt m v) as [w|e] eqn:C; [split; [cbn; auto|exact C]|].
    destruct e; try exact S.
    destruct (union_resolve cvt ms v) as [[q w]|e]; [|exact IH']. destruct IH'. split; [cbn; auto|assumption].
  Qed.

  (** ** The converters *)
  Definition conv_kept_at (n : nat) : Prop :=
    (forall f v x, okx x -> reporting f -> built v -> v <> VNone -> kept (cv_convert (conv_at E n) f v x)) /\
    (forall f v x, okx x -> reporting f -> built v -> v <> VNone -> cx_validate x = true -> kept (cv_validate (conv_at E n) f v x)) /\
    (forall f v x, okx x -> reporting f -> built v -> kept (cv_field (conv_at E n) f v x)) /\
    (forall f x, cv_field (conv_at E n) f VUndef x = Ok VUndef \/
       exists e, cv_field (conv_at E n) f VUndef x = Raise e /\ (own_error e \/ e = XFuel)).
  Lemma fuel_kept : kept (Raise XFuel).
  Proof. right. reflexivity. Qed.
  Theorem converters_kept n : conv_kept_at n.
  Proof.
    induction n as [|n (IC & IV & IF & IU)].
    - repeat split; intros; try exact fuel_kept. right. exists XFuel. split; [reflexivity|right; reflexivity].
    - repeat split.
      + intros f v x Hx Hf Hv Nv. cbn [conv_at conv_step cv_convert]. unfold convert_step.
        destruct Hf as [o l Hl Hs|o ms Hms|o c Hs|o p Hp Hs|o g Hg Hs|o g ck Hg Hck Hs]; cbn [fs_type].
        * pose proof (Hl v Hv Nv) as K. destruct (lf_native l v); [exact K|left; exact K].
        * pose proof (union_kept (fun m u => cv_convert (conv_at E n) m u x) ms v
            (fun m Hm => IC m v x Hx (Hms m Hm) Hv Nv)) as K.
          destruct (union_resolve _ _ _) as [[m w]|e]; cbn [rbind]; [|exact K]. destruct K as [Hm K].
          pose proof (IC m v x Hx (Hms m Hm) Hv Nv) as Q. rewrite K in Q. exact Q.
        * apply model_convert_kept; auto.
        * apply poly_convert_kept; auto.
        * apply list_convert_kept; auto.
        * apply dict_convert_kept; auto.
      + intros f v x Hx Hf Hv Nv Vx. cbn [conv_at conv_step cv_validate]. unfold validate_step.
        assert (Hvb : vb = true) by now apply Hx.
        assert (G : not_a_union f -> kept (rbind (cv_convert (conv_at E n) f v x) (validators_result (fo_validators (fs_opts f))))).
        { intros Nu. pose proof (IC f v x Hx Hf Hv Nv) as K. destruct (cv_convert (conv_at E n) f v x) as [w|e] eqn:C; [|exact K].
          cbn [rbind]. apply validators_kept; [exact K|]. intros g e Hg. apply (reporting_sound f Hf Nu Hvb g w e Hg).
          exists n, v, x. auto. }
        rewrite (proj1 Hx). destruct Hf as [o l Hl Hs|o ms Hms|o c Hs|o p Hp Hs|o g Hg Hs|o g ck Hg Hck Hs]; cbn [fs_type] in *;
          try (apply G; exact I).
        pose proof (union_kept (fun m u => cv_convert (conv_at E n) m u x) ms v
            (fun m Hm => IC m v x Hx (Hms m Hm) Hv Nv)) as K.
        destruct (union_resolve _ _ _) as [[m w]|e]; cbn [rbind]; [|exact K]. apply IV; auto. now apply Hms.
      + intros f v x Hx Hf Hv. cbn [conv_at conv_step cv_field]. unfold field_step.
        destruct (check_required f v x) as [e|] eqn:R.
        * unfold check_required in R. destruct (_ && _) in R; [|discriminate R]. injection R as <-. left. exact I.
        * destruct (is_nil v) eqn:N; [intros _; exact Hv|].
          assert (Nv : v <> VNone) by (intros ->; discriminate N).
          destruct (cx_validate x) eqn:V; [now apply IV|now apply IC].
      + intros f x. cbn [conv_at conv_step cv_field]. unfold field_step.
        destruct (check_required f VUndef x) as [e|] eqn:R; [|left; reflexivity].
        unfold check_required in R. destruct (_ && _) in R; [|discriminate R]. injection R as <-. right. eexists. split; [reflexivity|left; exact I].
  Qed.

  (** ** The entry points *)
  Lemma mconv_kept n c m raw td w : kw_convert w = true -> (kw_validate w = true -> vb = true) -> built_data A m ->
    built raw -> (truthy raw = true -> a_mapping raw) -> a_mapping td -> built td ->
    let '(m1, rs) := model__convert E (conv_at E n) c m raw td w in
    kept_data rs /\ all_built (md_converted m1) /\ md_unsafe m1 = [] /\ md_valid m1 = md_valid m.
  Proof.
    intros Hc Hv Hm Hr Mr Mt Ht. destruct (converters_kept n) as (_ & _ & IF & IU).
    unfold model__convert. pose proof Hm as (M1 & M2 & M3).
    assert (D : exists d0, (if truthy raw then py_dict E raw else Ok (md_converted m)) = Ok d0 /\ all_built d0).
    { destruct (truthy raw); [now apply dict_built; auto|eauto]. }
    destruct D as (d0 & -> & D0).
    assert (Tt : a_mapping (if truthy td then td else VDict []) /\ built (if truthy td then td else VDict [])).
    { destruct (truthy td); [auto|]. split; [exact I|apply built_dict, all_nil]. }
    set (td' := if truthy td then td else VDict []) in *.
    assert (G : forall m1 a d1 w1, a <> AliasSelf -> built_data A m1 -> all_built d1 -> kw_convert w1 = true -> kw_validate w1 = kw_validate w ->
       let out := if kw_validate w
                   then validate_fn E (cv_field (conv_at E n)) (cv_pre (conv_at E n)) (kw_ctx w1 td') (e_class E c) (VModel c m1) a (VDict d1)
                   else import_loop E (cv_field (conv_at E n)) (cv_pre (conv_at E n)) (kw_ctx w1 td') (mc_fields (e_class E c)) (VModel c m1) a (VDict d1) in
       exists m2, lo_mut out = VModel c m2 /\ kept_data (lo_res out) /\ all_built (md_converted m2) /\ md_unsafe m2 = md_unsafe m1 /\ md_valid m2 = md_valid m1).
    { intros m1 a d1 w1 Ha B1 Bd C1 V1. cbv zeta.
      assert (Hx : okx (kw_ctx w1 td')).
      { repeat split; cbn; [exact C1|apply Tt|apply Tt|]. rewrite V1. exact Hv. }
      assert (Bm : built (VModel c m1)) by now apply built_model.
      assert (Br : built (VDict d1)) by now apply built_dict.
      destruct (loop_mut (cv_field (conv_at E n)) (cv_pre (conv_at E n)) (kw_ctx w1 td') c c m1 a d1 Hx Ha Bm Br) as (m2 & L & B2 & U & V).
      exists m2. apply built_model in B2 as (_ & B2 & _).
      assert (Di : cx_validate (kw_ctx w1 td') = true -> exists items, py_dict E (VModel c m1) = Ok items /\ all_built items).
      { intros _. apply dict_built; [exact Bm|exact I]. }
      destruct (kw_validate w).
      - split; [unfold validate_fn; cbn [lo_mut]; exact L|]. split; [|auto]. apply validate_fn_kept; auto.
      - split; [exact L|]. split; [|auto]. apply import_loop_kept; auto. }
    destruct (md_unsafe m) as [|p un] eqn:U.
    - destruct (G m (if truthy raw then NoAlias else AliasConverted) d0 w) as (m2 & L & K & B & U2 & V2); auto;
        [destruct (truthy raw); discriminate|].
      cbv zeta in *. rewrite L. repeat split; auto. congruence.
    - destruct (G (md_set_unsafe m []) NoAlias (dupdate (p :: un) d0)
        (KW (kw_mapping w) (kw_partial w) (kw_strict w) (kw_init_values w) (kw_apply_defaults w) true (kw_validate w) (kw_recursive w)))
        as (m2 & L & K & B & U2 & V2); auto; [discriminate| |now apply all_update|].
      + repeat split; cbn; auto. exact all_nil.
      + cbv zeta in *. rewrite L. repeat split; auto.
  Qed.
  Lemma kept_error rs e : kept_data rs -> rs = Raise e -> data_error e.
  Proof. intros K ->. destruct e; try discriminate K; [left; eauto|right; reflexivity]. Qed.
  Lemma validate_body_kept n c m w : kw_convert w = true -> vb = true -> built_data A m ->
    let '(m1, oe) := model_validate_body E (conv_at E n) c m w in
    match oe with None => True | Some e => data_error e end /\ (cl = true -> built_data A m1).
  Proof.
    intros Hc Hv Hm. unfold model_validate_body.
    pose proof (mconv_kept n c m VNone (VDict [])
      (KW (kw_mapping w) (kw_partial w) (kw_strict w) (kw_init_values w) (kw_apply_defaults w) (kw_convert w) true (kw_recursive w))
      Hc (fun _ => Hv) Hm (bu_none A) ltac:(discriminate) I (proj2 (built_dict []) all_nil)) as K.
    destruct (model__convert _ _ _ _ _ _ _) as [m1 rs]. destruct K as (K & B & U & V). pose proof Hm as (_ & _ & M3).
    destruct rs as [d|e].
    - split; [exact I|]. intros C. repeat split; cbn; auto. rewrite U. exact all_nil.
    - pose proof (kept_error _ e K eq_refl) as De. destruct e; (split; [exact De|]); try discriminate K.
      + intros C. repeat split; cbn; auto; [rewrite U; exact all_nil|]. rewrite V. apply all_update; auto.
      + intros C. repeat split; cbn; auto; [rewrite U; exact all_nil|]. now rewrite V.
  Qed.
  Theorem validate_reports n c m w : kw_convert w = true -> vb = true -> built_data A m ->
    let '(m1, oe) := model_validate E (conv_at E n) c m w in
    match oe with None => True | Some e => data_error e end /\ (cl = true -> built_data A m1).
  Proof.
    intros Hc Hv Hm. pose proof (validate_body_kept n c m w Hc Hv Hm) as B. unfold model_validate.
    destruct (model_validate_body E (conv_at E n) c m w) as [m1 oe]. destruct B as [B1 B2].
    assert (G : match oe with None => True | Some e => data_error e end /\ (cl = true -> built_data A (md_set_converted m1 []))).
    { split; [exact B1|]. intros C. destruct (B2 C) as (Q1 & Q2 & Q3). repeat split; cbn; auto. exact all_nil. }
    destruct (md_converted m), (kw_partial w); try exact G. split; [exact I|auto].
  Qed.
  Theorem init_reports n c raw td w : kw_convert w = true -> (kw_validate w = true -> vb = true /\ cl = true) ->
    built raw -> (truthy raw = true -> a_mapping raw) -> all_built td ->
    match model_init E (conv_at E n) c raw (VDict td) w with
    | Ok m => cl = true -> built_data A m
    | Raise e => data_error e
    end.
  Proof.
    intros Hc Hv Hr Mr Ht. unfold model_init.
    assert (B0 : built_data A (MD [] [] td None)) by (repeat split; cbn; auto; exact all_nil).
    pose proof (mconv_kept n c (MD [] [] td None) raw (VDict td) w Hc (fun H => proj1 (Hv H)) B0 Hr Mr I (proj2 (built_dict td) Ht)) as K.
    destruct (model__convert _ _ _ _ _ _ _) as [m1 rs]. destruct K as (K & B & U & V).
    destruct rs as [d|e]; [|exact (kept_error _ e K eq_refl)].
    assert (M2 : cl = true -> built_data A (md_set_converted m1 d)).
    { intros C. repeat split; cbn; auto; [rewrite U; exact all_nil|rewrite V; exact Ht]. }
    destruct (kw_validate w); [|exact M2].
    destruct (Hv eq_refl) as [Vb C].
    pose proof (validate_reports n c (md_set_converted m1 d)
      (KW no_mapping (kw_partial w) false (kw_init_values w) (kw_apply_defaults w) (kw_convert w) true (kw_recursive w)) Hc Vb (M2 C)) as Q.
    destruct (model_validate _ _ _ _ _) as [m3 oe]. destruct Q as [Q1 Q2]. destruct oe as [e|]; [exact Q1|exact Q2].
  Qed.
  Theorem import_reports n c m raw w : kw_convert w = true -> kw_validate w = false -> built_data A m ->
    built raw -> (truthy raw = true -> a_mapping raw) ->
    let '(m1, oe) := model_import_data E (conv_at E n) c m raw w in
    match oe with None => True | Some e => data_error e end /\ (cl = true -> built_data A m1).
  Proof.
    intros Hc Hw Hm Hr Mr. unfold model_import_data.
    destruct (dict_built (VModel c m) (proj2 (built_model c m) Hm) I) as (td & -> & Ht).
    pose proof (mconv_kept n c m raw (VDict td) w Hc ltac:(congruence) Hm Hr Mr I (proj2 (built_dict td) Ht)) as K.
    destruct (model__convert _ _ _ _ _ _ _) as [m1 rs]. destruct K as (K & B & U & V). pose proof Hm as (_ & _ & M3).
    destruct rs as [d|e].
    - rewrite Hw. split; [exact I|]. intros C. repeat split; cbn.
      + rewrite U. exact all_nil.
      + apply all_update; auto.
      + now rewrite V.
    - split; [exact (kept_error _ e K eq_refl)|]. intros C. repeat split; auto; [rewrite U; exact all_nil|now rewrite V].
  Qed.
  (** Assignment: ConversionError as well. *)
  Theorem setitem_reports n c m y f v : In (y, f) (fields_of E c) -> fd_get f = None -> built v -> built_data A m ->
    let '(m1, oe) := model_setitem E (conv_at E n) c m y v in
    match oe with None => True | Some e => (exists ms, e = XConv ms) \/ data_error e end /\ (cl = true -> built_data A m1).
  Proof.
    intros Hi Hg Hv Hm. unfold model_setitem. change (mc_fields (e_class E c)) with (fields_of E c).
    rewrite (In_dget _ _ _ (rp_names _ _ _ _ HE c) Hi), Hg.
    assert (P : match cv_pre (conv_at E n) (fd_spec f) v with
                | Ok w => cl = true -> built w | Raise e => (exists ms, e = XConv ms) \/ data_error e end).
    { destruct n as [|n]; [right; right; reflexivity|]. cbn [conv_at conv_step cv_pre]. unfold pre_step.
      destruct (converters_kept n) as (_ & _ & IF & IU).
      destruct (fs_type (fd_spec f)) as [l|ms|c'|p|g|g ck]; try (intros _; exact Hv).
      destruct v; try (left; eexists; reflexivity); try (intros _; exact Hv).
      assert (Hx : okx default_ctx) by (repeat split; cbn; try exact I; try discriminate; apply built_dict, all_nil).
      pose proof (model_new_kept (cv_field (conv_at E n)) (cv_pre (conv_at E n)) IF IU c' (VDict d) default_ctx Hx Hv (fun _ => I)) as K.
      destruct (model_new _ _ _ _ _ _) as [w|e]; [exact K|]. right. destruct K as [(errs & d' & -> & _)| ->]; [left; eauto|right; reflexivity]. }
    destruct (cv_pre _ _ _) as [w|e].
    - split; [exact I|]. intros C. destruct Hm as (M1 & M2 & M3). repeat split; cbn; auto. apply all_set; auto.
    - split; [exact P|auto].
  Qed.
End Facts.
