(** A stack proportional to the nesting of the input suffices. *)
From Verif.Model Require Import Py Core Export Api.
From Verif.Spec Require Import ImportSpec FuelSpec.
From Verif.Proofs Require Import DictLemmas ImportLemmas ApiLemmas PolyLemmas Fuel.

(** ** Nesting of values *)
Fixpoint ldepth (l : list pyval) : nat := match l with [] => 0 | x :: r => Nat.max (vdepth x) (ldepth r) end.
Fixpoint ddepth (l : list (key * pyval)) : nat := match l with [] => 0 | (_, x) :: r => Nat.max (vdepth x) (ddepth r) end.
Lemma vdepth_list l : vdepth (VList l) = S (ldepth l).
Proof. reflexivity. Qed.
Lemma vdepth_tuple l : vdepth (VTuple l) = S (ldepth l).
Proof. reflexivity. Qed.
Lemma dd_eq d : (fix dd (l : list (key * pyval)) : nat :=
              match l with [] => 0 | (_, x) :: r => Nat.max (vdepth x) (dd r) end) d = ddepth d.
Proof. induction d as [|[y x] l IH]; cbn; [reflexivity|]. now rewrite IH. Qed.
Lemma vdepth_dict d : vdepth (VDict d) = S (ddepth d).
Proof. cbn. now rewrite dd_eq. Qed.
Lemma vdepth_model c m : vdepth (VModel c m) = S (S (Nat.max (ddepth (md_unsafe m)) (Nat.max (ddepth (md_converted m)) (ddepth (md_valid m))))).
Proof. cbn. now rewrite !dd_eq. Qed.
Lemma ldepth_In l v : In v l -> vdepth v <= ldepth l.
Proof. induction l as [|x l IH]; cbn; [intros []|]. intros [->|H]; [lia|]. apply IH in H. lia. Qed.
Lemma ddepth_In d y v : In (y, v) d -> vdepth v <= ddepth d.
Proof. induction d as [|[z x] l IH]; cbn; [intros []|]. intros [[= -> ->]|H]; [lia|]. apply IH in H. lia. Qed.
Lemma ddepth_get d y v : dget y d = Some v -> vdepth v <= ddepth d.
Proof. intros H. apply dget_In in H. eapply ddepth_In, H. Qed.
Lemma ddepth_dset y v d : ddepth (dset y v d) <= Nat.max (vdepth v) (ddepth d).
Proof. induction d as [|[z x] l IH]; cbn; [lia|]. destruct (key_eqb y z); cbn; lia. Qed.
Lemma ddepth_dupdate e : forall d, ddepth (dupdate d e) <= Nat.max (ddepth d) (ddepth e).
Proof.
  induction e as [|[y v] e IH]; intros d; cbn; [lia|]. change (fold_left _ e ?z) with (dupdate z e).
  pose proof (IH (dset y v d)). pose proof (ddepth_dset y v d). lia.
Qed.
Lemma chain_depth c m y v : chain_get m y = Some v -> vdepth v < vdepth (VModel c m).
Proof.
  rewrite vdepth_model. unfold chain_get.
  destruct (dget y (md_unsafe m)) eqn:G1; [intros [= ->]; apply ddepth_get in G1; lia|].
  destruct (dget y (md_converted m)) eqn:G2; [intros [= ->]; apply ddepth_get in G2; lia|].
  intros G3. apply ddepth_get in G3. lia.
Qed.

Lemma settles_ok {A} (a : A) : settles (Ok a). Proof. discriminate. Qed.
Lemma settles_bind {A B} (a : res A) (g : A -> res B) : settles a -> (forall x, a = Ok x -> settles (g x)) -> settles (rbind a g).
Proof.
  intros H1 H2. destruct a as [x|e]; cbn; [now apply H2|]. intros K. apply H1. injection K as ->. reflexivity.
Qed.

(** The nesting that matters to a field. *)
Definition need (f : fspec) (v : pyval) : nat := if holds_values f then vdepth v else 0.
Lemma need_le f v : need f v <= vdepth v.
Proof. unfold need. destruct (holds_values f); lia. Qed.
Lemma need_member o ms m v : In m ms -> not_a_union m -> need m v <= need (FS o (TUnion ms)) v.
Proof.
  intros H N. unfold need, holds_values. cbn [fs_type]. destruct (match fs_type m with TUnion ms => _ | _ => _ end) eqn:C; [|lia].
  replace (existsb is_compound ms) with true; [lia|]. symmetry. apply existsb_exists. exists m. split; [exact H|].
  unfold not_a_union in N. destruct (fs_type m); try exact C. destruct N.
Qed.
Lemma depth_scalar_key y : vdepth (key_val y) <= 1.
Proof. destruct y as [s|z]; cbn; [destruct s; cbn; lia|destruct (Z.eqb z 0); cbn; lia]. Qed.

Section Bound.
  Context (E : env).
  Hypothesis HE : calm_env E.

  Lemma getitem_settles v y : settles (py_getitem E v y).
  Proof.
    destruct v; cbn; try discriminate; [destruct (dget y d); discriminate|].
    unfold model_getitem. destruct (dget y (mc_fields (e_class E c))) as [f|] eqn:G; [|discriminate].
    apply dget_In in G. destruct (ca_plain E HE c y f G) as [Hg _]. unfold field_get. rewrite Hg.
    destruct (chain_get m y) as [v|]; [destruct (is_undef v)|]; discriminate.
  Qed.
  Lemma getitem_depth v y w : py_getitem E v y = Ok w -> vdepth w < vdepth v.
  Proof.
    destruct v; cbn [py_getitem]; try discriminate.
    - destruct (dget y d) eqn:G; [|discriminate]. intros [= ->]. apply ddepth_get in G. rewrite vdepth_dict. lia.
    - unfold model_getitem. destruct (dget y (mc_fields (e_class E c))) as [f|] eqn:G; [|discriminate].
      apply dget_In in G. destruct (ca_plain E HE c y f G) as [Hg _]. unfold field_get. rewrite Hg.
      destruct (chain_get m y) as [v|] eqn:C; [destruct (is_undef v)|]; try discriminate.
      intros [= ->]. eapply chain_depth, C.
  Qed.
  Lemma items_settle v ks : settles (py_items E v ks).
  Proof.
    induction ks as [|y ks IH]; cbn; [discriminate|].
    apply settles_bind; [apply getitem_settles|]. intros w _. apply settles_bind; [exact IH|]. discriminate.
  Qed.
  Lemma items_In v ks l y w : py_items E v ks = Ok l -> In (y, w) l -> py_getitem E v y = Ok w.
  Proof.
    revert l. induction ks as [|z ks IH]; cbn; intros l.
    - intros [= <-] [].
    - destruct (py_getitem E v z) as [u0|] eqn:G; [|discriminate]. cbn [rbind].
      destruct (py_items E v ks) as [l'|]; [|discriminate]. cbn [rbind]. intros [= <-] [[= -> ->]|H]; [exact G|eauto].
  Qed.
  Lemma dict_settles v : settles (py_dict E v).
  Proof.
    destruct v; cbn [py_dict py_keys rbind]; try discriminate. apply items_settle.
  Qed.
  Lemma dict_depth v d : py_dict E v = Ok d -> ddepth d < vdepth v.
  Proof.
    assert (B : forall l, (forall y w, In (y, w) l -> vdepth w < vdepth v) -> 0 < vdepth v -> ddepth l < vdepth v).
    { induction l as [|[y w] l IH]; cbn; intros H P; [exact P|].
      assert (vdepth w < vdepth v) by (apply (H y); cbn; auto).
      assert (ddepth l < vdepth v) by (apply IH; [intros; eapply H; cbn; eauto|exact P]). lia. }
    destruct v; cbn [py_dict py_keys rbind]; try discriminate.
    - intros [= ->]. rewrite vdepth_dict. lia.
    - intros H. apply B; [|rewrite vdepth_model; lia]. intros y w Hi. eapply getitem_depth, items_In; eauto.
  Qed.

  Section Level.
    Context (fc : fspec -> pyval -> ictx -> res pyval) (pre : fspec -> pyval -> res pyval) (b : nat).
    Hypothesis Hfc : forall f v x, calm E f -> need f v <= b -> settles (fc f v x).

    Definition shallow (raw : pyval) : Prop := vdepth raw <= S b.
    Definition shallow_mut (mut : pyval) : Prop := forall d, py_dict E mut = Ok d -> ddepth d <= b.
    Lemma shallow_self v : shallow v -> shallow_mut v.
    Proof. intros H d K. apply dict_depth in K. unfold shallow in H. lia. Qed.
    Lemma shallow_get raw y w : shallow raw -> py_getitem E raw y = Ok w -> vdepth w <= b.
    Proof. intros H G. apply getitem_depth in G. unfold shallow in H. lia. Qed.
    Lemma find_alt_ok raw n ks : shallow raw ->
      settles (find_alt E raw n ks) /\ forall w, find_alt E raw n ks = Ok w -> vdepth w <= b.
    Proof.
      intros Hr. induction ks as [|y ks IH]; cbn.
      - split; [discriminate|]. intros w [= <-]. cbn. lia.
      - destruct (key_true y && negb (key_eqb y n) && py_contains E raw y); [|exact IH].
        split; [apply getitem_settles|]. intros w H. eapply shallow_get; [exact Hr|exact H].
    Qed.
    Lemma import_field_settles x got raw c n f s : shallow raw -> In (n, f) (fields_of E c) ->
      settles (import_field E fc x got raw n f s).
    Proof.
      intros Hr Hi. unfold import_field. destruct s as [data errors]. cbn zeta.
      assert (A : vdepth (atom_value E raw n) <= b).
      { unfold atom_value. destruct (py_getitem E raw n) eqn:G; [eapply shallow_get; [exact Hr|exact G]|cbn; lia]. }
      destruct (find_alt_ok raw n (input_keys n (fd_spec f) (cx_mapping x)) Hr) as [F1 F2].
      apply settles_bind; [destruct (got && is_undef (atom_value E raw n)); [exact F1|discriminate]|].
      intros v1 H1.
      assert (D1 : vdepth v1 <= b).
      { destruct (got && is_undef (atom_value E raw n)); [now apply F2|]. injection H1 as <-. exact A. }
      destruct (is_undef v1 && dmem n data); [discriminate|].
      set (v2 := if is_undef v1 && cx_apply_defaults x then _ else v1).
      assert (D2 : need (fd_spec f) v2 <= b).
      { unfold v2. destruct (is_undef v1 && _); [|pose proof (need_le (fd_spec f) v1); lia].
        unfold need. destruct (holds_values (fd_spec f)) eqn:C; [|lia]. rewrite (ca_default E HE c n f Hi C). lia. }
      set (v3 := if is_undef v2 && cx_init_values x then VNone else v2).
      assert (D3 : need (fd_spec f) v3 <= b).
      { unfold v3; destruct (is_undef v2 && _); [|exact D2]. pose proof (need_le (fd_spec f) VNone). cbn in *. lia. }
      destruct got.
      - destruct (fc (fd_spec f) v3 (field_ctx E x n (fd_spec f))) as [w|e] eqn:F.
        + destruct (is_undef w); discriminate.
        + destruct (caught_by_loop e) eqn:C; [discriminate|]. intros K. injection K as ->.
          eapply Hfc; [eapply (ca_calm E HE), Hi|exact D3|exact F].
      - destruct (is_undef v3); discriminate.
    Qed.
    Lemma import_fields_settles x got raw c fs : shallow raw -> incl fs (fields_of E c) ->
      forall s, settles (import_fields E fc x got raw fs s).
    Proof.
      intros Hr. induction fs as [|[n f] fs IH]; intros Hi s; cbn [import_fields]; [discriminate|].
      assert (Hi' : incl fs (fields_of E c)) by (intros q Hq; apply Hi; cbn; auto).
      destruct (negb (cx_validate x) && has_setter f); [now apply IH|].
      apply settles_bind; [|intros; now apply IH]. apply (import_field_settles x got raw c); [exact Hr|apply Hi; cbn; auto].
    Qed.
    Lemma class_plain c : no_setters (fields_of E c).
    Proof. apply plain_no_setters, (ca_plain E HE). Qed.
    Lemma import_loop_settles x c mut a raw : shallow raw -> shallow_mut mut ->
      settles (lo_res (import_loop E fc pre x (fields_of E c) mut a raw)).
    Proof.
      intros Hr Hm. unfold import_loop.
      assert (T : settles (if truthy (cx_trusted x) then py_dict E (cx_trusted x) else Ok [])).
      { destruct (truthy _); [apply dict_settles|discriminate]. }
      destruct (if truthy (cx_trusted x) then _ else _) as [td|e] eqn:Te; [|cbn; congruence].
      assert (F : forall (got : bool) raw1 errs, shallow raw1 -> settles (
          rbind (if got then rogues E x (fields_of E c) raw1 errs else Ok errs) (fun errs1 =>
           rbind (import_fields E fc x got raw1 (fields_of E c) (td, errs1)) (fun s =>
             let '(data, errors) := s in
             let data' := if cx_validate x then data else copy_settable E raw1 (fields_of E c) data in
             match errors with [] => Ok data' | _ => Raise (XData errors data') end)))).
      { intros got raw1 errs Hr1. apply settles_bind.
        - destruct got; [|discriminate]. unfold rogues. destruct (cx_strict x); [|discriminate].
          destruct (py_keys E raw1) eqn:K; [discriminate|]. destruct raw1; cbn in K; try discriminate K; injection K as <-; discriminate.
        - intros errs1 _. apply settles_bind; [apply (import_fields_settles x got raw1 c); [exact Hr1|apply incl_refl]|].
          intros [data errors] _. destruct errors; discriminate. }
      destruct (negb (is_none raw) && cx_validate x).
      - unfold mutate. rewrite mutate_fields_none by apply class_plain.
        destruct raw; try (cbn; discriminate).
        pose proof (dict_settles mut) as Sd. destruct (py_dict E mut) as [items|e] eqn:Di; [|cbn; congruence].
        cbn [lo_res rbind]. apply F. unfold shallow in *. rewrite vdepth_dict in *.
        specialize (Hm _ Di). pose proof (ddepth_dupdate items d). lia.
      - cbn [lo_res rbind]. now apply F.
    Qed.

    Lemma vm_loop_settles c mut fs : forall data errs bad,
      settles (validate_model_loop (mc_validators (e_class E c)) mut fs data errs bad).
    Proof.
      induction fs as [|[n f] fs IH]; intros data errs bad; cbn [validate_model_loop]; [discriminate|].
      destruct (dget n data) as [v|]; [|apply IH]. destruct (dget n (mc_validators (e_class E c))) as [vf|] eqn:G; [|apply IH].
      destruct (is_undef v); [apply IH|]. apply dget_In in G.
      pose proof (ca_validators E HE c n vf G mut data v) as S. destruct (vf mut data v) as [d1 oe]. cbn in S.
      destruct oe as [e|]; [|apply IH]. destruct (mv_caught e); [apply IH|].
      intros K. injection K as ->. now apply S.
    Qed.
    Lemma pop_all_settles bad : forall data, settles (pop_all bad data).
    Proof.
      induction bad as [|n bad IH]; intros data; cbn; [discriminate|]. destruct (dmem n data); [apply IH|discriminate].
    Qed.
    Lemma validate_model_settles c mut fs data : settles (validate_model (mc_validators (e_class E c)) mut fs data).
    Proof.
      unfold validate_model. apply settles_bind; [apply vm_loop_settles|]. intros [[d e] bad] _.
      apply settles_bind; [apply pop_all_settles|]. discriminate.
    Qed.
    Lemma validate_fn_settles x c mut a raw : shallow raw -> shallow_mut mut ->
      settles (lo_res (validate_fn E fc pre x (e_class E c) mut a raw)).
    Proof.
      intros Hr Hm. pose proof (import_loop_settles x c mut a raw Hr Hm) as S. unfold fields_of in S.
      unfold validate_fn; cbn [lo_res].
      assert (Fi : forall errs data, settles (rbind (validate_model (mc_validators (e_class E c))
         (lo_mut (import_loop E fc pre x (mc_fields (e_class E c)) mut a raw)) (mc_fields (e_class E c)) data)
         (fun '(d, e) => match dupdate errs e with [] => Ok d | errs' => Raise (XData errs' d) end))).
      { intros errs data. apply settles_bind; [apply validate_model_settles|]. intros [d e] _.
        destruct (dupdate errs e); discriminate. }
      destruct (lo_res (import_loop _ _ _ _ _ _ _ _)) as [data|e]; [apply Fi|].
      destruct e; try discriminate; [apply Fi|congruence].
    Qed.
    Lemma model_new_settles c v x : shallow v -> settles (model_new E fc pre c v x).
    Proof.
      intros Hv. unfold model_new.
      assert (M : shallow_mut (VModel c md_empty)).
      { intros d H. cbn [py_dict py_keys rbind] in H.
        assert (I : model_iter E c md_empty = []).
        { unfold model_iter. replace (filter _ _) with (@nil (key * field)); [reflexivity|].
          induction (mc_fields (e_class E c)) as [|p l IH]; [reflexivity|]. cbn. exact IH. }
        rewrite I in H. injection H as <-. cbn. lia. }
      apply settles_bind; [destruct (truthy v); [apply dict_settles|discriminate]|]. intros d Hd.
      assert (D : shallow (VDict d)).
      { unfold shallow in *. rewrite vdepth_dict. destruct (truthy v).
        - apply dict_depth in Hd. lia.
        - injection Hd as <-. cbn. lia. }
      cbn zeta. apply settles_bind.
      - destruct (cx_validate x); [now apply validate_fn_settles|now apply import_loop_settles].
      - discriminate.
    Qed.
    Lemma class_convert_settles c v x : shallow v -> settles (model_class_convert E fc pre c v x).
    Proof.
      intros Hv. unfold model_class_convert. apply settles_bind; [apply import_loop_settles; [exact Hv|now apply shallow_self]|]. discriminate.
    Qed.
    Lemma model_convert_settles c v x : shallow v -> settles (model_convert E fc pre c v x).
    Proof.
      intros Hv. unfold model_convert.
      assert (R : forall c', settles (if cx_convert x && cx_oo x then model_new E fc pre c' v x else model_class_convert E fc pre c' v x)).
      { intros c'. destruct (cx_convert x && cx_oo x); [now apply model_new_settles|now apply class_convert_settles]. }
      destruct v; try discriminate; [apply R|]. destruct (e_issub E c0 c); [apply R|discriminate].
    Qed.
    Lemma list_loop_settles f x l : calm E f -> (forall v, In v l -> vdepth v <= b) ->
      forall i data errs, settles (list_loop fc f x i l data errs).
    Proof.
      intros Hf. induction l as [|v l IH]; intros Hl i data errs; cbn [list_loop]; [discriminate|].
      assert (Hl' : forall u, In u l -> vdepth u <= b) by (intros; apply Hl; cbn; auto).
      assert (S : settles (fc f v x)) by (apply Hfc; [exact Hf|pose proof (need_le f v); pose proof (Hl v (or_introl eq_refl)); lia]).
      destruct (fc f v x) as [w|e]; [now apply IH|]. destruct (is_base_error e); [now apply IH|congruence].
    Qed.
    Lemma list_convert_settles f v x : calm E f -> shallow v -> settles (list_convert E fc f v x).
    Proof.
      intros Hf Hv. unfold list_convert, shallow in *. destruct (list_elems E v) as [l|] eqn:L; [|discriminate].
      apply settles_bind.
      - apply list_loop_settles; [exact Hf|]. intros u Hu. destruct v; cbn in L; try discriminate; injection L as <-.
        + apply in_map_iff in Hu as (ch & <- & _). cbn [vdepth] in *. destruct (truthy _); lia.
        + rewrite vdepth_list in Hv. apply ldepth_In in Hu. lia.
        + rewrite vdepth_tuple in Hv. apply ldepth_In in Hu. lia.
        + apply in_map_iff in Hu as (y & <- & _). pose proof (depth_scalar_key y). rewrite vdepth_model in Hv. lia.
      - intros [data errs] _. destruct errs; discriminate.
    Qed.
    Lemma dict_loop_settles f ck x l : calm E f -> (forall y, settles (ck y)) -> (forall y v, In (y, v) l -> vdepth v <= b) ->
      forall data errs, settles (dict_loop fc f ck x l data errs).
    Proof.
      intros Hf Hck. induction l as [|[y v] l IH]; intros Hl data errs; cbn [dict_loop]; [discriminate|].
      assert (Hl' : forall z u, In (z, u) l -> vdepth u <= b) by (intros; eapply Hl; cbn; eauto).
      assert (S : settles (rbind (fc f v x) (fun w => rbind (ck y) (fun y' => Ok (y', w))))).
      { apply settles_bind; [apply Hfc; [exact Hf|pose proof (need_le f v); pose proof (Hl y v (or_introl eq_refl)); lia]|]. intros w _.
        apply settles_bind; [apply Hck|discriminate]. }
      destruct (rbind _ _) as [[y' w]|e]; [now apply IH|]. destruct (is_base_error e); [now apply IH|congruence].
    Qed.
    Lemma dict_convert_settles f ck v x : calm E f -> (forall y, settles (ck y)) -> shallow v -> settles (dict_convert fc f ck v x).
    Proof.
      intros Hf Hck Hv. unfold dict_convert, shallow in *. destruct v; try discriminate.
      apply settles_bind.
      - apply dict_loop_settles; auto. intros y u Hu. rewrite vdepth_dict in Hv. apply ddepth_In in Hu. lia.
      - intros [data errs] _. destruct errs; discriminate.
    Qed.
    Lemma poly_scan_settles v cs : forall fb hits, settles (poly_scan E v cs fb hits).
    Proof.
      induction cs as [|c cs IH]; intros fb hits; cbn [poly_scan]; [discriminate|].
      destruct (mc_claim (e_class E c)) as [cl|] eqn:C; [|apply IH].
      apply settles_bind; [eapply (ca_claim E HE), C|]. intros; apply IH.
    Qed.
    Lemma poly_convert_settles p v x : shallow v -> settles (poly_convert E fc pre p v x).
    Proof.
      intros Hv. unfold poly_convert. destruct (is_none v); [discriminate|].
      destruct (negb (cx_validate x) && poly_allowed E p v); [discriminate|].
      destruct (negb (cx_validate x) && negb _); [discriminate|].
      apply settles_bind; [|intros; now apply model_new_settles].
      unfold find_model. destruct (po_claim p) as [cf|]; [destruct (cf v); discriminate|].
      apply settles_bind; [apply poly_scan_settles|]. intros [fb hits] _.
      destruct hits as [|c1 [|c2 l]]; [destruct fb| |]; discriminate.
    Qed.
  End Level.

  Lemma run_validators_settles gs v : (forall g u, In g gs -> settles_opt (g u)) -> forall acc, settles (run_validators gs v acc).
  Proof.
    induction gs as [|g gs IH]; intros H acc; cbn [run_validators]; [discriminate|].
    pose proof (H g v (or_introl eq_refl)) as S.
    assert (H' : forall g u, In g gs -> settles_opt (g u)) by (intros; apply H; cbn; auto).
    destruct (g v) as [e|]; [|now apply IH].
    destruct e; try discriminate; [destruct stop; [discriminate|now apply IH]|]. exfalso. now apply S.
  Qed.
  Lemma validators_settle gs v : (forall g u, In g gs -> settles_opt (g u)) -> settles (validators_result gs v).
  Proof.
    intros H. pose proof (run_validators_settles gs v H []) as S. unfold validators_result.
    destruct (run_validators gs v []) as [[|]|e]; try discriminate. congruence.
  Qed.
  Lemma union_settles cvt ms v : (forall m, In m ms -> settles (cvt m v)) -> settles (union_resolve cvt ms v).
  Proof.
    induction ms as [|m ms IH]; intros H; cbn [union_resolve]; [discriminate|].
    pose proof (H m (or_introl eq_refl)) as S.
    assert (H' : forall m, In m ms -> settles (cvt m v)) by (intros; apply H; cbn; auto).
    destruct (cvt m v) as [w|e]; [discriminate|]. destruct e; try discriminate; [now apply IH|congruence].
  Qed.

  Lemma calm_validators f : calm E f -> not_a_union f -> forall g u, In g (fo_validators (fs_opts f)) -> settles_opt (g u).
  Proof. intros H Hu. destruct H; cbn in *; auto; contradiction. Qed.

  Lemma shallow_convert n f v x : calm E f -> not_a_union f -> is_nil v = false -> need f v = 0 -> settles (cv_convert (conv_at E (S n)) f v x).
  Proof.
    intros Hf Hu Hn Hv. cbn [conv_at conv_step cv_convert]. unfold convert_step, need, holds_values in *.
    destruct Hf; cbn [fs_type is_compound] in *.
    - apply H0.
    - destruct Hu.
    - destruct v; try discriminate; rewrite ?vdepth_dict, ?vdepth_model in Hv; discriminate Hv.
    - unfold poly_convert. replace (is_none v) with false by (destruct v; [discriminate Hn|..]; reflexivity).
      destruct (negb (cx_validate x) && poly_allowed E p v); [discriminate|].
      destruct (negb (cx_validate x) && negb _); [discriminate|].
      apply settles_bind; [|intros c _].
      + unfold find_model. destruct (po_claim p) as [cf|]; [destruct (cf v); discriminate|].
        apply settles_bind; [apply poly_scan_settles|]. intros [fb hits] _.
        destruct hits as [|c1 [|c2 l]]; [destruct fb| |]; discriminate.
      + unfold model_new. assert (T : truthy v = true).
        { destruct v; try discriminate Hn; try discriminate Hv; try reflexivity;
            cbn [vdepth] in Hv; destruct (truthy _); congruence. }
        rewrite T. destruct v; try discriminate; rewrite ?vdepth_dict, ?vdepth_model in Hv; discriminate Hv.
    - unfold list_convert. destruct v; try discriminate; rewrite ?vdepth_list, ?vdepth_tuple, ?vdepth_model in Hv; discriminate Hv.
    - unfold dict_convert. destruct v; try discriminate; rewrite ?vdepth_dict in Hv; discriminate Hv.
  Qed.
  Lemma deep_convert b n f v x :
    (forall f v x, calm E f -> need f v <= b -> settles (cv_field (conv_at E n) f v x)) ->
    calm E f -> not_a_union f -> is_nil v = false -> need f v <= S b -> settles (cv_convert (conv_at E (S n)) f v x).
  Proof.
    intros Hfc Hf Hu Hn Hv. destruct (need f v) as [|m] eqn:N; [now apply shallow_convert|].
    unfold need, holds_values in N.
    assert (Sh : shallow b v) by (unfold shallow; destruct (match fs_type f with TUnion ms => _ | _ => _ end); [lia|discriminate]).
    cbn [conv_at conv_step cv_convert]. unfold convert_step, is_compound in *.
    destruct Hf; cbn [fs_type] in *; try discriminate N.
    - destruct Hu.
    - now apply (model_convert_settles _ _ b).
    - now apply (poly_convert_settles _ _ b).
    - now apply (list_convert_settles _ b).
    - now apply (dict_convert_settles _ b).
  Qed.
  (** From the conversion of values by types other than unions to the handling of fields. *)
  Section Layers.
    Context (k d : nat) (Hcv : forall f v x j, calm E f -> not_a_union f -> is_nil v = false -> need f v <= d -> k <= j ->
      settles (cv_convert (conv_at E j) f v x)).
    Lemma resolve_settles o ms v x j : calm E (FS o (TUnion ms)) -> is_nil v = false -> need (FS o (TUnion ms)) v <= d -> k <= j ->
      settles (union_resolve (fun m u => cv_convert (conv_at E j) m u x) ms v).
    Proof.
      intros Hf Hn Hd Hj. inversion Hf as [|? ? H1 H2| | | |]; subst. apply union_settles. intros m Hm.
      apply Hcv; auto. pose proof (need_member o ms m v Hm (H2 m Hm)). lia.
    Qed.
    Lemma convert_settles f v x j : calm E f -> is_nil v = false -> need f v <= d -> S k <= j -> settles (cv_convert (conv_at E j) f v x).
    Proof.
      intros Hf Hn Hd Hj. destruct f as [o t]. destruct t as [l|ms|c|p|g|g ck]; try (apply Hcv; auto; exact I || lia).
      destruct j as [|j]; [lia|]. cbn [conv_at conv_step cv_convert]. unfold convert_step. cbn [fs_type].
      apply settles_bind; [apply (resolve_settles o); auto; lia|]. intros [m w] _. discriminate.
    Qed.
    Lemma validate_settles_1 f v x j : calm E f -> not_a_union f -> is_nil v = false -> need f v <= d -> S k <= j ->
      settles (cv_validate (conv_at E j) f v x).
    Proof.
      intros Hf Hu Hn Hd Hj. destruct j as [|j]; [lia|]. cbn [conv_at conv_step cv_validate]. unfold validate_step.
      assert (Hc : settles (cv_convert (conv_at E j) f v x)) by (apply Hcv; auto; lia).
      assert (G : settles (rbind (if cx_convert x then cv_convert (conv_at E j) f v x
                 else if is_compound f then rbind (cv_convert (conv_at E j) f v x) (fun _ => Ok v) else Ok v)
                (validators_result (fo_validators (fs_opts f))))).
      { apply settles_bind.
        - destruct (cx_convert x); [exact Hc|]. destruct (is_compound f); [|discriminate].
          apply settles_bind; [exact Hc|discriminate].
        - intros w _. apply validators_settle. now apply calm_validators. }
      unfold not_a_union in Hu. destruct (fs_type f); try exact G. destruct Hu.
    Qed.
    Lemma validate_settles f v x j : calm E f -> is_nil v = false -> need f v <= d -> S (S k) <= j -> settles (cv_validate (conv_at E j) f v x).
    Proof.
      intros Hf Hn Hd Hj. destruct f as [o t]. destruct t as [l|ms|c|p|g|g ck]; try (apply validate_settles_1; auto; exact I || lia).
      destruct j as [|j]; [lia|]. cbn [conv_at conv_step cv_validate]. unfold validate_step. cbn [fs_type].
      apply settles_bind; [apply (resolve_settles o); auto; lia|]. intros [m w] U. apply union_In in U as [U _].
      inversion Hf as [|? ? H1 H2| | | |]; subst. apply validate_settles_1; auto; [|lia].
      pose proof (need_member o ms m v U (H2 m U)). lia.
    Qed.
    Lemma field_settles f v x j : calm E f -> need f v <= d -> S (S (S k)) <= j -> settles (cv_field (conv_at E j) f v x).
    Proof.
      intros Hf Hd Hj. destruct j as [|j]; [lia|]. cbn [conv_at conv_step cv_field]. unfold field_step.
      destruct (check_required f v x) as [e|] eqn:R.
      - unfold check_required in R. intros K. injection K as ->. destruct (_ && _) in R; discriminate R.
      - destruct (is_nil v) eqn:N; [discriminate|]. destruct (cx_validate x); [apply validate_settles|apply convert_settles]; auto; lia.
    Qed.
  End Layers.

  (** A stack four times the nesting settles. *)
  Lemma conv_settles d : forall n f v x, calm E f -> need f v <= d -> 4 * d + 4 <= n -> settles (cv_field (conv_at E n) f v x).
  Proof.
    induction d as [|d IH]; intros n f v x Hf Hv Hn.
    - apply (field_settles 1 0); auto. intros g u y j Hg Hu Nu Du Hj. destruct j as [|j]; [lia|]. apply shallow_convert; auto. lia.
    - apply (field_settles (S (4 * d + 4)) (S d)); auto; [|lia]. intros g u y j Hg Hu Nu Du Hj. destruct j as [|j]; [lia|].
      apply (deep_convert d); auto. intros. apply IH; auto. lia.
  Qed.
  Lemma conv_bound n f v x : calm E f -> 4 * vdepth v + 4 <= n -> settles (cv_field (conv_at E n) f v x).
  Proof.
    intros Hf Hn. apply (conv_settles (vdepth v)); [exact Hf|apply need_le|exact Hn].
  Qed.

  (** ** The entry points of a model *)
  Definition mdepth (m : mdata pyval) : nat := vdepth (VModel 0 m).
  Lemma mdepth_eq c m : vdepth (VModel c m) = mdepth m.
  Proof. unfold mdepth. now rewrite !vdepth_model. Qed.
  Lemma mconv_settles n c m raw td w : 4 * vdepth raw + 4 <= n -> 4 * mdepth m + 4 <= n ->
    settles (snd (model__convert E (conv_at E n) c m raw td w)).
  Proof.
    intros H1 H2.
    set (b := Nat.max (vdepth raw) (mdepth m)).
    assert (Hfc : forall f v x, calm E f -> need f v <= b -> settles (cv_field (conv_at E n) f v x)).
    { intros f v x Hf Hv. apply (conv_settles b); auto. unfold b. lia. }
    unfold model__convert.
    assert (S0 : settles (if truthy raw then py_dict E raw else Ok (md_converted m))).
    { destruct (truthy raw); [apply dict_settles|discriminate]. }
    destruct (if truthy raw then _ else _) as [d0|e] eqn:D0; [|cbn; congruence].
    assert (B0 : ddepth d0 <= b).
    { destruct (truthy raw); [apply dict_depth in D0; lia|]. injection D0 as <-. unfold b, mdepth. rewrite vdepth_model. lia. }
    assert (G : forall m1 a d w1, mdepth m1 <= mdepth m -> ddepth d <= b ->
      settles (lo_res (if kw_validate w
        then validate_fn E (cv_field (conv_at E n)) (cv_pre (conv_at E n)) (kw_ctx w1 (if truthy td then td else VDict [])) (e_class E c) (VModel c m1) a (VDict d)
        else import_loop E (cv_field (conv_at E n)) (cv_pre (conv_at E n)) (kw_ctx w1 (if truthy td then td else VDict [])) (mc_fields (e_class E c)) (VModel c m1) a (VDict d)))).
    { intros m1 a d w1 Hm Hd.
      assert (shallow b (VDict d)) by (unfold shallow; rewrite vdepth_dict; lia).
      assert (shallow_mut b (VModel c m1)).
      { intros d' K. apply dict_depth in K. rewrite mdepth_eq in K. unfold b. lia. }
      destruct (kw_validate w); [now apply (validate_fn_settles _ _ b)|now apply (import_loop_settles _ _ b)]. }
    destruct (md_unsafe m) as [|p un] eqn:U; cbn [snd].
    - apply G; [lia|exact B0].
    - apply G.
      + unfold mdepth. rewrite !vdepth_model. cbn. lia.
      + pose proof (ddepth_dupdate d0 (p :: un)).
        assert (ddepth (p :: un) <= mdepth m) by (unfold mdepth; rewrite vdepth_model, U; lia). unfold b in *. lia.
  Qed.
  Lemma init_settles n c raw td w : kw_validate w = false -> 4 * vdepth raw + 4 <= n ->
    (exists d, td = VDict d /\ 4 * vdepth td + 8 <= n) \/ td = VNone /\ 12 <= n ->
    settles (model_init E (conv_at E n) c raw td w).
  Proof.
    intros Hw Hr Ht. unfold model_init.
    assert (S : settles (snd (model__convert E (conv_at E n) c (MD [] [] (match td with VDict d => d | _ => [] end) None) raw td w))).
    { apply mconv_settles; [exact Hr|]. unfold mdepth. rewrite vdepth_model. cbn [md_unsafe md_converted md_valid].
      destruct Ht as [(d & -> & Ht)|[-> Ht]]; [rewrite vdepth_dict in Ht; cbn; lia|cbn; lia]. }
    destruct (model__convert _ _ _ _ _ _ _) as [m1 rs]. cbn [snd] in S. destruct rs as [data|e]; [|congruence].
    rewrite Hw. discriminate.
  Qed.
  Lemma validate_api_settles n c m w : 4 * mdepth m + 4 <= n -> settles_opt (snd (model_validate E (conv_at E n) c m w)).
  Proof.
    intros Hm.
    assert (B : settles_opt (snd (model_validate_body E (conv_at E n) c m w))).
    { unfold model_validate_body. pose proof (mconv_settles n c m VNone (VDict [])
        (KW (kw_mapping w) (kw_partial w) (kw_strict w) (kw_init_values w) (kw_apply_defaults w) (kw_convert w) true (kw_recursive w))
        ltac:(cbn; lia) Hm) as S.
      destruct (model__convert _ _ _ _ _ _ _) as [m1 rs]. cbn [snd] in S.
      destruct rs as [d|e]; [discriminate|]. destruct e; try discriminate. congruence. }
    unfold model_validate. destruct (model_validate_body E (conv_at E n) c m w) as [m1 oe]. cbn [snd] in B.
    destruct (md_converted m), (kw_partial w); try exact B; discriminate.
  Qed.
  Lemma import_data_settles n c m raw w : kw_validate w = false -> 4 * vdepth raw + 4 <= n -> 4 * mdepth m + 4 <= n ->
    settles_opt (snd (model_import_data E (conv_at E n) c m raw w)).
  Proof.
    intros Hw Hr Hm. unfold model_import_data.
    pose proof (dict_settles (VModel c m)) as S. destruct (py_dict E (VModel c m)) as [td|e].
    - pose proof (mconv_settles n c m raw (VDict td) w Hr Hm) as S'.
      destruct (model__convert _ _ _ _ _ _ _) as [m1 rs]. cbn [snd] in S'. destruct rs as [d|e]; [|cbn; congruence].
      rewrite Hw. discriminate.
    - cbn. congruence.
  Qed.

  (** ** Export *)
  Definition xsettles (f : fspec) (v : pyval) : Prop := exists n0, forall n x, n0 <= n -> settles (export_at E n f v x).
  Lemma all_settle {A} (P : nat -> A -> Prop) (l : list A) : (forall a n m, n <= m -> P n a -> P m a) ->
    (forall a, In a l -> exists n0, P n0 a) -> exists n0, forall a, In a l -> P n0 a.
  Proof.
    intros Hm. induction l as [|a l IH]; intros H; [exists 0; intros a []|].
    destruct IH as [n1 H1]; [intros; apply H; cbn; auto|]. destruct (H a (or_introl eq_refl)) as [n2 H2].
    exists (Nat.max n1 n2). intros a' [<-|Ha]; [eapply Hm; [|exact H2]; lia|eapply Hm; [|apply H1, Ha]; lia].
  Qed.
  Lemma list_x_settles fe f lvl x l : (forall v, In v l -> settles (fe f v x)) -> forall data, settles (list_export_loop fe f lvl x l data).
  Proof.
    induction l as [|v l IH]; intros H data; cbn [list_export_loop]; [discriminate|].
    apply settles_bind; [apply H; cbn; auto|]. intros w _. apply IH. intros; apply H; cbn; auto.
  Qed.
  Lemma dict_x_settles fe f lvl x l : (forall y v, In (y, v) l -> settles (fe f v x)) -> forall data, settles (dict_export_loop fe f lvl x l data).
  Proof.
    induction l as [|[y v] l IH]; intros H data; cbn [dict_export_loop]; [discriminate|].
    apply settles_bind; [apply (H y); cbn; auto|]. intros w _. apply IH. intros; eapply H; cbn; eauto.
  Qed.
  Lemma fields_x_settles fe x filt obj fs :
    (forall n f, In (n, f) fs -> is_nil (atom_value E obj n) = false -> settles (fe (fd_spec f) (atom_value E obj n) x)) ->
    forall data, settles (export_fields E fe x filt obj fs data).
  Proof.
    induction fs as [|[n f] fs IH]; intros H data; cbn [export_fields]; [discriminate|].
    apply settles_bind; [|intros; apply IH; intros; apply H; cbn; auto].
    unfold export_field. cbn zeta. destruct (match filt with Some g => _ | None => false end); [discriminate|].
    destruct (Z.eqb _ DROP); [discriminate|]. apply settles_bind.
    - destruct (is_nil _) eqn:N; [discriminate|]. apply H; cbn; auto.
    - intros w _. destruct (is_undef w); [destruct (Z.leb _ _); discriminate|].
      destruct (is_none w); [destruct (Z.leb _ _); discriminate|]. destruct (_ && _ && _); discriminate.
  Qed.
  Lemma filter_settles mc x : settles (export_filter mc x).
  Proof.
    unfold export_filter. destruct (ec_role x); try discriminate. destruct (dget n (mc_roles mc)); [discriminate|].
    destruct (_ && _); discriminate.
  Qed.
  Lemma class_x_settles c obj :
    (forall n f, In (n, f) (fields_of E c) -> is_nil (atom_value E obj n) = false -> xsettles (fd_spec f) (atom_value E obj n)) ->
    exists n0, forall n x, n0 <= n -> settles (export_loop E (export_at E n) x c obj).
  Proof.
    intros H.
    destruct (all_settle (fun n0 (p : key * field) => is_nil (atom_value E obj (fst p)) = false ->
       forall n x, n0 <= n -> settles (export_at E n (fd_spec (snd p)) (atom_value E obj (fst p)) x)) (fields_of E c)) as [n0 H0].
    - intros a n m L K N q x Lq. apply K; [exact N|lia].
    - intros [n f] Hi. cbn [fst snd]. destruct (is_nil (atom_value E obj n)) eqn:N; [exists 0; discriminate|].
      destruct (H n f Hi N) as [n0 Hn]. exists n0. auto.
    - exists n0. intros n x L. unfold export_loop. apply settles_bind; [apply filter_settles|]. intros filt _.
      apply fields_x_settles. intros y f Hi N. now apply (H0 (y, f)).
  Qed.
  Lemma atom_depth obj n : is_nil (atom_value E obj n) = false -> vdepth (atom_value E obj n) < vdepth obj.
  Proof.
    unfold atom_value. destruct (py_getitem E obj n) eqn:G; [|discriminate]. intros _. eapply getitem_depth, G.
  Qed.
  Lemma key_depth_le y v : 1 <= vdepth v -> vdepth (key_val y) <= vdepth v.
  Proof. pose proof (depth_scalar_key y). lia. Qed.
  Lemma iter_depth v l : py_iter E v = Ok l -> forall w, In w l -> vdepth w <= vdepth v.
  Proof.
    destruct v; cbn [py_iter]; try discriminate; intros [= <-] w Hw.
    - apply in_map_iff in Hw as (ch & <- & _). cbn. lia.
    - apply in_map_iff in Hw as (ch & <- & _). cbn [vdepth]. destruct (truthy _); lia.
    - apply ldepth_In in Hw. rewrite vdepth_list. lia.
    - apply ldepth_In in Hw. rewrite vdepth_tuple. lia.
    - apply in_map_iff in Hw as (y & <- & _). apply key_depth_le. rewrite vdepth_dict. lia.
    - apply in_map_iff in Hw as (y & <- & _). apply key_depth_le. rewrite vdepth_model. lia.
  Qed.
  Lemma pairs_depth v l : py_item_pairs E v = Ok l -> forall y w, In (y, w) l -> vdepth w <= vdepth v.
  Proof.
    destruct v; cbn [py_item_pairs]; try discriminate; intros [= <-] y w Hw.
    - apply ddepth_In in Hw. rewrite vdepth_dict. lia.
    - apply in_map_iff in Hw as (y0 & [= <- <-] & _). destruct (chain_get m y0) eqn:G; [|cbn; lia].
      apply (chain_depth c) in G. lia.
  Qed.
  (** [field.convert] during an export. *)
  Definition csettles (f : fspec) (v : pyval) : Prop := exists n0, forall n x, n0 <= n -> settles (export_convert E (export_at E n) x f v).
  Lemma list_loop_x_settles (fc : fspec -> pyval -> ictx -> res pyval) f x l : (forall v, In v l -> settles (fc f v x)) ->
    forall i data errs, settles (list_loop fc f x i l data errs).
  Proof.
    induction l as [|v l IH]; intros Hl i data errs; cbn [list_loop]; [discriminate|].
    assert (Hl' : forall u, In u l -> settles (fc f u x)) by (intros; apply Hl; cbn; auto).
    pose proof (Hl v (or_introl eq_refl)) as S.
    destruct (fc f v x) as [w|e]; [now apply IH|]. destruct (is_base_error e); [now apply IH|congruence].
  Qed.
  Lemma dict_loop_x_settles (fc : fspec -> pyval -> ictx -> res pyval) f ck x l : (forall y, settles (ck y)) ->
    (forall y v, In (y, v) l -> settles (fc f v x)) -> forall data errs, settles (dict_loop fc f ck x l data errs).
  Proof.
    intros Hck. induction l as [|[y v] l IH]; intros Hl data errs; cbn [dict_loop]; [discriminate|].
    assert (Hl' : forall z u, In (z, u) l -> settles (fc f u x)) by (intros; eapply Hl; cbn; eauto).
    assert (S : settles (rbind (fc f v x) (fun w => rbind (ck y) (fun y' => Ok (y', w))))).
    { apply settles_bind; [apply (Hl y); cbn; auto|]. intros w _. apply settles_bind; [apply Hck|discriminate]. }
    destruct (rbind _ _) as [[y' w]|e]; [now apply IH|]. destruct (is_base_error e); [now apply IH|congruence].
  Qed.
  Lemma elems_depth v l : list_elems E v = Some l -> forall w, In w l -> vdepth w <= vdepth v.
  Proof.
    destruct v; cbn [list_elems]; try discriminate; intros [= <-] w Hw.
    - apply in_map_iff in Hw as (ch & <- & _). cbn [vdepth]. destruct (truthy _); lia.
    - apply ldepth_In in Hw. rewrite vdepth_list. lia.
    - apply ldepth_In in Hw. rewrite vdepth_tuple. lia.
    - apply in_map_iff in Hw as (y & <- & _). apply key_depth_le. rewrite vdepth_model. lia.
  Qed.
  Lemma list_csettles o g v d : (forall u, vdepth u < d -> xsettles g u) -> vdepth v < d -> csettles (FS o (TList g)) v.
  Proof.
    intros Hg Hd. unfold csettles. cbn [export_convert]. unfold list_convert. destruct (list_elems E v) as [l|] eqn:L.
    - destruct (all_settle (fun n0 w => forall n x, n0 <= n -> settles (export_at E n g w x)) l) as [n0 H0].
      + intros a n m Lm K q x Lq. apply K. lia.
      + intros w Hw. apply Hg. pose proof (elems_depth v l L w Hw). lia.
      + exists n0. intros n x Hn. apply settles_bind; [|intros [data errs] _; destruct errs; discriminate].
        apply list_loop_x_settles. intros w Hw. now apply H0.
    - exists 0. intros n x _. discriminate.
  Qed.
  Lemma dict_csettles o g ck v d : (forall y, settles (ck y)) -> (forall u, vdepth u < d -> xsettles g u) -> vdepth v < d ->
    csettles (FS o (TDict g ck)) v.
  Proof.
    intros Hck Hg Hd. unfold csettles. cbn [export_convert]. unfold dict_convert.
    destruct v as [| | | | | | | | |l| | | | | | | |]; try (exists 0; intros ? ? ? J; discriminate J).
    destruct (all_settle (fun n0 (p : key * pyval) => forall n x, n0 <= n -> settles (export_at E n g (snd p) x)) l) as [n0 H0].
    - intros a n m Lm K q x Lq. apply K. lia.
    - intros [y w] Hw. apply Hg. apply ddepth_In in Hw. rewrite vdepth_dict in Hd. cbn. lia.
    - exists n0. intros n x Hn. apply settles_bind; [|intros [data errs] _; destruct errs; discriminate].
      apply dict_loop_x_settles; [exact Hck|]. intros y w Hw. now apply (H0 (y, w)).
  Qed.
  Lemma union_csettles ms v : (forall m, In m ms -> csettles m v) ->
    exists n0, forall n x, n0 <= n -> settles (union_resolve (export_convert E (export_at E n) x) ms v).
  Proof.
    intros H. destruct (all_settle (fun n0 m => forall n x, n0 <= n -> settles (export_convert E (export_at E n) x m v)) ms) as [n0 H0].
    - intros a n m Lm K q x Lq. apply K. lia.
    - exact H.
    - exists n0. intros n x Hn. apply union_settles. intros m Hm. now apply H0.
  Qed.
  Lemma export_exists d : forall v f, vdepth v < d -> calm E f -> xsettles f v.
  Proof.
    induction d as [|d IH]; intros v f Hd Hf; [lia|]. revert v Hd. enough (Q : forall v, vdepth v < S d -> xsettles f v /\ csettles f v) by (intros v Hd; apply Q, Hd).
    assert (M : forall c v, vdepth v < S d -> exists n0, forall n x, n0 <= n -> settles (export_loop E (export_at E n) x c v)).
    { intros c v Hd. apply class_x_settles. intros n f' Hi N. apply IH.
      - apply atom_depth in N. lia.
      - eapply (ca_calm E HE), Hi. }
    induction Hf; intros v Hd.
    - split; [|exists 0; intros n x _; apply H0].
      exists 1. intros [|n] x Hn; [lia|]. cbn [export_at export_step fs_type]. destruct (ec_fmt x); auto.
    - assert (C : forall m, In m ms -> xsettles m v /\ csettles m v) by (intros m Hm; now apply H0).
      destruct (union_csettles ms v (fun m Hm => proj2 (C m Hm))) as [n1 C1]. split.
      + destruct (all_settle (fun n0 m => forall n x, n0 <= n -> settles (export_at E n m v x)) ms) as [n0 X0].
        * intros a n m L K q x Lq. apply K. lia.
        * intros m Hm. apply (C m Hm).
        * exists (S (Nat.max n0 n1)). intros [|n] x Hn; [lia|]. cbn [export_at]. unfold export_step. cbn [fs_type].
          apply settles_bind; [apply C1; lia|]. intros [m w] U. apply union_In in U as [U _]. apply X0; [exact U|lia].
      + exists n1. intros n x Hn. cbn [export_convert]. apply settles_bind; [now apply C1|]. intros [m w] _. discriminate.
    - split; [|exists 0; intros n x _; cbn [export_convert]; destruct (match v with VModel d _ => _ | VDict _ => _ | _ => _ end); discriminate].
      destruct (M (match v with VModel c' _ => c' | _ => c end) v Hd) as [n0 H0].
      exists (S n0). intros [|n] x Hn; [lia|]. cbn [export_at]. unfold export_step. cbn [fs_type]. unfold model_export. cbn zeta.
      apply settles_bind; [apply H0; lia|discriminate].
    - split; [|exists 0; intros n x _; cbn [export_convert]; destruct (is_none v); discriminate].
      destruct (M (match v with VModel c' _ => c' | _ => 0%N end) v Hd) as [n0 H0].
      exists (S n0). intros [|n] x Hn; [lia|]. cbn [export_at]. unfold export_step. cbn [fs_type]. unfold poly_export.
      destruct (poly_allowed E p v); [|discriminate]. destruct v; try discriminate.
      apply settles_bind; [apply H0; lia|discriminate].
    - assert (IHx : forall u, vdepth u < S d -> xsettles f u) by (intros u Hu; now apply IHHf).
      split; [|now apply (list_csettles _ _ _ (S d))].
      destruct (py_iter E v) as [l|e] eqn:I.
      + destruct (all_settle (fun n0 w => forall n x, n0 <= n -> settles (export_at E n f w x)) l) as [n0 H0].
        * intros a n m L K q x Lq. apply K. lia.
        * intros w Hw. apply IHx. pose proof (iter_depth v l I w Hw). lia.
        * exists (S n0). intros [|n] x Hn; [lia|]. cbn [export_at]. unfold export_step. cbn [fs_type]. unfold list_export. cbn zeta.
          destruct (Z.eqb _ DROP); [discriminate|]. rewrite I. cbn [rbind].
          apply settles_bind; [|discriminate]. apply list_x_settles. intros w Hw. apply H0; [exact Hw|lia].
      + exists 1. intros [|n] x Hn; [lia|]. cbn [export_at]. unfold export_step. cbn [fs_type]. unfold list_export. cbn zeta.
        destruct (Z.eqb _ DROP); [discriminate|]. rewrite I. destruct v; cbn in I; try discriminate I; injection I as <-; discriminate.
    - assert (IHx : forall u, vdepth u < S d -> xsettles f u) by (intros u Hu; now apply IHHf).
      split; [|now apply (dict_csettles _ _ _ _ (S d))].
      destruct (py_item_pairs E v) as [l|e] eqn:I.
      + destruct (all_settle (fun n0 (p : key * pyval) => forall n x, n0 <= n -> settles (export_at E n f (snd p) x)) l) as [n0 H1].
        * intros a n m L K q x Lq. apply K. lia.
        * intros [y w] Hw. apply IHx. pose proof (pairs_depth v l I y w Hw). cbn. lia.
        * exists (S n0). intros [|n] x Hn; [lia|]. cbn [export_at]. unfold export_step. cbn [fs_type]. unfold dict_export. cbn zeta.
          destruct (Z.eqb _ DROP); [discriminate|]. rewrite I. cbn [rbind].
          apply settles_bind; [|discriminate]. apply dict_x_settles. intros y w Hw. apply (H1 (y, w)); [exact Hw|lia].
      + exists 1. intros [|n] x Hn; [lia|]. cbn [export_at]. unfold export_step. cbn [fs_type]. unfold dict_export. cbn zeta.
        destruct (Z.eqb _ DROP); [discriminate|]. rewrite I. destruct v; cbn in I; try discriminate I; injection I as <-; discriminate.
  Qed.
End Bound.
