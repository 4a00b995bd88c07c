(** Export does not see a field that no value has. *)
From Verif.Model Require Import Py Core Export Meta Append.
From Verif.Spec Require Import MetaSpec AppendSpec.
From Verif.Proofs Require Import DictLemmas.
From Coq Require Import Lia.

Section Extra.
  Context (E E' : env) (c : cid) (x : key) (nf : field).
  Context (Sub : forall a b, e_issub E' a b = e_issub E a b)
    (Other : forall d, d <> c -> e_class E' d = e_class E d)
    (Same : e_class E' c = let k := e_class E c in
       MC (mc_fields k ++ [(x, nf)]) (mc_validators k) (mc_roles k) (mc_level k) (mc_claim k))
    (New : dget x (mc_fields (e_class E c)) = None)
    (Plain : fd_get nf = None)
    (Getters : forall d y f g m w, dget y (mc_fields (e_class E d)) = Some f -> fd_get f = Some g ->
       lacks c x (VModel d m) -> g (VModel d m) = Ok w -> lacks c x w).

  Lemma fields_of d : mc_fields (e_class E' d) = mc_fields (e_class E d) \/
    (d = c /\ mc_fields (e_class E' d) = mc_fields (e_class E d) ++ [(x, nf)]).
  Proof using Other Same.
    destruct (N.eq_dec d c) as [->|N]; [right|left; now rewrite Other]. split; [reflexivity|].
    rewrite Same. reflexivity.
  Qed.

  Lemma rest_of d : mc_roles (e_class E' d) = mc_roles (e_class E d) /\ mc_level (e_class E' d) = mc_level (e_class E d).
  Proof using Other Same.
    destruct (N.eq_dec d c) as [->|N]; [rewrite Same; auto|now rewrite Other].
  Qed.

  Lemma model_inv d m : lacks c x (VModel d m) ->
    (d = c -> chain_get m x = None) /\ (forall y v, chain_get m y = Some v -> lacks c x v).
  Proof using. clear. intros L. inversion L; subst; [auto|contradiction]. Qed.

  Lemma chain_mem_none m y : chain_get m y = None -> chain_mem m y = false.
  Proof using. unfold chain_mem. now intros ->. Qed.

  Lemma getitem_same v y : lacks c x v -> atom_value E' v y = atom_value E v y.
  Proof using Other Same Plain New.
    intros L. unfold atom_value, py_getitem. destruct v; try reflexivity.
    apply model_inv in L. destruct L as [Lc _]. unfold model_getitem.
    destruct (fields_of c0) as [->|[-> ->]]; [reflexivity|].
    rewrite dget_app. destruct (dget y (mc_fields (e_class E c))) as [f|] eqn:G; [reflexivity|]. cbn [dget].
    destruct (key_eqb_spec y x) as [->|N]; [|reflexivity]. unfold field_get. rewrite Plain, (Lc eq_refl). reflexivity.
  Qed.

  Lemma atom_lacks v y : lacks c x v -> lacks c x (atom_value E v y).
  Proof using Getters.
    intros L. unfold atom_value. assert (lacks c x VUndef) as U by (apply lacks_atom; exact I).
    destruct v as [| | | | | | | | |d0|d m| | | | | | |]; try exact U; cbn [py_getitem].
    - destruct (dget y d0) eqn:G; [|exact U]. inversion L; subst; [|contradiction]. apply dget_In in G. eauto.
    - unfold model_getitem. destruct (dget y (mc_fields (e_class E d))) as [f|] eqn:G; [|exact U].
      unfold field_get. destruct (fd_get f) as [g|] eqn:Gf.
      + destruct (g (VModel d m)) as [w|e] eqn:W; [|exact U].
        destruct (is_undef w); [exact U|]. exact (Getters d y f g m w G Gf L W).
      + destruct (chain_get m y) as [w|] eqn:W; [|exact U]. destruct (is_undef w); [exact U|].
        apply model_inv in L. destruct L as [_ L]. eauto.
  Qed.

  Lemma iter_same d m : lacks c x (VModel d m) -> model_iter E' d m = model_iter E d m.
  Proof using Other Same.
    intros L. apply model_inv in L. destruct L as [L _]. unfold model_iter.
    destruct (fields_of d) as [->|[-> ->]]; [reflexivity|].
    rewrite filter_app, map_app. cbn [filter fst]. rewrite chain_mem_none by now apply L. cbn. now rewrite app_nil_r.
  Qed.

  Lemma key_val_lacks y : lacks c x (key_val y).
  Proof using. apply lacks_atom. destruct y; exact I. Qed.

  Lemma py_iter_same v : lacks c x v -> py_iter E' v = py_iter E v.
  Proof using Other Same. intros L. destruct v; try reflexivity. cbn. now rewrite iter_same. Qed.
  Lemma py_iter_lacks v l : lacks c x v -> py_iter E v = Ok l -> forall w, In w l -> lacks c x w.
  Proof using.
    intros L G w Iw. destruct v; try discriminate G; cbn in G; injection G as <-.
    - apply in_map_iff in Iw. destruct Iw as (y & <- & _). now apply lacks_atom.
    - apply in_map_iff in Iw. destruct Iw as (y & <- & _). now apply lacks_atom.
    - inversion L; subst; [auto|contradiction].
    - inversion L; subst; [auto|contradiction].
    - apply in_map_iff in Iw. destruct Iw as (y & <- & _). apply key_val_lacks.
    - apply in_map_iff in Iw. destruct Iw as (y & <- & _). apply key_val_lacks.
  Qed.
  Lemma list_elems_same v : lacks c x v -> list_elems E' v = list_elems E v.
  Proof using Other Same. intros L. destruct v; try reflexivity. cbn. now rewrite iter_same. Qed.
  Lemma list_elems_lacks v l : lacks c x v -> list_elems E v = Some l -> forall w, In w l -> lacks c x w.
  Proof using.
    intros L G w Iw. apply (py_iter_lacks v l L); [|exact Iw]. destruct v; try discriminate G; cbn in *; congruence.
  Qed.
  Lemma items_same v : lacks c x v -> py_item_pairs E' v = py_item_pairs E v.
  Proof using Other Same. intros L. destruct v; try reflexivity. cbn. now rewrite iter_same. Qed.
  Lemma items_lacks v l : lacks c x v -> py_item_pairs E v = Ok l -> forall y w, In (y, w) l -> lacks c x w.
  Proof using.
    intros L G y w Iw. destruct v; try discriminate G; cbn in G; injection G as <-.
    - inversion L; subst; [eauto|contradiction].
    - apply in_map_iff in Iw. destruct Iw as (z & Ez & _). injection Ez as <- <-.
      apply model_inv in L. destruct L as [_ L].
      destruct (chain_get m z) eqn:W; [eauto|apply lacks_atom; exact I].
  Qed.

  Lemma level_same f cx : get_export_level E' f cx = get_export_level E f cx.
  Proof using Other Same.
    unfold get_export_level. destruct (fo_owner (fs_opts f)) as [d|]; [|reflexivity].
    now rewrite (proj2 (rest_of d)).
  Qed.
  Lemma filter_same d cx : export_filter (e_class E' d) cx = export_filter (e_class E d) cx.
  Proof using Other Same. unfold export_filter. now rewrite (proj1 (rest_of d)). Qed.
  Lemma allowed_same p v : poly_allowed E' p v = poly_allowed E p v.
  Proof using Sub.
    unfold poly_allowed. destruct v; try reflexivity. destruct (po_allow_sub p); [|reflexivity].
    induction (po_classes p) as [|d l IH]; [reflexivity|]. cbn. now rewrite Sub, IH.
  Qed.

  Section Step.
    Context (cx : ectx) (Lvl : (get_export_level E (fd_spec nf) cx <= DEFAULT)%Z).
    Context (fe fe' : fspec -> pyval -> ectx -> res pyval)
      (Fe : forall f v, lacks c x v -> fe' f v cx = fe f v cx).

    Lemma field_same filt obj n f : lacks c x obj ->
      export_field E' fe' cx filt obj n f = export_field E fe cx filt obj n f.
    Proof using Other Same New Plain Getters Fe.
      intros L. unfold export_field. rewrite getitem_same, level_same by exact L.
      pose proof (atom_lacks obj n L) as La. rewrite (Fe (fd_spec f) _ La). reflexivity.
    Qed.

    Lemma fields_same filt obj fs : lacks c x obj -> forall data,
      export_fields E' fe' cx filt obj fs data = export_fields E fe cx filt obj fs data.
    Proof using Other Same New Plain Getters Fe.
      intros L. induction fs as [|[n f] r IH]; intros data; [reflexivity|]. cbn [export_fields].
      rewrite field_same by exact L. destruct (export_field E fe cx filt obj n f); cbn; [apply IH|reflexivity].
    Qed.

    Lemma fields_app (E0 : env) fe0 filt obj fs gs : forall data,
      export_fields E0 fe0 cx filt obj (fs ++ gs) data =
      rbind (export_fields E0 fe0 cx filt obj fs data) (export_fields E0 fe0 cx filt obj gs).
    Proof using.
      induction fs as [|[n f] r IH]; intros data; [reflexivity|]. cbn [export_fields app].
      destruct (export_field E0 fe0 cx filt obj n f); cbn; [apply IH|reflexivity].
    Qed.

    Lemma new_field_dropped filt obj : lacks c x obj ->
      match obj with VModel d _ => d = c | _ => True end ->
      export_field E' fe' cx filt obj x nf = Ok None.
    Proof using Other Same New Plain Getters Lvl.
      intros L K. unfold export_field. rewrite getitem_same, level_same by exact L.
      assert (atom_value E obj x = VUndef) as ->.
      { unfold atom_value, py_getitem. destruct obj; try reflexivity.
        - inversion L as [| |? D| |]; subst; [now rewrite D|contradiction].
        - subst. unfold model_getitem. now rewrite New. }
      destruct (match filt with Some g => g x VUndef | None => false end); [reflexivity|].
      destruct (Z.eqb _ DROP); [reflexivity|]. cbn. apply Z.leb_le in Lvl. now rewrite Lvl.
    Qed.

    Lemma loop_same d obj : lacks c x obj -> match obj with VModel d' _ => d' = d | _ => True end ->
      export_loop E' fe' cx d obj = export_loop E fe cx d obj.
    Proof using Other Same New Plain Getters Fe Lvl.
      intros L K. unfold export_loop. rewrite filter_same.
      destruct (export_filter (e_class E d) cx) as [filt|]; [|reflexivity]. cbn [rbind].
      destruct (fields_of d) as [->|[-> ->]]; [now apply fields_same|].
      rewrite fields_app, fields_same by exact L.
      destruct (export_fields E fe cx filt obj (mc_fields (e_class E c)) []) as [data|]; [|reflexivity].
      cbn [rbind export_fields]. now rewrite new_field_dropped.
    Qed.

    Lemma list_loop_same f lvl l : (forall v, In v l -> lacks c x v) -> forall data,
      list_export_loop fe' f lvl cx l data = list_export_loop fe f lvl cx l data.
    Proof using Fe.
      induction l as [|v r IH]; intros L data; [reflexivity|]. cbn. rewrite Fe by (apply L; now left).
      destruct (fe f v cx); cbn; [|reflexivity]. apply IH. intros; apply L; now right.
    Qed.
    Lemma dict_loop_same f lvl l : (forall y v, In (y, v) l -> lacks c x v) -> forall data,
      dict_export_loop fe' f lvl cx l data = dict_export_loop fe f lvl cx l data.
    Proof using Fe.
      induction l as [|[y v] r IH]; intros L data; [reflexivity|]. cbn. rewrite Fe by (eapply L; now left).
      destruct (fe f v cx); cbn; [|reflexivity]. apply IH. intros z w I. apply (L z w). now right.
    Qed.

    Lemma conv_list_same f l : (forall v, In v l -> lacks c x v) -> forall i data errs,
      list_loop (fun h u _ => fe' h u cx) f default_ctx i l data errs =
      list_loop (fun h u _ => fe h u cx) f default_ctx i l data errs.
    Proof using Fe.
      induction l as [|v r IH]; intros L i data errs; [reflexivity|]. cbn. rewrite Fe by (apply L; now left).
      destruct (fe f v cx); [|destruct (is_base_error _); [|reflexivity]]; apply IH; intros; apply L; now right.
    Qed.
    Lemma conv_dict_same f ck l : (forall y v, In (y, v) l -> lacks c x v) -> forall data errs,
      dict_loop (fun h u _ => fe' h u cx) f ck default_ctx l data errs =
      dict_loop (fun h u _ => fe h u cx) f ck default_ctx l data errs.
    Proof using Fe.
      induction l as [|[y v] r IH]; intros L data errs; [reflexivity|]. cbn. rewrite Fe by (eapply L; now left).
      assert (forall z w, In (z, w) r -> lacks c x w) as Lr by (intros z w I; apply (L z w); now right).
      destruct (rbind (fe f v cx) (fun w => rbind (ck y) (fun y' => Ok (y', w)))) as [[y' w]|e]; [now rewrite IH|].
      destruct (is_base_error e); [now rewrite IH|reflexivity].
    Qed.

    Fixpoint convert_same (f : fspec) (v : pyval) {struct f} : lacks c x v ->
      export_convert E' fe' cx f v = export_convert E fe cx f v.
    Proof using Sub Other Same Fe.
      intros L. destruct f as [o t]. destruct t as [l|ms|d|p|g|g ck]; cbn [export_convert].
      - reflexivity.
      - f_equal. induction ms as [|m r IH]; [reflexivity|]. cbn. rewrite (convert_same m v L).
        destruct (export_convert E fe cx m v) as [|[]]; try reflexivity. exact IH.
      - destruct v; try reflexivity. now rewrite Sub.
      - reflexivity.
      - unfold list_convert. rewrite list_elems_same by exact L.
        destruct (list_elems E v) as [l|] eqn:G; [|reflexivity].
        rewrite conv_list_same; [reflexivity|]. exact (list_elems_lacks v l L G).
      - unfold dict_convert. destruct v; try reflexivity. rewrite conv_dict_same; [reflexivity|].
        inversion L; subst; [assumption|contradiction].
    Qed.

    Lemma resolve_same ms v : lacks c x v ->
      union_resolve (export_convert E' fe' cx) ms v = union_resolve (export_convert E fe cx) ms v.
    Proof using Sub Other Same Fe.
      intros L. induction ms as [|m r IH]; [reflexivity|]. cbn. rewrite (convert_same m v L).
      destruct (export_convert E fe cx m v) as [|[]]; try reflexivity. exact IH.
    Qed.

    Lemma step_same f v : lacks c x v -> export_step E' fe' f v cx = export_step E fe f v cx.
    Proof using Sub Other Same New Plain Getters Fe Lvl.
      intros L. unfold export_step. destruct (fs_type f) as [l|ms|d|p|g|g ck].
      - reflexivity.
      - rewrite resolve_same by exact L. destruct (union_resolve _ ms v) as [[m w]|]; cbn; [now apply Fe|reflexivity].
      - unfold model_export. rewrite loop_same; [reflexivity|exact L|destruct v; auto].
      - unfold poly_export. rewrite allowed_same. destruct (poly_allowed E p v); [|reflexivity].
        destruct v; try reflexivity. rewrite loop_same; auto.
      - unfold list_export. rewrite level_same. destruct (Z.eqb _ DROP); [reflexivity|].
        rewrite py_iter_same by exact L. destruct (py_iter E v) as [l|] eqn:G; [|reflexivity]. cbn.
        rewrite list_loop_same; [reflexivity|]. exact (py_iter_lacks v l L G).
      - unfold dict_export. rewrite level_same. destruct (Z.eqb _ DROP); [reflexivity|].
        rewrite items_same by exact L. destruct (py_item_pairs E v) as [l|] eqn:G; [|reflexivity]. cbn.
        rewrite dict_loop_same; [reflexivity|]. exact (items_lacks v l L G).
    Qed.
  End Step.

  Theorem export_same cx : (get_export_level E (fd_spec nf) cx <= DEFAULT)%Z ->
    forall n f v, lacks c x v -> export_at E' n f v cx = export_at E n f v cx.
  Proof using Sub Other Same New Plain Getters.
    intros Lvl. induction n as [|n IH]; intros f v L; [reflexivity|]. cbn. now apply step_same.
  Qed.
End Extra.
