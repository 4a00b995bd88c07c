(** Export followed by import. *)
From Verif.Model Require Import Py Core Export Api.
From Verif.Spec Require Import ImportSpec ValidateSpec CompoundSpec ExportSpec.
From Verif.Proofs Require Import DictLemmas ImportLemmas ApiLemmas ImportApi CompoundLemmas PolyLemmas Idem ExportLemmas.

Lemma public_name_accepted n f mp : In (public_name n f) (accepted_names n (fd_spec f) mp).
Proof.
  unfold public_name, sname_of, accepted_names. destruct (fo_sname (fs_opts (fd_spec f))) as [s|]; [|left; reflexivity].
  destruct (key_true s) eqn:T; [|left; reflexivity]. right. apply filter_In. split; [left; reflexivity|exact T].
Qed.

Lemma fields_same (fs : list (key * field)) n f g : NoDup (dkeys fs) -> In (n, f) fs -> In (n, g) fs -> f = g.
Proof.
  intros N H1 H2. apply In_dget in H1, H2; try assumption. congruence.
Qed.

Lemma written_elems_all fe g x lvl l r : (2 < lvl)%Z -> written_elems fe g x lvl l r ->
  Forall2 (fun v w => fe g v x = Ok w) l r.
Proof.
  intros HL. induction 1 as [|v w l r F N1 N2 H IH|v w l r F [[_ N]|(_ & _ & N)] H IH]; try lia; constructor; auto.
Qed.
Lemma written_entries_all fe g x lvl l r : (2 < lvl)%Z -> written_entries fe g x lvl l r ->
  Forall2 (fun p q => fst p = fst q /\ fe g (snd p) x = Ok (snd q)) l r.
Proof.
  intros HL. induction 1 as [|y v w l r F N1 N2 H IH|y v w l r F [[_ N]|(_ & _ & N)] H IH]; try lia; constructor; auto.
Qed.

Lemma run_store E fc x d fs l acc : dkeys l = dkeys fs -> NoDup (dkeys fs) ->
  (forall n f v, In (n, f) fs -> In (n, v) l -> field_outcome E fc x d [] n (fd_spec f) = Store v) ->
  (forall n, In n (dkeys fs) -> ~ In n (dkeys acc)) ->
  run_outcomes E fc x d [] fs (acc, []) = Ok (acc ++ l, []).
Proof.
  revert l acc. induction fs as [|[n f] fs IH]; intros [|[n' v] l] acc Hk Hn Ho Hd; try discriminate.
  - cbn. now rewrite app_nil_r.
  - cbn [dkeys map fst] in Hk. injection Hk as -> Hk. inversion Hn as [|? ? N1 N2]; subst. cbn [run_outcomes].
    rewrite (Ho n f v (or_introl eq_refl) (or_introl eq_refl)). cbn [apply_outcome rbind].
    rewrite dkeys_dset_new by (apply Hd; left; reflexivity). rewrite (IH l).
    + now rewrite <- app_assoc.
    + exact Hk.
    + exact N2.
    + intros n0 f0 v0 H1 H2. apply Ho; right; assumption.
    + intros y Hy. unfold dkeys. rewrite map_app, in_app_iff. cbn. intros [K|[<-|[]]]; [|contradiction].
      apply (Hd y); [right; exact Hy|exact K].
Qed.

Section RT.
  Context (E : env) (HE : clear_env E) (x : ectx) (ix : ictx).
  Hypothesis Hx : plain_ctx ix.
  Hypothesis Hv : cx_validate ix = false.

  Lemma writes_none_level f : writes_none E f x -> exists lvl, level_in_force E f x lvl /\ (2 < lvl)%Z.
  Proof. intros H. exists (get_export_level E f x). assert (L : level_in_force E f x (get_export_level E f x)) by now apply level_spec. auto. Qed.

  (** What is written for a field that holds [v]. *)
  Lemma back_field fe (fc : converter) filt obj n f v :
    reading E obj n = v -> v <> VUndef -> ~ hidden filt n v -> writes_none E (fd_spec f) x ->
    (is_nil v = false -> forall p, fe (fd_spec f) v x = Ok p -> is_nil p = false /\ fc (fd_spec f) p ix = Ok v) ->
    (v = VNone -> fc (fd_spec f) VNone ix = Ok VNone) ->
    (exists w, writes E fe x filt obj n f w /\ w <> VUndef /\ fc (fd_spec f) w ix = Ok v) \/ exists e, export_fails E fe x filt obj n f e.
  Proof.
    intros R U Hh HL Hs Hnone. destruct (writes_none_level _ HL) as (lvl & L & G). unfold writes, export_fails. rewrite R.
    destruct (is_nil v) eqn:Nv.
    - left. exists VNone. assert (v = VNone) as -> by (destruct v; try discriminate; congruence).
      split; [|split; [discriminate|auto]]. split; [exact Hh|]. exists lvl, VNone. split; [exact L|].
      split; [left; auto|]. split; [|reflexivity]. repeat split; try discriminate; try lia.
    - destruct (fe (fd_spec f) v x) as [p|e] eqn:F.
      + left. exists p. destruct (Hs eq_refl p eq_refl) as [Np B]. assert (p <> VUndef /\ p <> VNone) as [P1 P2] by (destruct p; split; discriminate).
        split; [|split; [exact P1|exact B]]. split; [exact Hh|]. exists lvl, p. split; [exact L|].
        split; [right; auto|]. split; [|destruct p; try reflexivity; congruence]. split; [lia|]. split; [congruence|]. split; [congruence|]. intros; lia.
      + right. exists e. split; [exact Hh|]. split; [reflexivity|]. split; [reflexivity|]. exists lvl. split; [exact L|lia].
  Qed.

  Lemma instance_back fe fc pre a mut c data d :
    restorable_instance E x (cx_partial ix) c (MD [] data [] None) ->
    (forall f v p, restorable E x (cx_partial ix) f v -> is_nil v = false -> fe f v x = Ok p -> is_nil p = false /\ fc f p ix = Ok v) ->
    (forall f, restorable E x (cx_partial ix) f VNone -> fc f VNone ix = Ok VNone) ->
    export_loop E fe x c (VModel c (MD [] data [] None)) = Ok d ->
    lo_res (import_loop E fc pre ix (fields_of E c) mut a (VDict d)) = Ok data.
  Proof.
    intros Hr Hs Hnone H. inversion Hr as [? ? Hk Hn Hf]; subst. clear Hr.
    assert (Hnf : NoDup (dkeys (fields_of E c))) by (rewrite <- Hk; exact Hn).
    destruct (ce_names E HE c) as [Hpn Hcl]. pose proof (ce_plain E HE c) as Hpl.
    pose proof H as H0. apply export_loop_order in H as (filt & F & W); [|exact Hpn].
    set (obj := VModel c (MD [] data [] None)) in *.
    assert (B : forall n f, In (n, f) (fields_of E c) -> exists v, dget n data = Some v /\ v <> VUndef /\
       ((exists w, writes E fe x filt obj n f w /\ w <> VUndef /\ fc (fd_spec f) w ix = Ok v) \/ exists e, export_fails E fe x filt obj n f e)).
    { intros n f Hi. destruct (Hf n f Hi) as (v & G & U & Hh & HL & R). exists v. split; [exact G|]. split; [exact U|].
      apply (back_field fe fc filt obj n f v); [|exact U|now apply Hh|exact HL| |].
      - unfold reading, obj. rewrite (In_dget n f (fields_of E c) Hnf Hi). destruct (Hpl n f Hi) as [-> _].
        unfold chain_get. cbn. now rewrite G.
      - intros Nv p. apply Hs; assumption.
      - intros ->. now apply Hnone. }
    assert (Wn : forall n f, In (n, f) (fields_of E c) -> exists v w, dget n data = Some v /\ v <> VUndef /\ dget (public_name n f) d = Some w /\
      w <> VUndef /\ fc (fd_spec f) w ix = Ok v).
    { intros n f Hi. destruct (B n f Hi) as (v & G & U & [(w & W1 & W2 & W3)|[e W1]]).
      - exists v, w. split; [exact G|]. split; [exact U|]. split; [|auto].
        apply (export_loop_get E fe x c obj d filt _ _ Hpn H0 F). eauto.
      - exfalso. clear -W1 W Hi. revert Hi W1. induction W as [|n0 f0 w fs l H1 H2 IH|n0 f0 fs l H1 H2 H3 IH]; [intros []| |].
        + intros [[= -> ->]|Hi]; [|auto]. intros (K1 & K2 & K3 & _). destruct H1 as (_ & lvl & w0 & _ & [[X1 _]|[_ X1]] & _); congruence.
        + intros [[= -> ->]|Hi]; [|auto]. apply H2. }
    assert (Dk : forall y, In y (dkeys d) -> exists n f, In (n, f) (fields_of E c) /\ y = public_name n f).
    { intros y Hy. apply (export_loop_keys _ _ _ _ _ _ _ _ H0 F) in Hy as (n & f & w & K1 & K2 & _). eauto. }
    assert (Dd : defined_dict d).
    { intros y G. destruct (Dk y) as (n & f & Hi & ->); [apply dget_keys; congruence|].
      destruct (Wn n f Hi) as (v & w & _ & _ & G' & W' & _). congruence. }
    erewrite (result_eq E fc pre ix (fields_of E c) mut a d d []).
    2:{ now apply eff_convert. }
    2:{ exact Dd. }
    2:{ exact Hnf. }
    2:{ unfold trusted_dict. destruct Hx as (-> & _). reflexivity. }
    assert (Er : errs_before ix (fields_of E c) d [] = []).
    { destruct (errs_before ix (fields_of E c) d []) as [|[y nd] l] eqn:Q; [reflexivity|].
      exfalso. assert (K : In y (dkeys (errs_before ix (fields_of E c) d []))) by (rewrite Q; cbn; auto).
      apply rerrs_In in K as (_ & K1 & K2). destruct (Dk y K1) as (n & f & Hi & ->). apply K2. now apply public_name_acceptable. }
    rewrite active_no_setters by (now apply plain_no_setters). rewrite Er.
    rewrite (run_store E fc ix d (fields_of E c) data []).
    - cbn. rewrite Hv. now rewrite copy_settable_none by (now apply plain_no_setters).
    - exact Hk.
    - exact Hnf.
    - intros n f v Hi Hd. destruct (Wn n f Hi) as (v' & w & G & U & Gd & Wu & Fw).
      apply (In_dget _ _ _ Hn) in Hd. assert (v' = v) as -> by congruence.
      unfold field_outcome. assert (S : supplied d n (fd_spec f) (cx_mapping ix) = Some w).
      { destruct Hx as (_ & -> & _). unfold supplied. destruct (find _ _) as [y|] eqn:Fy.
        - apply find_some in Fy as [F1 F2]. apply dmem_In in F2. destruct (Dk y F2) as (n' & f' & Hi' & ->).
          assert (n' = n) as -> by (eapply Hcl; eassumption). now rewrite (fields_same _ _ _ _ Hnf Hi' Hi).
        - exfalso. eapply find_none in Fy; [|apply public_name_accepted]. cbn in Fy.
          assert (In (public_name n f) (dkeys d)) as K by (apply dget_keys; congruence). apply dmem_In in K. congruence. }
      rewrite S. cbn [candidate dget]. rewrite plain_field_ctx by exact Hx. rewrite Fw. destruct v; congruence.
    - intros n _ [].
  Qed.

  Lemma none_back j f : restorable E x (cx_partial ix) f VNone -> cv_field (conv_at E (S j)) f VNone ix = Ok VNone.
  Proof.
    intros H. inversion H; subst; try discriminate. cbn. unfold field_step, check_required. cbn.
    destruct (fo_required (fs_opts f)) eqn:R; [|reflexivity]. match goal with K : true = true -> _ |- _ => destruct (K eq_refl) as [K1 K2] end.
    rewrite K1, K2. reflexivity.
  Qed.

  Lemma value_back n : forall f v p, restorable E x (cx_partial ix) f v -> is_nil v = false -> export_at E n f v x = Ok p ->
    is_nil p = false /\ forall j, 2 * n + 1 <= j -> cv_field (conv_at E j) f p ix = Ok v.
  Proof.
    induction n as [|n IH]; intros f v p Hr Nv H; [discriminate|]. cbn [export_at] in H.
    assert (Enter : forall g q w, is_nil q = false -> (forall i, 2 * n + 1 <= i -> convert_step E (conv_at E i) g q ix = Ok w) ->
      forall j, 2 * S n + 1 <= j -> cv_field (conv_at E j) g q ix = Ok w).
    { intros g q w Nq K j Hj. destruct j as [|[|j]]; [lia|lia|]. cbn [conv_at conv_step cv_field]. unfold field_step.
      unfold check_required. rewrite Nq, andb_false_r. cbn [andb]. rewrite Hv. cbn [cv_convert]. apply K. lia. }
    assert (Elem : forall g v q, restorable_elem E x (cx_partial ix) g v -> export_at E n g v x = Ok q ->
      forall j, 2 * n + 1 <= j -> cv_field (conv_at E j) g q ix = Ok v).
    { intros g v0 q Hg Hq j Hj. inversion Hg as [? ? N1 R1|o l R1 L1]; subst; [eapply IH; eassumption|].
      destruct n as [|n']; [discriminate|]. cbn [export_at] in Hq. unfold export_step in Hq. cbn [fs_type] in Hq.
      unfold leaf_form in L1. rewrite L1 in Hq. injection Hq as <-. destruct j as [|j]; [lia|]. cbn. unfold field_step, check_required. cbn.
      now rewrite R1. }
    assert (Inst : forall c m d, restorable_instance E x (cx_partial ix) c m -> export_loop E (export_at E n) x c (VModel c m) = Ok d ->
      forall i, 2 * n + 1 <= i -> model_new E (cv_field (conv_at E i)) (cv_pre (conv_at E i)) c (VDict d) ix = Ok (VModel c m)).
    { intros c m d Hm Hd i Hi. inversion Hm as [? data Hk Hn Hf]; subst. unfold model_new. cbn [py_dict truthy].
      replace (if nonempty d then Ok d else Ok []) with (@Ok (list (key * pyval)) d) by (destruct d; reflexivity). cbn [rbind]. rewrite Hv.
      rewrite import_loop_no_validate_mut by exact Hv. change (mc_fields (e_class E c)) with (fields_of E c).
      rewrite (instance_back (export_at E n) _ _ _ _ c data d Hm); [reflexivity| | |exact Hd].
      - intros f0 v0 p0 R0 N0 H0. destruct (IH _ _ _ R0 N0 H0). split; auto.
      - intros f0 R0. destruct i; [lia|]. now apply none_back. }
    inversion Hr as [? ?|o l v0 q N1 L1 N2 L2|o ms v0 o1 l w q m' N1 U1 L1 N2 U2|o g l HL He|o g ck d HL Hn He|o c m Hm|o pl c m Hm Hf]; subst; [discriminate| | | | | |];
      unfold export_step in H; cbn [fs_type] in H.
    - unfold leaf_form in L1. rewrite L1 in H. injection H as <-. split; [exact N2|]. apply Enter; [exact N2|].
      intros i _. exact L2.
    - rewrite (union_leaf (export_convert E (export_at E n) x) ms v _ _ (fun _ _ _ => eq_refl) U1) in H. cbn [rbind] in H.
      destruct n as [|n']; [discriminate H|]. cbn [export_at] in H. unfold export_step in H. cbn [fs_type] in H.
      unfold leaf_form in L1. rewrite L1 in H. injection H as <-. split; [exact N2|].
      apply Enter; [exact N2|]. intros i Hi. destruct i as [|i]; [lia|]. unfold convert_step. cbn [fs_type].
      now rewrite (union_leaf (fun m u => cv_convert (conv_at E (S i)) m u ix) ms q _ _ (fun _ _ _ => eq_refl) U2).
    - apply list_export_ok in H as (lvl & L & [[-> _]|(_ & l0 & r & I & W & ->)]).
      { specialize (HL _ L). lia. }
      injection I as <-. split; [reflexivity|]. apply Enter; [reflexivity|]. intros i Hi. unfold convert_step. cbn [fs_type].
      apply list_convert_ok. exists r, l. split; [reflexivity|]. split; [reflexivity|]. unfold all_convert.
      apply written_elems_all in W; [|now apply HL]. clear -W He Elem Hi.
      induction W as [|v w l r F W IHw]; constructor; [eapply Elem; [apply He; left; reflexivity|exact F|exact Hi]|].
      apply IHw. intros; apply He; right; assumption.
    - apply dict_export_ok in H as (lvl & L & [[-> _]|(_ & r & W & ->)]); [specialize (HL _ L); lia| |exact Hn].
      split; [reflexivity|]. apply Enter; [reflexivity|]. intros i Hi. unfold convert_step. cbn [fs_type].
      apply dict_convert_ok. exists r, d. split; [reflexivity|]. split; [now rewrite dupdate_nil_l by exact Hn|].
      apply written_entries_all in W; [|now apply HL]. clear -W He Elem Hi.
      induction W as [|[y v] [y' w] l r [F1 F2] W IHw]; constructor.
      + cbn in F1, F2. subst y'. destruct (He y v (or_introl eq_refl)) as [K1 K2]. split; [|exact K1]. cbn. eapply Elem; eassumption.
      + apply IHw. intros; apply He; right; assumption.
    - unfold model_export in H. destruct (export_loop E (export_at E n) x c (VModel c m)) as [d|] eqn:X; [|discriminate].
      cbn in H. injection H as <-. split; [reflexivity|]. apply Enter; [reflexivity|]. intros i Hi. unfold convert_step. cbn [fs_type].
      unfold model_convert. destruct Hx as (_ & _ & -> & ->). cbn [andb]. now apply Inst.
    - unfold poly_export in H. destruct (poly_allowed E pl (VModel c m)); [|discriminate].
      destruct (export_loop E (export_at E n) x c (VModel c m)) as [d|] eqn:X; [|discriminate].
      cbn in H. injection H as <-. split; [reflexivity|]. apply Enter; [reflexivity|]. intros i Hi. unfold convert_step. cbn [fs_type].
      unfold poly_convert. cbn [is_none poly_allowed]. rewrite Hv. cbn [negb andb]. rewrite (Hf n d X). cbn [rbind]. now apply Inst.
  Qed.
End RT.

(** Whole instances. *)
Lemma export_import E x n j c m w d :
  clear_env E -> kw_mapping w = no_mapping -> kw_convert w = true -> kw_validate w = false ->
  restorable_instance E x (kw_partial w) c m -> model_export_top E (export_at E n) c m x = Ok d ->
  2 * n + 1 <= j -> model_init E (conv_at E j) c (VDict d) (VDict []) w = Ok m.
Proof.
  intros HE Hm Hc Hv Hr Hd Hj. rewrite init_plain by exact Hv. inversion Hr as [? data Hk Hn Hf]; subst.
  assert (Hx : plain_ctx (kw_ctx w (VDict []))) by (repeat split; assumption).
  change (mc_fields (e_class E c)) with (fields_of E c).
  rewrite (instance_back E HE x (kw_ctx w (VDict [])) Hx Hv (export_at E n) _ _ _ _ c data d Hr).
  - reflexivity.
  - intros f v p R N H. destruct (value_back E HE x _ Hx Hv n f v p R N H) as [K1 K2]. split; [exact K1|]. now apply K2.
  - intros f R. destruct j; [lia|]. eapply none_back; exact R.
  - exact Hd.
Qed.

(** ** Converted values can be restored *)
Lemma clean_defined v : clean v -> v <> VUndef.
Proof. intros H ->. inversion H as [| | | |? K]; destruct K. Qed.

Lemma py_items_In E v ks l y w : py_items E v ks = Ok l -> In (y, w) l -> py_getitem E v y = Ok w.
Proof.
  revert l. induction ks as [|a ks IH]; intros l; cbn [py_items].
  - intros [= <-] [].
  - destruct (py_getitem E v a) as [u0|] eqn:G; cbn [rbind]; [|discriminate].
    destruct (py_items E v ks) as [l0|] eqn:Q; cbn [rbind]; [|discriminate]. intros [= <-] [[= <- <-]|Hi]; [exact G|]. now apply (IH l0).
Qed.
Lemma clean_items E v d : (forall c, plain_fields (fields_of E c)) -> clean v -> py_dict E v = Ok d -> forall y w, In (y, w) d -> clean w.
Proof.
  intros Hp Hc H y w Hi. unfold py_dict in H. destruct v; try discriminate; cbn [py_keys rbind] in H.
  - injection H as ->. inversion Hc as [| |? K| |? K]; subst; [|destruct K]. eapply K; exact Hi.
  - eapply py_items_In in H; [|exact Hi]. cbn [py_getitem] in H. unfold model_getitem in H.
    destruct (dget y (mc_fields (e_class E c))) as [f|] eqn:G; [|discriminate]. unfold field_get in H.
    destruct (Hp c y f (dget_In _ _ _ G)) as [Hg _]. rewrite Hg in H. destruct (chain_get m y) as [v|] eqn:C; [|discriminate].
    destruct (is_undef v); [discriminate|]. injection H as ->. inversion Hc as [| | |? ? K|? K]; subst; [|destruct K]. eapply K; exact C.
Qed.
Lemma clean_elems E v l : clean v -> list_elems E v = Some l -> forall w, In w l -> clean w.
Proof.
  intros Hc H w Hi. destruct v; try discriminate; cbn [list_elems] in H; injection H as <-.
  - apply in_map_iff in Hi as (b & <- & _). now apply cn_other.
  - inversion Hc as [? K| | | |? K]; subst; [|destruct K]. auto.
  - inversion Hc as [|? K| | |? K]; subst; [|destruct K]. auto.
  - apply in_map_iff in Hi as (b & <- & _). destruct b; now apply cn_other.
Qed.

Section Restore.
  Context (E : env) (x : ectx) (HR : restoring_env E x) (ix : ictx).
  Hypothesis Hx : plain_ctx ix.
  Hypothesis Hv : cx_validate ix = false.
  Hypothesis Hinit : cx_init_values ix = true.
  Let HT := rs_tidy E x HR.

  Lemma supplied_In d n f mp v : supplied d n f mp = Some v -> exists y, In (y, v) d.
  Proof. unfold supplied. destruct (find _ _) as [y|]; [|discriminate]. intros H. apply dget_In in H. eauto. Qed.

  Lemma candidate_init f : candidate ix f None <> VUndef.
  Proof. unfold candidate. rewrite Hinit. destruct (cx_apply_defaults ix); [|discriminate]. destruct (fo_default (fs_opts f)); discriminate. Qed.

  (** An imported instance can be restored. *)
  Lemma loop_restorable fc pre c mut a d data :
    (forall f v w, restoring E x f -> clean v -> fc f v ix = Ok w ->
       restorable E x (cx_partial ix) f w /\ (is_nil v = false -> is_nil w = false)) ->
    (forall f v w, is_nil v = true -> fc f v ix = Ok w -> w = v) ->
    (forall y v, In (y, v) d -> clean v) ->
    lo_res (import_loop E fc pre ix (fields_of E c) mut a (VDict d)) = Ok data ->
    restorable_instance E x (cx_partial ix) c (MD [] data [] None).
  Proof.
    intros Hf Hnil Hcl H. pose proof (ti_nodup E HT c) as Hnd. pose proof (ti_plain E HT c) as Hpl.
    assert (Hdd : defined_dict d) by (intros y G; apply dget_In in G; apply Hcl, clean_defined in G; congruence).
    assert (Heff : effective_input E ix (fields_of E c) mut d d) by now apply eff_convert.
    assert (Htd : trusted_dict E ix []) by (unfold trusted_dict; destruct Hx as (-> & _); reflexivity).
    assert (Cand : forall n f, In (n, f) (fields_of E c) -> clean (candidate ix (fd_spec f) (supplied d n (fd_spec f) no_mapping))).
    { intros n f Hi. destruct (supplied d n (fd_spec f) no_mapping) as [v|] eqn:S.
      - cbn. apply supplied_In in S as [y S]. eapply Hcl; exact S.
      - unfold candidate. rewrite Hinit. destruct (cx_apply_defaults ix); [|now apply cn_other].
        destruct (rs_defaults E x HR c n f Hi) as [D|D]; [rewrite D; now apply cn_other|].
        pose proof (clean_defined _ D). destruct (fo_default (fs_opts (fd_spec f))); congruence || exact D. }
    assert (Each : forall n f, In (n, f) (fields_of E c) -> exists v, dget n data = Some v /\ v <> VUndef /\ restorable E x (cx_partial ix) (fd_spec f) v).
    { intros n f Hi. assert (Hh : handled ix f) by (apply (no_setters_handled ix (fields_of E c) n f); [now apply plain_no_setters|exact Hi]).
      pose proof (data_field E fc pre ix (fields_of E c) mut a d d [] Heff Hdd Hnd Htd data [] n f (or_introl H) Hi Hh) as D.
      assert (Nf : forall e, field_outcome E fc ix d [] n (fd_spec f) <> Fail e).
      { intros e K. apply (success_no_errors E fc pre ix (fields_of E c) mut a d d [] Heff Hdd Hnd Htd data (public_name n f) H).
        right. exists n, f, e. repeat split; auto. }
      set (sup := supplied d n (fd_spec f) no_mapping) in *. specialize (Cand n f Hi). fold sup in Cand.
      assert (O : field_outcome E fc ix d [] n (fd_spec f) = match fc (fd_spec f) (candidate ix (fd_spec f) sup) ix with
                        | Ok VUndef => Keep | Ok w => Store w | Raise e => Fail e end).
      { unfold field_outcome. replace (cx_mapping ix) with no_mapping by (symmetry; apply Hx). fold sup.
        rewrite plain_field_ctx by exact Hx. destruct sup; reflexivity. }
      rewrite O in D, Nf. destruct (fc (fd_spec f) (candidate ix (fd_spec f) sup) ix) as [w|e] eqn:F; [|now elim (Nf e)].
      assert (w <> VUndef).
      { intros ->. destruct (is_nil (candidate ix (fd_spec f) sup)) eqn:N.
        - apply Hnil in F; [|exact N]. apply clean_defined in Cand. congruence.
        - apply Hf in F as [_ F]; [|eapply rs_fields; eassumption|exact Cand]. specialize (F N). discriminate. }
      exists w. split; [destruct w; try exact D; congruence|]. split; [assumption|].
      eapply Hf; [eapply rs_fields; eassumption|exact Cand|exact F]. }
    assert (Dk : dkeys data = dkeys (fields_of E c)).
    { assert (B : built fc ix (fields_of E c) data).
      { unfold import_loop in H. destruct Hx as (Ht & _). rewrite Ht in H. cbn [truthy nonempty is_none negb andb] in H. rewrite Hv in H. cbn [lo_res rbind] in H.
        rewrite rogues_dict in H. cbn [rbind] in H. set (e1 := if cx_strict ix then _ else _) in H.
        destruct (import_fields E fc ix true (VDict d) (fields_of E c) ([], e1)) as [[data1 errs]|] eqn:I; cbn [rbind] in H; [|discriminate].
        destruct errs; [|discriminate]. rewrite copy_settable_none in H by (now apply plain_no_setters). injection H as ->.
        pose proof (import_fields_nonempty_errs fc ix E _ _ _ _ _ I eq_refl) as Z. cbn in Z. rewrite Z in I.
        apply import_fields_built in I as (l & -> & Hb); auto. now apply plain_no_setters. }
      assert (G : forall n, In n (dkeys (fields_of E c)) -> In n (dkeys data)).
      { intros n Hn. unfold dkeys in Hn. apply in_map_iff in Hn as ([n' f] & <- & Hi). destruct (Each n' f Hi) as (v & Hg & _). apply dget_keys. cbn. congruence. }
      clear -B G Hnd. induction B as [|n f v0 w fs l Hw Hu Hb IH|n f v0 fs l Hw Hc Hb IH]; [reflexivity| |].
      - cbn. inversion Hnd as [|? ? N1 N2]; subst. f_equal. apply IH; [exact N2|]. intros y Hy. destruct (G y) as [<-|K]; [right; exact Hy|contradiction|exact K].
      - inversion Hnd as [|? ? N1 N2]; subst. exfalso. apply N1. eapply built_keys; [exact Hb|]. apply G. left; reflexivity. }
    constructor.
    - exact Dk.
    - rewrite Dk. exact Hnd.
    - intros n f Hi. destruct (Each n f Hi) as (v & G & U & R). exists v. split; [exact G|]. split; [exact U|].
      split; [intros filt F; eapply rs_shown; eassumption|]. split; [eapply rs_levels; eassumption|exact R].
  Qed.

  Lemma nil_field j f v w : is_nil v = true -> cv_field (conv_at E j) f v ix = Ok w -> w = v.
  Proof.
    intros N. destruct j; [discriminate|]. cbn. unfold field_step. destruct (check_required f v ix); [discriminate|]. rewrite N. congruence.
  Qed.

  Definition restore_at j : Prop := forall f, restoring E x f ->
    (forall v w, clean v -> cv_field (conv_at E j) f v ix = Ok w ->
       restorable E x (cx_partial ix) f w /\ (is_nil v = false -> is_nil w = false)) /\
    (forall v w, clean v -> is_nil v = false -> cv_convert (conv_at E j) f v ix = Ok w ->
       restorable E x (cx_partial ix) f w /\ is_nil w = false).

  Lemma restore_step j : restore_at j -> restore_at (S j).
  Proof.
    intros IH f Hf. split.
    - intros v w Hc. cbn [conv_at conv_step cv_field]. unfold field_step. destruct (check_required f v ix) eqn:Q; [discriminate|].
      destruct (is_nil v) eqn:N.
      + intros [= <-]. split; [|discriminate]. pose proof (clean_defined _ Hc).
        assert (v = VNone) as -> by (destruct v; try discriminate; congruence). apply re_none. intros R. revert Q.
        unfold check_required. rewrite R. cbn. destruct (fo_named (fs_opts f)), (cx_partial ix); cbn; auto; discriminate.
      + rewrite Hv. intros H. apply (IH f Hf) in H; tauto.
    - intros v w Hc N. cbn [conv_at conv_step cv_convert]. unfold convert_step.
      assert (HF : forall f v w, restoring E x f -> clean v -> cv_field (conv_at E j) f v ix = Ok w ->
         restorable E x (cx_partial ix) f w /\ (is_nil v = false -> is_nil w = false)) by (intros g v0 w0 Hg; apply (IH g Hg)).
      assert (Elem : forall g v w, inner_ok x g -> restoring E x g -> clean v -> cv_field (conv_at E j) g v ix = Ok w -> restorable_elem E x (cx_partial ix) g w).
      { intros g v0 w0 [I1 I2] Hg Hc0 H. pose proof (HF g v0 w0 Hg Hc0 H) as [R1 R2]. destruct (is_nil v0) eqn:N0; [|apply el_some; auto].
        pose proof (nil_field _ _ _ _ N0 H) as ->. pose proof (clean_defined _ Hc0).
        assert (v0 = VNone) as -> by (destruct v0; try discriminate; congruence).
        destruct j; [discriminate|]. cbn in H. unfold field_step, check_required in H. rewrite I1 in H. cbn in H. rewrite andb_true_r in H.
        destruct I2 as [I2|(l & I2 & I3)]; [rewrite I2 in H; discriminate|].
        destruct (fo_required (fs_opts g)) eqn:R; [discriminate|]. destruct g as [o t]. cbn in I2, R. subst t. now apply el_none. }
      destruct f as [o [l|ms|c|p|g|g ck]]; cbn [restoring restoring_type fs_type] in *.
      + intros H. destruct (Hf v w N H) as (N2 & p & L1 & N3 & L2). split; [|exact N2]. eapply re_leaf; eassumption.
      + destruct (union_resolve _ ms v) as [[m u0]|] eqn:U; cbn [rbind]; [|discriminate]. intros [= <-].
        destruct Hf as [HL Hf]. assert (U' : union_resolve leaf_convert ms v = Ok (m, u0)).
        { clear Hf. destruct j as [|j]; [destruct ms; discriminate U|].
          rewrite <- U. clear U. induction ms as [|m0 ms IHm]; [reflexivity|]. cbn [union_resolve].
          destruct (HL m0) as (o1 & l1 & ->); [now left|]. rewrite IHm by (intros; apply HL; now right). reflexivity. }
        destruct (Hf v m u0 N U') as (N2 & o1 & l & w & p & m' & U1 & L1 & N3 & U2). split; [|exact N2]. eapply re_union; eassumption.
      + destruct Hx as (_ & _ & Hcv & Ho). unfold model_convert. rewrite Hcv, Ho. cbn [andb].
        assert (M : forall v, clean v -> model_new E (cv_field (conv_at E j)) (cv_pre (conv_at E j)) c v ix = Ok w ->
           restorable E x (cx_partial ix) (FS o (TModel c)) w /\ is_nil w = false).
        { intros v0 Hc0. unfold model_new. destruct (if truthy v0 then py_dict E v0 else Ok []) as [d|] eqn:D; cbn [rbind]; [|discriminate].
          rewrite Hv. rewrite import_loop_no_validate_mut by exact Hv.
          destruct (lo_res (import_loop E (cv_field (conv_at E j)) (cv_pre (conv_at E j)) ix (mc_fields (e_class E c)) (VModel c md_empty)
            (if truthy v0 then NoAlias else AliasConverted) (VDict d))) as [data|] eqn:L; cbn [rbind]; [|discriminate]. intros [= <-].
          split; [|reflexivity]. cbn. apply re_model. eapply loop_restorable; [exact HF|apply nil_field| |exact L].
          destruct (truthy v0); [eapply clean_items; [apply (ti_plain E HT)|exact Hc0|exact D]|]. injection D as <-. intros ? ? []. }
        destruct v; try discriminate.
        * apply M, Hc.
        * destruct (e_issub E c0 c) eqn:I; [|discriminate]. apply Hf in I as ->. apply M, Hc.
      + destruct Hf.
      + destruct Hf as (I & HL & Hf). intros H. apply list_convert_ok in H as (l & ws & L & -> & H). split; [|reflexivity].
        apply re_list; [exact HL|]. pose proof (clean_elems E v l Hc L) as Hcl. clear -H Hcl Elem I Hf.
        induction H as [|a b l ws Hab H IHl]; [intros ? []|]. intros w [<-|Hw]; [|apply IHl; [intros; apply Hcl; right; assumption|exact Hw]].
        eapply Elem; try eassumption. apply Hcl; left; reflexivity.
      + destruct Hf as (I & HL & Hf & Hck). intros H. apply dict_convert_ok in H as (d & ps & -> & -> & H). split; [|reflexivity].
        apply re_dict; [exact HL|apply NoDup_dupdate; constructor|]. intros y w Hw. apply dupdate_In in Hw as [[]|Hw]; [|constructor].
        assert (Hcl : forall y v, In (y, v) d -> clean v) by (inversion Hc as [| |? K| |? K]; subst; [exact K|destruct K]).
        clear -H Hcl Elem I Hf Hck Hw. induction H as [|[y0 a] [y1 b] l ws [Ha Hk] H IHl]; [destruct Hw|]. cbn in Ha, Hk.
        destruct Hw as [[= -> ->]|Hw]; [|apply IHl; [exact Hw|intros; eapply Hcl; right; eassumption]].
        split; [eapply Hck; exact Hk|]. eapply Elem; try eassumption. eapply Hcl; left; reflexivity.
  Qed.
  Lemma restore_all j : restore_at j.
  Proof. induction j; [|now apply restore_step]. intros f _. split; intros; discriminate. Qed.
End Restore.

Lemma init_restorable E x j c d w m : restoring_env E x ->
  kw_mapping w = no_mapping -> kw_convert w = true -> kw_validate w = false -> kw_init_values w = true ->
  (forall y v, In (y, v) d -> clean v) ->
  model_init E (conv_at E j) c (VDict d) (VDict []) w = Ok m -> restorable_instance E x (kw_partial w) c m.
Proof.
  intros HR Hm Hc Hv Hi Hcl. rewrite init_plain by exact Hv.
  assert (Hx : plain_ctx (kw_ctx w (VDict []))) by (repeat split; assumption).
  destruct (lo_res _) as [data|] eqn:L; cbn [rbind]; [|discriminate]. intros [= <-].
  eapply (loop_restorable E x HR (kw_ctx w (VDict [])) Hx Hv Hi (cv_field (conv_at E j))); [| |exact Hcl|exact L].
  - intros f v u0 Hf. apply (restore_all E x HR _ Hx Hv Hi j f Hf).
  - apply nil_field.
Qed.

Lemma restoring_clear E x : restoring_env E x -> clear_env E.
Proof. intros H. constructor; [apply (ti_plain E (rs_tidy E x H))|apply (rs_names E x H)]. Qed.

Lemma init_export_init E x j n j' c d w m d' : restoring_env E x ->
  kw_mapping w = no_mapping -> kw_convert w = true -> kw_validate w = false -> kw_init_values w = true ->
  (forall y v, In (y, v) d -> clean v) ->
  model_init E (conv_at E j) c (VDict d) (VDict []) w = Ok m ->
  model_export_top E (export_at E n) c m x = Ok d' -> 2 * n + 1 <= j' ->
  model_init E (conv_at E j') c (VDict d') (VDict []) w = Ok m.
Proof.
  intros HR Hm Hc Hv Hi Hcl H1 H2 Hj. eapply export_import; try eassumption; [eapply restoring_clear; eassumption|].
  eapply init_restorable; eassumption.
Qed.
