(** Repeating a conversion. *)
From Verif.Model Require Import Py Core Export Api.
From Verif.Spec Require Import ImportSpec ValidateSpec CompoundSpec IdemSpec.
From Verif.Proofs Require Import DictLemmas ImportLemmas ApiLemmas ImportApi ValidateLemmas CompoundLemmas PolyLemmas Fuel ValidateMore.

Lemma plain_field_ctx E x n f : plain_ctx x -> field_ctx E x n f = x.
Proof.
  intros (H1 & H2 & H3 & H4). unfold field_ctx. destruct (is_compound f); [|reflexivity].
  unfold nested_td, nested_map, branch. rewrite H1, H2. cbn. destruct x; cbn in *; subst. reflexivity.
Qed.

(** What a successful import has built. *)
Section Built.
  Context (fc : fspec -> pyval -> ictx -> res pyval) (x : ictx).
  Inductive built : list (key * field) -> list (key * pyval) -> Prop :=
  | built_nil : built [] []
  | built_put n f v0 w fs l : fc (fd_spec f) v0 x = Ok w -> w <> VUndef -> built fs l -> built ((n, f) :: fs) ((n, w) :: l)
  | built_skip n f v0 fs l : fc (fd_spec f) v0 x = Ok VUndef ->
      (v0 = VUndef -> candidate x (fd_spec f) None = VUndef) -> built fs l -> built ((n, f) :: fs) l.

  Lemma built_keys fs l : built fs l -> forall y, In y (dkeys l) -> In y (dkeys fs).
  Proof. induction 1; cbn; firstorder. Qed.
  Lemma built_NoDup fs l : built fs l -> NoDup (dkeys fs) -> NoDup (dkeys l).
  Proof.
    induction 1; cbn; intros Hn; [constructor| |]; inversion Hn as [|? ? H1' H2']; subst; auto.
    constructor; [|auto]. intros Hi; apply H1'. eapply built_keys; eassumption.
  Qed.
  Lemma built_defined fs l : built fs l -> defined_dict l.
  Proof.
    induction 1; intros y; cbn; [discriminate| |auto].
    destruct (key_eqb y n); [congruence|apply IHbuilt].
  Qed.

  Lemma import_field_nonempty_errs E raw n f s s' got : import_field E fc x got raw n f s = Ok s' ->
    snd s' = [] -> snd s = [].
  Proof.
    unfold import_field. destruct s as [data errs], s' as [data' errs']. cbn [snd].
    destruct (if got && _ then _ else _) as [v1|]; cbn [rbind]; [|discriminate].
    destruct (is_undef v1 && dmem n data); [now intros [= -> ->]|].
    assert (St : forall w, (if is_undef w then Ok (data, errs) else Ok (dset n w data, errs)) = Ok (data', errs') -> errs' = errs).
    { intros w; destruct (is_undef w); now intros [= _ ->]. }
    destruct got; [|intros H ->; apply St in H; congruence].
    destruct (fc _ _ _) as [w|e]; [intros H ->; apply St in H; congruence|].
    destruct (caught_by_loop e); [|discriminate]. intros [= _ <-] K.
    destruct (dset _ _ errs) eqn:D; [|discriminate].
    assert (In (sname_of n (fd_spec f)) (dkeys (dset (sname_of n (fd_spec f)) (err_node e) errs))) as Hi
      by (apply dkeys_dset_in; auto). rewrite D in Hi. destruct Hi.
  Qed.
  Lemma import_fields_nonempty_errs E raw fs s s' got : import_fields E fc x got raw fs s = Ok s' ->
    snd s' = [] -> snd s = [].
  Proof.
    revert s; induction fs as [|[n f] fs IH]; intros s; cbn; [now intros [= ->]|].
    destruct (negb _ && _); [apply IH|].
    destruct (import_field E fc x got raw n f s) as [s1|] eqn:F1; cbn [rbind]; [|discriminate].
    intros H K. eapply import_field_nonempty_errs; [exact F1|]. eapply IH; eassumption.
  Qed.

  Lemma import_fields_raise E d fs s e : import_fields E fc x true (VDict d) fs s = Raise e -> caught_by_loop e = false.
  Proof.
    revert s; induction fs as [|[n f] fs IH]; intros s; cbn [import_fields]; [discriminate|].
    destruct (negb _ && _); [apply IH|].
    destruct (import_field E fc x true (VDict d) n f s) as [s1|e1] eqn:F1; cbn [rbind]; [apply IH|].
    intros [= ->]. revert F1. unfold import_field. destruct s as [data errs].
    destruct (if true && _ then _ else _) as [v1|e1] eqn:Q; cbn [rbind].
    - destruct (_ && dmem n data); [discriminate|]. destruct (fc _ _ _) as [w|e1].
      + destruct (is_undef w); discriminate.
      + destruct (caught_by_loop e1) eqn:C; [discriminate|]. now intros [= <-].
    - intros [= ->]. revert Q. destruct (true && _); [|discriminate]. rewrite find_alt_find.
      destruct (find _ _) as [k0|]; [|discriminate]. destruct (dget k0 d); [discriminate|]. now intros [= <-].
  Qed.

  Hypothesis Hx : plain_ctx x.

  Lemma import_fields_built E raw fs data data' :
    import_fields E fc x true raw fs (data, []) = Ok (data', []) ->
    no_setters fs -> NoDup (dkeys fs) -> (forall n, In n (dkeys fs) -> ~ In n (dkeys data)) ->
    exists l, data' = data ++ l /\ built fs l.
  Proof.
    revert data; induction fs as [|[n f] fs IH]; intros data.
    - cbn. intros [= <-] _ _ _. exists []. rewrite app_nil_r. split; [reflexivity|constructor].
    - cbn [import_fields]. intros H Hs Hn Hd. inversion Hn as [|? ? N1 N2]; subst.
      assert (Hs' : no_setters fs) by (intros a b Hb; apply (Hs a b); cbn; auto).
      replace (has_setter f) with false in H by (unfold has_setter; rewrite (Hs n f) by (cbn; auto); reflexivity).
      rewrite andb_false_r in H.
      destruct (import_field E fc x true raw n f (data, [])) as [[data1 errs1]|] eqn:F1; cbn [rbind] in H; [|discriminate].
      assert (errs1 = []) as -> by (eapply import_fields_nonempty_errs in H; [exact H|reflexivity]).
      unfold import_field in F1. cbn [andb] in F1.
      destruct (if is_undef _ then _ else _) as [v1|]; cbn [rbind] in F1; [|discriminate].
      assert (Hm : dmem n data = false) by (apply dmem_nIn, Hd; cbn; auto).
      rewrite Hm, andb_false_r in F1. rewrite plain_field_ctx in F1 by assumption.
      set (v3 := if is_undef (if is_undef v1 && cx_apply_defaults x then _ else v1) && cx_init_values x then VNone else _) in F1.
      assert (Hv3 : v3 = VUndef -> candidate x (fd_spec f) None = VUndef).
      { unfold v3, candidate. clear. destruct (is_undef v1) eqn:U.
        - assert (v1 = VUndef) as -> by (destruct v1; discriminate || reflexivity).
          destruct (cx_apply_defaults x), (fo_default (fs_opts (fd_spec f))), (cx_init_values x); cbn; congruence.
        - cbn. rewrite U. cbn. intros ->. discriminate. }
      destruct (fc (fd_spec f) v3 x) as [w|e] eqn:Fw.
      + destruct (is_undef w) eqn:U.
        * injection F1 as <-. assert (w = VUndef) as -> by (destruct w; discriminate || reflexivity).
          apply IH in H as (l & -> & Hb); auto; [|intros y Hy; apply Hd; cbn; auto].
          exists l. split; [reflexivity|]. eapply built_skip; eassumption.
        * injection F1 as <-.
          rewrite dkeys_dset_new in H by (apply dmem_nIn; exact Hm).
          apply IH in H as (l & -> & Hb); auto.
          -- exists ((n, w) :: l). rewrite <- app_assoc. split; [reflexivity|].
             eapply built_put; [exact Fw| |exact Hb]. intros ->; discriminate.
          -- intros y Hy. unfold dkeys. rewrite map_app, in_app_iff. cbn. intros [Hi|[<-|[]]]; [|contradiction].
             apply (Hd y); cbn; auto.
      + destruct (caught_by_loop e); discriminate.
  Qed.

  (** Feeding the built data back gives the same data. *)
  Context (E : env).

  Lemma rebuild fs l d : built fs l -> NoDup (dkeys fs) ->
    (forall n f, In (n, f) fs -> forall v w, fc (fd_spec f) v x = Ok w -> is_nil w = true -> w = v) ->
    (forall n f, In (n, f) fs -> forall v w, fc (fd_spec f) v x = Ok w -> fc (fd_spec f) w x = Ok w) ->
    (forall n f, In (n, f) fs -> dget n d = dget n l) ->
    (forall n f, In (n, f) fs -> dget n l = None -> supplied d n (fd_spec f) no_mapping = None) ->
    forall data, (forall n, In n (dkeys fs) -> ~ In n (dkeys data)) ->
    run_outcomes E fc x d [] fs (data, []) = Ok (data ++ l, []).
  Proof.
    intros Hb. induction Hb as [|n f v0 w fs l Hw Hu Hb IH|n f v0 fs l Hw Hc Hb IH]; intros Hn Hnil Hi Hg Hs data Hd.
    - cbn. now rewrite app_nil_r.
    - inversion Hn as [|? ? N1 N2]; subst. cbn [run_outcomes].
      assert (S : supplied d n (fd_spec f) no_mapping = Some w).
      { apply (supplied_first d n (fd_spec f) no_mapping [] n (tl (accepted_names n (fd_spec f) no_mapping))).
        - reflexivity.
        - intros z [].
        - rewrite (Hg n f) by (cbn; auto). cbn. now rewrite key_eqb_refl. }
      assert (O : field_outcome E fc x d [] n (fd_spec f) = Store w).
      { unfold field_outcome. destruct Hx as (_ & Hm & _). rewrite Hm, S. cbn [candidate dget].
        rewrite plain_field_ctx by assumption. rewrite (Hi n f) with (v := v0) (w := w) by (cbn; auto).
        destruct w; try reflexivity. congruence. }
      rewrite O. cbn [apply_outcome rbind].
      rewrite dkeys_dset_new by (apply Hd; cbn; auto).
      assert (Lg : forall y f', In (y, f') fs -> dget y ((n, w) :: l) = dget y l).
      { intros y f' Hy. cbn. destruct (key_eqb_spec y n) as [->|_]; [|reflexivity].
        exfalso; apply N1. apply (in_map fst) in Hy; exact Hy. }
      rewrite IH.
      + now rewrite <- app_assoc.
      + assumption.
      + intros; eapply Hnil; cbn; eauto.
      + intros; eapply Hi; cbn; eauto.
      + intros y f' Hy. rewrite (Hg y f') by (cbn; auto). eapply Lg; eassumption.
      + intros y f' Hy Hl. apply Hs; [cbn; auto|]. erewrite Lg by eassumption. exact Hl.
      + intros y Hy. unfold dkeys. rewrite map_app, in_app_iff. cbn. intros [K|[<-|[]]]; [|contradiction].
        apply (Hd y); cbn; auto.
    - inversion Hn as [|? ? N1 N2]; subst. cbn [run_outcomes].
      assert (v0 = VUndef) as -> by (symmetry; apply (Hnil n f ltac:(cbn; auto) _ _ Hw); reflexivity).
      specialize (Hc eq_refl).
      assert (Ln : dget n l = None).
      { destruct (dget n l) eqn:G; [|reflexivity]. exfalso. apply N1. eapply built_keys; [exact Hb|].
        apply dget_keys. congruence. }
      assert (O : field_outcome E fc x d [] n (fd_spec f) = Keep).
      { unfold field_outcome. destruct Hx as (_ & Hm & _). rewrite Hm.
        rewrite (Hs n f) by (cbn; auto). cbn [dget]. rewrite Hc, plain_field_ctx, Hw by assumption. reflexivity. }
      rewrite O. cbn [apply_outcome rbind]. apply IH; auto.
      + intros; eapply Hnil; cbn; eauto.
      + intros; eapply Hi; cbn; eauto.
      + intros; eapply Hg; cbn; eauto.
      + intros; apply Hs; cbn; eauto.
      + intros; apply Hd; cbn; auto.
  Qed.
End Built.

Lemma built_items fc x E c l h : plain_fields (fields_of E c) -> NoDup (dkeys (fields_of E c)) ->
  built fc x (fields_of E c) l -> model_items E c (MD [] l [] h) = l.
Proof.
  intros Hp Hn Hb. unfold model_items, model_iter. rewrite map_map.
  change (mc_fields (e_class E c)) with (fields_of E c).
  assert (G : forall fs l' D, built fc x fs l' -> plain_fields fs -> NoDup (dkeys fs) ->
     (forall n f, In (n, f) fs -> chain_get (MD [] D [] h) n = dget n l') ->
     map (fun p => (fst p, match chain_get (MD [] D [] h) (fst p) with Some v => v | None => VUndef end))
       (filter (fun p => chain_mem (MD [] D [] h) (fst p) && is_none_opt (fd_set (snd p))) fs) = l').
  { clear. intros fs l' D Hb. induction Hb as [|n f v0 w fs l Hw Hu Hb IH|n f v0 fs l Hw Hc Hb IH]; intros Hp Hn Hg; [reflexivity| |].
    - inversion Hn as [|? ? N1 N2]; subst. destruct (Hp n f ltac:(cbn; auto)) as [_ Hs].
      assert (Gn : chain_get (MD [] D [] h) n = Some w).
      { rewrite (Hg n f) by (cbn; auto). cbn. now rewrite key_eqb_refl. }
      cbn [filter fst snd]. unfold chain_mem at 1. rewrite Gn, Hs. cbn [is_none_opt andb map fst]. rewrite Gn. f_equal.
      apply IH; auto.
      + intros a b Hab. apply (Hp a b). cbn; auto.
      + intros a b Hab. rewrite (Hg a b) by (cbn; auto). cbn.
        destruct (key_eqb_spec a n) as [->|_]; [|reflexivity]. exfalso; apply N1. apply (in_map fst) in Hab; exact Hab.
    - inversion Hn as [|? ? N1 N2]; subst.
      assert (Gn : chain_get (MD [] D [] h) n = None).
      { rewrite (Hg n f) by (cbn; auto). destruct (dget n l) eqn:G; [|reflexivity].
        exfalso. apply N1. eapply built_keys; [exact Hb|]. apply dget_keys; congruence. }
      cbn [filter fst snd]. unfold chain_mem at 1. rewrite Gn. cbn [andb]. apply IH; auto.
      + intros a b Hab. apply (Hp a b). cbn; auto.
      + intros a b Hab. apply (Hg a b). cbn; auto. }
  apply (G _ _ l Hb Hp Hn). intros n f _. unfold chain_get; cbn. destruct (dget n l); reflexivity.
Qed.

Lemma steady_tidy E : steady_env E -> tidy_env E.
Proof. intros []; constructor; auto. Qed.

Section ModelNew.
  Context (E : env) (HT : tidy_env E) (fc : fspec -> pyval -> ictx -> res pyval) (pre : fspec -> pyval -> res pyval).
  Context (x : ictx) (Hx : plain_ctx x).
  Context (c : cid).
  Let fs := fields_of E c.
  Let vfs := mc_validators (e_class E c).
  Let mut0 := VModel c md_empty.

  Lemma empty_items : py_dict E mut0 = Ok [].
  Proof.
    unfold mut0. rewrite model_items_dict; [|apply (ti_nodup E HT)|apply (ti_plain E HT)|intros n; discriminate].
    f_equal. unfold model_items, model_iter.
    replace (filter _ _) with (@nil (key * field)); [reflexivity|].
    symmetry. induction (mc_fields (e_class E c)); cbn; auto.
  Qed.

  (** The loop on a dictionary, for an empty instance. *)
  Lemma empty_loop a d : (a = NoAlias \/ (a = AliasConverted /\ d = [])) ->
    lo_mut (import_loop E fc pre x fs mut0 a (VDict d)) = mut0 /\
    (forall data, lo_res (import_loop E fc pre x fs mut0 a (VDict d)) = Ok data -> built fc x fs data) /\
    (forall p, lo_res (import_loop E fc pre x fs mut0 a (VDict d)) <> Raise (XData [] p)).
  Proof.
    intros Ha. assert (Hns : no_setters fs) by (apply plain_no_setters, (ti_plain E HT)).
    assert (M : (if cx_validate x then mutate E fc pre x a fs mut0 (VDict d) else (mut0, VDict d, Ok [])) = (mut0, VDict d, Ok [])).
    { destruct (cx_validate x); [|reflexivity]. unfold mutate. rewrite mutate_fields_none by assumption.
      rewrite empty_items. cbn [dupdate fold_left]. destruct Ha as [->|[-> ->]]; reflexivity. }
    destruct Hx as (Ht & Hm & _). unfold import_loop. rewrite Ht. cbn [truthy nonempty is_none negb andb]. rewrite M.
    split; [reflexivity|]. cbn [lo_res rbind]. rewrite rogues_dict. cbn [rbind].
    set (e1 := if cx_strict x then _ else _).
    destruct (import_fields E fc x true (VDict d) fs ([], e1)) as [[data1 errs]|] eqn:I; cbn [rbind].
    2:{ split; [discriminate|]. intros p [= ->]. apply import_fields_raise in I. discriminate. }
    split; [|destruct errs; discriminate]. intros data.
    destruct errs; [|discriminate]. intros K.
    assert (data = data1) as ->.
    { destruct (cx_validate x); [congruence|]. rewrite copy_settable_none in K by assumption. congruence. }
    pose proof (import_fields_nonempty_errs fc x E _ _ _ _ _ I eq_refl) as Z. cbn in Z. rewrite Z in I.
    apply import_fields_built in I as (l & -> & Hb); auto.
    apply (ti_nodup E HT).
  Qed.

  Lemma model_new_ok v w : model_new E fc pre c v x = Ok w ->
    exists data, w = VModel c (MD [] data [] None) /\ built fc x fs data /\
      (cx_validate x = true -> validate_model vfs mut0 fs data = Ok (data, [])).
  Proof.
    unfold model_new. destruct (if truthy v then py_dict E v else Ok []) as [d|] eqn:D; cbn [rbind]; [|discriminate].
    set (a := if truthy v then NoAlias else AliasConverted).
    assert (Ha : a = NoAlias \/ (a = AliasConverted /\ d = [])).
    { unfold a. destruct (truthy v); [auto|]. injection D as <-. auto. }
    destruct (empty_loop a d Ha) as (L1 & L2 & L3).
    change (mc_fields (e_class E c)) with fs. fold mut0.
    destruct (cx_validate x) eqn:V.
    - unfold validate_fn. change (mc_fields (e_class E c)) with fs. cbn [lo_res lo_mut]. rewrite L1. fold vfs.
      destruct (lo_res (import_loop E fc pre x fs mut0 a (VDict d))) as [data|e] eqn:R.
      + destruct (validate_model vfs mut0 fs data) as [[d' e']|] eqn:VM; cbn [rbind]; [|discriminate].
        destruct (dupdate [] e') eqn:U; cbn [rbind]; [|discriminate]. intros [= <-].
        apply dupdate_nil_keys in U as [_ ->].
        pose proof (validate_model_clean vfs mut0 data (ti_readonly E HT c) fs d' (ti_nodup E HT c) VM) as ->.
        exists data. repeat split; auto.
      + destruct e; try discriminate.
        destruct (validate_model vfs mut0 fs partial) as [[d' e']|] eqn:VM; cbn [rbind]; [|discriminate].
        destruct (dupdate errs e') eqn:U; cbn [rbind]; [|discriminate].
        apply dupdate_nil_keys in U as [-> _].
        exfalso. eapply L3; reflexivity.
    - rewrite L1. destruct (lo_res (import_loop E fc pre x fs mut0 a (VDict d))) as [data|e] eqn:R; cbn [rbind]; [|discriminate].
      intros [= <-]. exists data. repeat split; auto. discriminate.
  Qed.

  Hypothesis HE : steady_env E.
  Hypothesis Hnil : forall n f, In (n, f) fs -> forall v w, fc (fd_spec f) v x = Ok w -> is_nil w = true -> w = v.
  Hypothesis Hidem : forall n f, In (n, f) fs -> forall v w, fc (fd_spec f) v x = Ok w -> fc (fd_spec f) w x = Ok w.

  Lemma own_names_supplied data n f : (forall y, In y (dkeys data) -> In y (dkeys fs)) -> In (n, f) fs ->
    dget n data = None -> supplied data n (fd_spec f) no_mapping = None.
  Proof.
    intros Hk Hi G. unfold supplied. destruct (find _ _) as [y|] eqn:F; [|reflexivity].
    apply find_some in F as [F1 F2]. apply dmem_In in F2.
    assert (y = n) as ->; [|exact G].
    pose proof (Hk y F2) as K. unfold dkeys in K. apply in_map_iff in K as ([n' f'] & <- & K).
    eapply (st_names E HE c); eassumption.
  Qed.

  Lemma no_rogues data : (forall y, In y (dkeys data) -> In y (dkeys fs)) -> errs_before x fs data [] = [].
  Proof.
    intros Hk. destruct (errs_before x fs data []) as [|[y nd] l] eqn:Q; [reflexivity|].
    exfalso. assert (K : In y (dkeys (errs_before x fs data []))) by (rewrite Q; cbn; auto).
    apply rerrs_In in K as (_ & K1 & K2).
    apply K2. apply Hk in K1. unfold dkeys in K1. apply in_map_iff in K1 as ([n f] & <- & K1). eapply acc_name; exact K1.
  Qed.

  Lemma loop_again a data : (a = NoAlias \/ (a = AliasConverted /\ data = [])) -> built fc x fs data ->
    lo_res (import_loop E fc pre x fs mut0 a (VDict data)) = Ok data.
  Proof.
    intros Ha Hb. assert (Hns : no_setters fs) by (apply plain_no_setters, (st_plain E HE)).
    assert (Hk := built_keys _ _ _ _ Hb).
    erewrite (result_eq E fc pre x fs mut0 a data data []).
    - rewrite active_no_setters by assumption. rewrite no_rogues by assumption.
      rewrite (rebuild fc x Hx E fs data data Hb (st_nodup E HE c) Hnil Hidem) with (data := []).
      + cbn. destruct (cx_validate x); [reflexivity|]. now rewrite copy_settable_none.
      + reflexivity.
      + intros n f Hi G. now apply own_names_supplied.
      + intros n _ [].
    - destruct (cx_validate x) eqn:V.
      + change (effective_input E x fs mut0 data (dupdate data [])). apply eff_validate; [exact V|assumption|apply empty_items].
      + now apply eff_convert.
    - eapply built_defined; exact Hb.
    - apply (st_nodup E HE).
    - unfold trusted_dict. destruct Hx as (-> & _). reflexivity.
  Qed.

  Lemma model_new_idem v w : model_new E fc pre c v x = Ok w -> model_new E fc pre c w x = Ok w.
  Proof.
    intros H. apply model_new_ok in H as (data & -> & Hb & Hv). unfold model_new.
    assert (D : (if truthy (VModel c (MD [] data [] None)) then py_dict E (VModel c (MD [] data [] None)) else Ok []) = Ok data).
    { destruct (truthy (VModel c (MD [] data [] None))) eqn:T.
      - rewrite model_items_dict.
        + f_equal. eapply built_items; [apply (st_plain E HE)|apply (st_nodup E HE)|exact Hb].
        + apply (st_nodup E HE).
        + apply (st_plain E HE).
        + intros n. unfold chain_get; cbn. destruct (dget n data) eqn:G; [|discriminate].
          intros [= ->]. eapply built_defined; eassumption.
      - destruct data; [reflexivity|discriminate]. }
    rewrite D. cbn [rbind].
    set (a := if truthy (VModel c (MD [] data [] None)) then NoAlias else AliasConverted).
    assert (Ha : a = NoAlias \/ (a = AliasConverted /\ data = [])).
    { unfold a. destruct data; cbn; auto. }
    pose proof (loop_again a data Ha Hb) as L. destruct (empty_loop a data Ha) as (L1 & _).
    change (mc_fields (e_class E c)) with fs. fold mut0.
    destruct (cx_validate x).
    - unfold validate_fn. change (mc_fields (e_class E c)) with fs. cbn [lo_res lo_mut]. rewrite L1, L. fold vfs.
      rewrite Hv by reflexivity. reflexivity.
    - rewrite L, L1. reflexivity.
  Qed.
End ModelNew.

(** ** All types *)
Section Types.
  Context (E : env) (HE : steady_env E) (x : ictx) (Hx : plain_ctx x).

  Definition idem_at (j : nat) : Prop := forall f, steady E f ->
    (forall v w, cv_field (conv_at E j) f v x = Ok w ->
       cv_field (conv_at E j) f w x = Ok w /\ (is_nil w = true -> w = v)) /\
    (forall v w, is_nil v = false -> cv_convert (conv_at E j) f v x = Ok w ->
       is_nil w = false /\ cv_convert (conv_at E j) f w x = Ok w) /\
    (forall v w, is_nil v = false -> cv_validate (conv_at E j) f v x = Ok w ->
       is_nil w = false /\ cv_validate (conv_at E j) f w x = Ok w).

  Lemma model_new_nonnil c fc pre v w : model_new E fc pre c v x = Ok w -> exists m, w = VModel c m.
  Proof. intros H. apply model_new_ok in H; [|now apply steady_tidy|exact Hx]. destruct H as (data & -> & _); eauto. Qed.

  Lemma all_convert_again fc g l ws : (forall v w, fc g v x = Ok w -> fc g w x = Ok w) ->
    all_convert fc g x l ws -> all_convert fc g x ws ws.
  Proof. intros Hi; induction 1; constructor; eauto. Qed.

  Lemma entries_again fc g ck d ps : (forall v w, fc g v x = Ok w -> fc g w x = Ok w) ->
    (forall y y', ck y = Ok y' -> ck y' = Ok y') ->
    Forall2 (entry_converts fc g ck x) d ps ->
    forall p, In p ps -> entry_converts fc g ck x p p.
  Proof.
    intros Hi Hk; induction 1 as [|p q d ps [H1 H2] _ IH]; [intros ? []|].
    intros p' [<-|Hp]; [split; eauto|auto].
  Qed.
  Lemma Forall2_self {A} (R : A -> A -> Prop) l : (forall p, In p l -> R p p) -> Forall2 R l l.
  Proof. induction l; constructor; [apply H; cbn; auto|]. apply IHl. intros; apply H; cbn; auto. Qed.
  Lemma dupdate_In (d e : list (key * pyval)) p : NoDup (dkeys d) -> In p (dupdate d e) -> In p d \/ In p e.
  Proof.
    revert d; induction e as [|[y v] e IH]; intros d Hn; cbn; [auto|].
    intros H. apply (IH (dset y v d) (NoDup_dset _ _ _ Hn)) in H as [H|H]; [|auto].
    destruct p as [z w]. apply In_dget in H; [|now apply NoDup_dset].
    rewrite dget_dset in H. destruct (key_eqb_spec z y) as [->|_]; [injection H as ->; auto|].
    apply dget_In in H; auto.
  Qed.

  Lemma idem_step j : idem_at j -> idem_at (S j).
  Proof.
    intros IH f Hf.
    assert (HC : forall v w, is_nil v = false -> convert_step E (conv_at E j) f v x = Ok w ->
       is_nil w = false /\ convert_step E (conv_at E j) f w x = Ok w).
    { intros v w Nv. unfold convert_step. destruct f as [o [l|ms|c|p|g|g ck]]; cbn [fs_type steady steady_type] in *.
      - intros H. exact (Hf v w Nv H).
      - destruct (union_resolve _ ms v) as [[m w']|] eqn:U; cbn [rbind]; [|discriminate]. intros [= <-].
        destruct Hf as [Hf _]. apply Hf in U as [U1 U2]; [|exact Hx|exact Nv]. now rewrite U2.
      - destruct Hx as (_ & _ & Hc & Ho). unfold model_convert. rewrite Hc, Ho. cbn [andb].
        assert (M : forall c' v', model_new E (cv_field (conv_at E j)) (cv_pre (conv_at E j)) c' v' x = Ok w ->
           exists m, w = VModel c' m /\ model_new E (cv_field (conv_at E j)) (cv_pre (conv_at E j)) c' w x = Ok w).
        { intros c' v' H. destruct (model_new_nonnil _ _ _ _ _ H) as [m ->]. exists m. split; [reflexivity|].
          eapply model_new_idem; try eassumption; try (now apply steady_tidy).
          - intros n f Hi v0 w0 H0. apply IH in H0; [apply H0|]. eapply st_fields; eassumption.
          - intros n f Hi v0 w0 H0. apply IH in H0; [apply H0|]. eapply st_fields; eassumption. }
        destruct v; try discriminate.
        + intros H. apply M in H as (m & -> & H). rewrite (st_refl E HE). auto.
        + destruct (e_issub E c0 c) eqn:I; [|discriminate]. intros H. apply M in H as (m' & -> & H). rewrite I. auto.
      - unfold poly_convert.
        replace (is_none v) with false by (unfold is_nil in Nv; destruct v; cbn in *; congruence).
        destruct (negb (cx_validate x) && poly_allowed E p v) eqn:A.
        { intros [= <-]. split; [exact Nv|]. rewrite A. destruct v; reflexivity || discriminate. }
        destruct (negb (cx_validate x) && negb _) eqn:B; [discriminate|].
        destruct (find_model E p v) as [c|] eqn:F; cbn [rbind]; [|discriminate]. intros H.
        destruct (model_new_nonnil _ _ _ _ _ H) as [m ->]. split; [reflexivity|].
        destruct (Hf _ _ F m) as [F1 F2]. rewrite F2. cbn [is_none].
        destruct (cx_validate x); cbn [negb andb]; [|reflexivity].
        rewrite F1. cbn [rbind]. eapply model_new_idem; try eassumption; try (now apply steady_tidy).
        + intros n f Hi v0 w0 H0. apply IH in H0; [apply H0|]. eapply st_fields; eassumption.
        + intros n f Hi v0 w0 H0. apply IH in H0; [apply H0|]. eapply st_fields; eassumption.
      - intros H. apply list_convert_ok in H as (l & ws & _ & -> & H). split; [reflexivity|].
        apply list_convert_ok. exists ws, ws. repeat split. eapply all_convert_again; [|exact H].
        intros v0 w0 H0. apply IH in H0; [apply H0|exact Hf].
      - destruct Hf as [Hf Hk]. intros H. apply dict_convert_ok in H as (d & ps & _ & -> & H). split; [reflexivity|].
        apply dict_convert_ok. exists (dupdate [] ps), (dupdate [] ps). split; [reflexivity|].
        assert (N : NoDup (dkeys (dupdate [] ps))) by (apply NoDup_dupdate; constructor).
        split; [now rewrite (dupdate_nil_l (dupdate [] ps)) by exact N|]. apply Forall2_self.
        intros p Hp. apply dupdate_In in Hp as [[]|Hp]; [|constructor].
        eapply entries_again; try eassumption.
        intros v0 w0 H0. apply IH in H0; [apply H0|exact Hf]. }
    assert (HCj : forall v w, is_nil v = false -> cv_convert (conv_at E j) f v x = Ok w ->
       is_nil w = false /\ cv_convert (conv_at E j) f w x = Ok w) by apply (IH f Hf).
    assert (HV : forall v w, is_nil v = false -> validate_step (conv_at E j) f v x = Ok w ->
       is_nil w = false /\ validate_step (conv_at E j) f w x = Ok w).
    { intros v w Nv. unfold validate_step. destruct Hx as (_ & _ & Hc & _). rewrite Hc.
      assert (G : rbind (cv_convert (conv_at E j) f v x) (validators_result (fo_validators (fs_opts f))) = Ok w ->
        is_nil w = false /\ rbind (cv_convert (conv_at E j) f w x) (validators_result (fo_validators (fs_opts f))) = Ok w).
      { destruct (cv_convert (conv_at E j) f v x) as [w'|] eqn:C; cbn [rbind]; [|discriminate]. intros R.
        pose proof R as R'. apply validators_success in R' as [-> _].
        apply HCj in C as [C1 C2]; [|exact Nv]. rewrite C2. auto. }
      destruct f as [o t]; cbn [fs_type fs_opts] in *. destruct t as [l|ms|c|p|g|g ck]; try exact G.
      destruct (union_resolve _ ms v) as [[m w']|] eqn:U; cbn [rbind]; [|discriminate]. intros H.
      destruct Hf as [Hu Hm]. pose proof U as U'. apply union_In in U' as [Um Uc].
      assert (w' = w) as -> by (apply validate_is_convert in H; [congruence|apply Hx]).
      apply Hu in U as [U1 U2]; [|exact Hx|exact Nv]. split; [exact U1|]. rewrite U2. cbn [rbind].
      assert (Sm : steady E m).
      { clear - Um Hm. induction ms as [|m0 ms IHm]; [destruct Um|]. destruct Hm as [H1 H2]. destruct Um as [->|Um]; auto. }
      apply (IH m Sm) in H; [apply H|exact Nv]. }
    split; [|split; [exact HC|exact HV]].
    intros v w. cbn [conv_at conv_step cv_field]. unfold field_step.
    destruct (check_required f v x) eqn:Q; [discriminate|].
    destruct (is_nil v) eqn:Nv.
    { intros [= <-]. rewrite Q, Nv. auto. }
    intros H.
    assert (is_nil w = false /\ (if cx_validate x then cv_validate (conv_at E j) f w x else cv_convert (conv_at E j) f w x) = Ok w) as [N1 N2].
    { destruct (cx_validate x); apply (IH f Hf) in H; auto. }
    split; [|congruence].
    replace (check_required f w x) with (@None exn); [now rewrite N1, N2|].
    unfold check_required. rewrite N1, andb_false_r. reflexivity.
  Qed.

  Lemma idem_all j : idem_at j.
  Proof.
    induction j; [|now apply idem_step]. intros f _. repeat split; intros; discriminate.
  Qed.
End Types.

(** ** validate() twice *)
Lemma data_validators_mut vfs mut1 mut2 fs data : data_validators vfs ->
  validate_model vfs mut1 fs data = validate_model vfs mut2 fs data.
Proof.
  intros H. unfold validate_model.
  replace (validate_model_loop vfs mut1 fs data [] []) with (validate_model_loop vfs mut2 fs data [] []); [reflexivity|].
  generalize (@nil (key * errnode)) as errs, (@nil key) as bad. revert data.
  induction fs as [|[n f] fs IH]; intros data errs bad; cbn; [reflexivity|].
  destruct (dget n data) as [v|]; [|apply IH]. destruct (dget n vfs) as [vf|] eqn:G; [|apply IH].
  destruct (is_undef v); [apply IH|]. apply dget_In in G. rewrite (H n vf G mut1 mut2 data v).
  destruct (vf mut2 data v) as [data1 oe]. destruct oe as [e|]; [|apply IH]. destruct (mv_caught e); [apply IH|reflexivity].
Qed.

Lemma model_items_ext E c m1 m2 : (forall y, chain_get m1 y = chain_get m2 y) -> model_items E c m1 = model_items E c m2.
Proof.
  intros H. unfold model_items, model_iter.
  rewrite (filter_ext _ (fun p => chain_mem m2 (fst p) && is_none_opt (fd_set (snd p)))).
  - apply map_ext. intros y. now rewrite H.
  - intros [n f]. unfold chain_mem. cbn. now rewrite H.
Qed.

Section Twice.
  Context (E : env) (HT : tidy_env E) (j : nat) (c : cid) (w : kwargs).
  Hypothesis Hmap : kw_mapping w = no_mapping.
  Hypothesis Hconv : kw_convert w = true.
  Let r := conv_at E j.
  Let fs := fields_of E c.

  Lemma vctx_same m m' : vctx m w = vctx m' w.
  Proof. unfold vctx, vkw. rewrite Hconv. reflexivity. Qed.
  Lemma vctx_plain m : plain_ctx (vctx m w).
  Proof. unfold plain_ctx, vctx, vkw. cbn. rewrite Hmap, Hconv. auto. Qed.

  Lemma loop_built m data : defined_layers m -> NoDup (dkeys (md_converted m)) ->
    lo_res (import_loop E (cv_field r) (cv_pre r) (vctx m w) fs (VModel c (vbase m))
       (match md_unsafe m with [] => AliasConverted | _ => NoAlias end)
       (VDict (dupdate (md_unsafe m) (md_converted m)))) = Ok data ->
    built (cv_field r) (vctx m w) fs data.
  Proof.
    intros Hd Hk. pose proof (ti_nodup E HT c) as Hnd. pose proof (ti_plain E HT c) as Hp.
    pose proof (vdef E c m Hnd Hp Hd Hk) as Hdd.
    rewrite (result_eq E _ _ _ _ _ _ _ (vinput E c m) [] (veff E c m w Hnd Hp Hd) Hdd Hnd (vtd E m w)).
    rewrite <- (import_fields_outcomes E _ _ _ [] fs [] _ Hdd Hnd) by reflexivity.
    unfold finish_import.
    destruct (import_fields _ _ _ _ _ _ _) as [[data1 errs]|] eqn:I; cbn [rbind]; [|discriminate].
    destruct errs; [|discriminate]. cbn [cx_validate vctx kw_ctx kw_validate vkw]. intros [= <-].
    pose proof (import_fields_nonempty_errs _ _ _ _ _ _ _ _ I eq_refl) as Z. cbn [snd] in Z. rewrite Z in I.
    apply import_fields_built in I as (l & -> & Hb); auto.
    - apply vctx_plain.
    - now apply plain_no_setters.
  Qed.

  Hypothesis HE : steady_env E.
  Hypothesis Hdv : data_validators (mc_validators (e_class E c)).
  Lemma validate_idem m m' : defined_layers m -> NoDup (dkeys (md_converted m)) ->
    model_validate E r c m w = (m', None) -> model_validate E r c m' w = (m', None).
  Proof.
    intros Hd Hk H. pose proof (st_nodup E HE c) as Hnd. pose proof (st_plain E HE c) as Hp.
    pose proof (st_readonly E HE c) as Hro.
    assert (Dec : (md_converted m = [] /\ kw_partial w = true) \/ (md_converted m <> [] \/ kw_partial w = false)).
    { destruct (kw_partial w); auto. destruct (md_converted m); [auto|]. right; left; discriminate. }
    destruct Dec as [[D1 D2]|Hr].
    { revert H. unfold model_validate at 1. rewrite D1, D2. intros [= <-]. unfold model_validate. now rewrite D1, D2. }
    pose proof H as H0. rewrite (validate_eq E r c m w Hnd Hp Hd Hk Hr) in H0.
    destruct (vres E r c m w) as [data|e] eqn:V; [|destruct e; discriminate]. injection H0 as <-.
    pose proof (vres_ok E r c m w Hnd Hp Hd Hk Hro data V) as [L _].
    pose proof (loop_built m data Hd Hk L) as Hb.
    destruct (kw_partial w) eqn:Pw; [unfold model_validate; cbn; now rewrite Pw|].
    set (m2 := MD [] [] data (hidden_after m)).
    assert (Hdata : defined_dict data) by (eapply built_defined; exact Hb).
    assert (Hd2 : defined_layers m2).
    { split; [intros y; discriminate|split; [intros y; discriminate|exact Hdata]]. }
    assert (Hk2 : NoDup (dkeys (md_converted m2))) by constructor.
    rewrite (validate_eq E r c m2 w Hnd Hp Hd2 Hk2 (or_intror Pw)).
    assert (Hi2 : vinput E c m2 = data).
    { unfold vinput. cbn [md_unsafe md_converted m2]. change (dupdate [] []) with (@nil (key * pyval)).
      replace (model_items E c (vbase m2)) with (model_items E c (MD [] data [] (hidden_after m))).
      - rewrite (built_items _ _ E c data _ Hp Hnd Hb). apply dupdate_nil_l. eapply built_NoDup; eassumption.
      - apply model_items_ext. intros y. unfold chain_get; cbn. now destruct (dget y data). }
    assert (L2 : lo_res (import_loop E (cv_field r) (cv_pre r) (vctx m2 w) fs (VModel c (vbase m2)) AliasConverted (VDict (dupdate [] []))) = Ok data).
    { rewrite (result_eq E _ _ _ _ _ _ _ (vinput E c m2) [] (veff E c m2 w Hnd Hp Hd2) (vdef E c m2 Hnd Hp Hd2 Hk2) Hnd (vtd E m2 w)).
      rewrite Hi2. rewrite active_no_setters by (now apply plain_no_setters).
      rewrite (no_rogues E _ c data) by (eapply built_keys; exact Hb).
      rewrite (vctx_same m2 m). change (fields_of E c) with fs.
      rewrite (rebuild (cv_field r) (vctx m w) (vctx_plain m) E fs data data Hb Hnd) with (data := []).
      - reflexivity.
      - intros n f Hi v0 w0 Hf. apply (idem_all E HE _ (vctx_plain m) j) in Hf; [apply Hf|]. eapply st_fields; eassumption.
      - intros n f Hi v0 w0 Hf. apply (idem_all E HE _ (vctx_plain m) j) in Hf; [apply Hf|]. eapply st_fields; eassumption.
      - reflexivity.
      - intros n f Hi G. apply (own_names_supplied E c HE); auto. eapply built_keys; exact Hb.
      - intros n _ []. }
    assert (V2 : vres E r c m2 w = Ok data).
    { revert V. unfold vres. cbn [md_unsafe md_converted m2]. fold fs.
      replace (vctx m2 w) with (vctx m w) in L2 by apply vctx_same.
      replace (vctx m2 w) with (vctx m w) by apply vctx_same. fold m2.
      change (fields_of E c) with fs in L. rewrite L2. rewrite L. unfold vfinish.
      rewrite (data_validators_mut _ (vmut E c m) (vmut E c m2)) by exact Hdv. auto. }
    rewrite V2. unfold m2, hidden_after. cbn. destruct (md_hidden m); reflexivity.
  Qed.
End Twice.
