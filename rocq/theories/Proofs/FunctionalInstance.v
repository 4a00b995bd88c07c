(** Instances given to the functional interface. *)
From Verif.Model Require Import Py Core Export Api Functional.
From Verif.Spec Require Import ImportSpec FunctionalSpec.
From Verif.Proofs Require Import DictLemmas.

Section Reading.
  Context (E : env) (c : cid) (m : mdata pyval) (items : list (key * pyval)).
  Context (Hn : NoDup (dkeys (mc_fields (e_class E c)))) (Hp : plain_fields (mc_fields (e_class E c))).
  Context (Hd : py_dict E (VModel c m) = Ok items).

  Lemma items_of ks l : py_items E (VModel c m) ks = Ok l ->
    dkeys l = ks /\ forall x, In x ks -> exists v, dget x l = Some v /\ model_getitem E c m x = Ok v.
  Proof using Type.
    revert l. induction ks as [|y ks IH]; intros l H.
    - injection H as <-. split; [reflexivity|intros x []].
    - cbn [py_items] in H. unfold rbind in H. cbn [py_getitem] in H.
      destruct (model_getitem E c m y) as [w|e] eqn:G; [|discriminate].
      destruct (py_items E (VModel c m) ks) as [l1|e] eqn:L; [|discriminate]. injection H as <-.
      destruct (IH l1 eq_refl) as [K1 K2]. split; [cbn; now rewrite <- K1|].
      intros x Hx. cbn [dget]. destruct (key_eqb x y) eqn:Q.
      + apply key_eqb_eq in Q. subst y. now exists w.
      + destruct Hx as [->|Hx]; [now rewrite key_eqb_refl in Q|]. apply K2, Hx.
  Qed.

  Lemma instance_keys : dkeys items = model_iter E c m.
  Proof using Hd. cbn in Hd. now apply items_of in Hd. Qed.

  Lemma instance_get x :
    match dget x items with
    | Some v => model_getitem E c m x = Ok v
    | None => exists e, model_getitem E c m x = Raise e
    end.
  Proof using Hd Hn Hp.
    destruct (items_of _ _ Hd) as [K1 K2]. destruct (dget x items) as [v|] eqn:G.
    - assert (Hx : In x (model_iter E c m)).
      { rewrite <- K1. apply dget_In in G. apply in_map_iff. now exists (x, v). }
      destruct (K2 x Hx) as (w & G1 & G2). rewrite G in G1. now injection G1 as ->.
    - unfold model_getitem. destruct (dget x (mc_fields (e_class E c))) as [f|] eqn:F; [|now eexists].
      apply dget_In in F. destruct (Hp x f F) as [Hg Hs]. unfold field_get. rewrite Hg.
      destruct (chain_get m x) as [v|] eqn:V; [|now eexists]. exfalso.
      assert (Hx : In x (model_iter E c m)).
      { unfold model_iter. apply in_map_iff. exists (x, f). split; [reflexivity|]. apply filter_In. split; [exact F|].
        cbn [fst snd]. unfold chain_mem. rewrite V, Hs. reflexivity. }
      destruct (K2 x Hx) as (w & G1 & _). congruence.
  Qed.

  Lemma instance_atom x : atom_value E (VModel c m) x = atom_value E (VDict items) x.
  Proof using Hd Hn Hp.
    unfold atom_value. cbn [py_getitem]. pose proof (instance_get x) as H.
    destruct (dget x items) as [v|]; [now rewrite H|]. destruct H as [e ->]. reflexivity.
  Qed.

  Lemma instance_contains x : py_contains E (VModel c m) x = py_contains E (VDict items) x.
  Proof using Hd Hn Hp.
    cbn [py_contains]. unfold model_contains, dmem. pose proof (instance_get x) as H.
    assert (P : match dget x (mc_fields (e_class E c)) with Some f => negb (is_none_opt (fd_get f)) | None => false end = false).
    { destruct (dget x (mc_fields (e_class E c))) as [f|] eqn:F; [|reflexivity]. apply dget_In in F.
      destruct (Hp x f F) as [-> _]. reflexivity. }
    rewrite P, orb_false_r. destruct (dget x items) as [v|].
    - rewrite H, andb_true_r. unfold model_getitem in H. unfold chain_mem.
      destruct (dget x (mc_fields (e_class E c))) as [f|] eqn:F; [|discriminate]. apply dget_In in F.
      destruct (Hp x f F) as [Hg _]. unfold field_get in H. rewrite Hg in H.
      destruct (chain_get m x); [reflexivity|discriminate].
    - destruct H as [e ->]. now rewrite andb_false_r.
  Qed.

  Lemma instance_alt n ks : find_alt E (VModel c m) n ks = find_alt E (VDict items) n ks.
  Proof using Hd Hn Hp.
    induction ks as [|x ks IH]; cbn [find_alt]; [reflexivity|]. rewrite instance_contains, IH.
    destruct (key_true x && negb (key_eqb x n) && py_contains E (VDict items) x) eqn:Q; [|reflexivity].
    apply andb_true_iff in Q. destruct Q as [_ Q]. cbn [py_contains] in Q. unfold dmem in Q. cbn [py_getitem].
    pose proof (instance_get x) as H. destruct (dget x items); [exact H|discriminate].
  Qed.

  Lemma instance_fields fc x got fs s : import_fields E fc x got (VModel c m) fs s = import_fields E fc x got (VDict items) fs s.
  Proof using Hd Hn Hp.
    revert s. induction fs as [|[n f] fs IH]; intros s; cbn [import_fields]; [reflexivity|].
    rewrite IH. destruct (negb (cx_validate x) && has_setter f); [reflexivity|].
    assert (F : import_field E fc x got (VModel c m) n f s = import_field E fc x got (VDict items) n f s).
    { unfold import_field. now rewrite instance_atom, instance_alt. }
    rewrite F. destruct (import_field E fc x got (VDict items) n f s) as [s1|e]; cbn [rbind]; [apply IH|reflexivity].
  Qed.

  Lemma instance_copy fs data : copy_settable E (VModel c m) fs data = copy_settable E (VDict items) fs data.
  Proof using Hd Hn Hp.
    revert data. induction fs as [|[n f] fs IH]; intros data; cbn [copy_settable]; [reflexivity|].
    now rewrite IH, instance_atom.
  Qed.

  Lemma instance_loop fc pre x fs mut mut2 a a2 : cx_validate x = false ->
    lo_res (import_loop E fc pre x fs mut a (VModel c m)) = lo_res (import_loop E fc pre x fs mut2 a2 (VDict items)).
  Proof using Hd Hn Hp.
    intros V. unfold import_loop. cbn [is_none negb]. rewrite V. cbn [andb].
    destruct (if truthy (cx_trusted x) then py_dict E (cx_trusted x) else Ok []) as [d0|e]; [|reflexivity].
    cbn [lo_res rbind].
    assert (R : rogues E x fs (VModel c m) [] = rogues E x fs (VDict items) []).
    { unfold rogues. cbn [py_keys]. now rewrite instance_keys. }
    rewrite R. destruct (rogues E x fs (VDict items) []) as [errs|e]; [|reflexivity]. cbn [rbind].
    rewrite instance_fields. destruct (import_fields E fc x true (VDict items) fs (d0, errs)) as [[data errors]|e]; [|reflexivity].
    cbn [rbind]. now rewrite instance_copy.
  Qed.
End Reading.

Lemma fn_convert_instance E r c c' m items td w :
  NoDup (dkeys (mc_fields (e_class E c'))) -> plain_fields (mc_fields (e_class E c')) ->
  py_dict E (VModel c' m) = Ok items ->
  lo_res (fn_convert E r c (VModel c' m) VNone td w) = lo_res (fn_convert E r c (VDict items) VNone td w).
Proof. intros Hn Hp Hd. unfold fn_convert, fn_raw. cbn [is_none]. now apply instance_loop. Qed.

Lemma mutate_none E fc pre x a fs mut raw errs :
  (forall n f, In (n, f) fs -> fd_set f = None) -> mutate_fields E fc pre x a fs mut raw errs = (mut, raw, Ok errs).
Proof.
  intros H. induction fs as [|[n f] fs IH]; cbn [mutate_fields]; [reflexivity|].
  rewrite (H n f) by now left. apply IH. intros n' f' H'. apply (H n' f'). now right.
Qed.

Lemma fn_validate_instance E r c c' m td w : (forall n f, In (n, f) (mc_fields (e_class E c)) -> fd_set f = None) ->
  (forall e, (if truthy td then py_dict E td else Ok []) <> Raise e) ->
  lo_res (fn_validate E r c (VModel c' m) VNone td w) = Raise (XPy EAttributeError).
Proof.
  intros Hs Ht. unfold fn_validate, fn_raw. cbn [is_none]. unfold validate_fn, import_loop. cbn [is_none negb andb].
  assert (T : (if truthy (cx_trusted (fn_ctx true w td)) then py_dict E (cx_trusted (fn_ctx true w td)) else Ok [])
              = if truthy td then py_dict E td else Ok []).
  { cbn [cx_trusted fn_ctx]. destruct (truthy td) eqn:Q; [now rewrite Q|reflexivity]. }
  rewrite T. destruct (if truthy td then py_dict E td else Ok []) as [d|e] eqn:Q; [|now destruct (Ht e)].
  cbn [cx_validate fn_ctx]. unfold mutate. rewrite mutate_none by exact Hs. reflexivity.
Qed.
