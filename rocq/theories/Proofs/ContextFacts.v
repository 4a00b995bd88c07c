(** Contexts. *)
From Verif.Model Require Import Py Core Context.
From Verif.Spec Require Import ContextSpec.
From Verif.Proofs Require Import DictLemmas.

Section Facts.
  Context {A : Type} (is_None : A -> bool) (differs : A -> A -> bool).
  Notation ctx := (list (key * A)).

  Notation changes := (changes is_None differs).
  Notation known := (known is_None).

  Lemma branch_items_ok d kw : known d kw -> NoDup (dkeys kw) ->
    exists items, branch_items is_None differs d kw = Ok items /\ NoDup (dkeys items) /\
      (forall x, In x (dkeys items) -> In x (dkeys kw)) /\
      forall x v, dget x items = Some v <-> changes d kw x v.
  Proof.
    induction kw as [|[y u] r IH]; intros Hk Hn.
    - exists []; repeat split; try constructor; try discriminate; try tauto. intros [H _]; discriminate H.
    - cbn in Hn. apply NoDup_cons_iff in Hn as [Hy Hn].
      destruct IH as [items [E [Hni [Hin Hit]]]]; [intros x v Hx; apply Hk; now right|exact Hn|].
      assert (Hy' : ~ In y (dkeys items)) by (intros C; now apply Hy, Hin).
      cbn [branch_items]. destruct (is_None u) eqn:Nu.
      + exists items. split; [exact E|split; [exact Hni|split; [intros x Hx; right; now apply Hin|]]].
        intros x v. rewrite Hit. unfold ContextSpec.changes. cbn [dget].
        destruct (key_eqb_spec x y) as [->|Hx]; [|reflexivity]. split.
        * intros [H _]. exfalso. apply Hy. apply dget_keys. congruence.
        * intros [H [H' _]]. congruence.
      + destruct (dget y d) as [w|] eqn:Gd; [|exfalso; now apply (Hk y u (or_introl eq_refl) Nu)].
        unfold context_getitem. rewrite Gd. cbn [rbind]. rewrite E. cbn [rbind].
        destruct (differs u w) eqn:Du.
        * eexists; split; [reflexivity|]. split; [cbn; now constructor|].
          split; [intros x [<-|Hx]; [now left|right; now apply Hin]|].
          intros x v. cbn [dget]. unfold ContextSpec.changes. cbn [dget]. destruct (key_eqb_spec x y) as [->|Hx].
          -- split; [intros [= <-]; eauto|]. intros [H _]; exact H.
          -- rewrite Hit. reflexivity.
        * exists items. split; [reflexivity|split; [exact Hni|split; [intros x Hx; right; now apply Hin|]]].
          intros x v. rewrite Hit. unfold ContextSpec.changes. cbn [dget].
          destruct (key_eqb_spec x y) as [->|Hx]; [|reflexivity]. split.
          -- intros [H _]. exfalso. apply Hy. apply dget_keys. congruence.
          -- intros [[= <-] [_ [w' [H H']]]]. congruence.
  Qed.

  Lemma branch_items_unknown d kw : ~ known d kw -> branch_items is_None differs d kw = Raise (XPy EKeyError).
  Proof.
    induction kw as [|[y u] r IH]; intros Hk.
    - exfalso. apply Hk. intros x v [].
    - cbn [branch_items]. destruct (is_None u) eqn:Nu.
      + apply IH. intros Hr. apply Hk. intros x v [[= -> ->]|Hx]; [congruence|now apply Hr].
      + unfold context_getitem. destruct (dget y d) as [w|] eqn:Gd; [|reflexivity]. cbn [rbind].
        rewrite IH; [reflexivity|]. intros Hr. apply Hk. intros x v [[= -> ->]|Hx]; [congruence|now apply Hr].
  Qed.

  Lemma dkeys_dupdate_sub (d e : ctx) : (forall x, In x (dkeys e) -> In x (dkeys d)) -> dkeys (dupdate d e) = dkeys d.
  Proof.
    revert d; induction e as [|[y w] r IH]; intros d H; [reflexivity|].
    change (dupdate d ((y, w) :: r)) with (dupdate (dset y w d) r). rewrite IH.
    - apply dkeys_dset_mem, H. now left.
    - intros x Hx. rewrite dkeys_dset_mem by (apply H; now left). apply H. now right.
  Qed.

  Lemma kmem_iff x l : kmem x l = true <-> In x l.
  Proof.
    unfold kmem. rewrite existsb_exists. split.
    - intros [y [Hy E]]. apply key_eqb_eq in E. now subst.
    - intros H. exists x; split; [exact H|apply key_eqb_refl].
  Qed.

  Lemma init_allowed fields (s kw : ctx) :
    (allowed fields (data_object s kw) -> context_init fields s kw = Ok (data_object s kw)) /\
    (~ allowed fields (data_object s kw) -> context_init fields s kw = Raise (XPy EValueError)).
  Proof.
    unfold context_init, allowed. destruct fields as [|f fs]; [split; [reflexivity|tauto]|].
    destruct (forallb _ _) eqn:F; rewrite ?forallb_forall in F; split; intros H; try reflexivity.
    - exfalso. apply H. right. intros x Hx. now apply kmem_iff, F.
    - destruct H as [H|H]; [discriminate H|]. exfalso.
      assert (C : forallb (fun x => kmem x (f :: fs)) (dkeys (data_object s kw)) = true)
        by (apply forallb_forall; intros x Hx; now apply kmem_iff, H).
      congruence.
  Qed.

  Lemma init_values fields (s kw d : ctx) x : NoDup (dkeys s) -> NoDup (dkeys kw) -> context_init fields s kw = Ok d ->
    dget x d = match dget x kw with Some v => Some v | None => dget x s end.
  Proof.
    intros Hs Hk H. assert (E : d = data_object s kw).
    { unfold context_init in H. destruct fields; [congruence|]. destruct (forallb _ _); congruence. }
    subst. unfold data_object. now rewrite dget_dupdate, dupdate_nil_l by assumption.
  Qed.

  (** *** Branching *)
  Lemma branch_result fields (d kw : ctx) : NoDup (dkeys d) -> NoDup (dkeys kw) -> allowed fields d -> known d kw ->
    exists e same, context_branch is_None differs fields d kw = Ok (e, same) /\ dkeys e = dkeys d /\
      (forall x v, changes d kw x v -> dget x e = Some v) /\
      (forall x, (forall v, ~ changes d kw x v) -> dget x e = dget x d) /\
      (same = true <-> forall x v, ~ changes d kw x v) /\ (same = true -> e = d).
  Proof.
    intros Hd Hn Ha Hk. unfold context_branch. destruct kw as [|p r].
    { exists d, true. assert (N : forall x v, ~ changes d [] x v) by (intros x v [H _]; discriminate H).
      repeat split; auto. intros x v H; now apply N in H. }
    destruct (branch_items_ok d (p :: r) Hk Hn) as [items [E [Hni [Hin Hit]]]].
    rewrite E. cbn [rbind]. destruct items as [|i items].
    { exists d, true. assert (N : forall x v, ~ changes d (p :: r) x v)
        by (intros x v H; apply Hit in H; discriminate H).
      repeat split; auto. intros x v H; now apply N in H. }
    remember (i :: items) as its.
    assert (Hsub : forall x, In x (dkeys its) -> In x (dkeys d)).
    { intros x Hx. apply dget_keys in Hx. destruct (dget x its) as [v|] eqn:G; [|congruence].
      apply Hit in G as [_ [_ [w [G _]]]]. apply dget_keys. congruence. }
    assert (K : dkeys (data_object d its) = dkeys d).
    { unfold data_object. rewrite dupdate_nil_l by assumption. now apply dkeys_dupdate_sub. }
    assert (I : context_init fields d its = Ok (data_object d its)).
    { apply init_allowed. destruct Ha as [->|Ha]; [now left|right]. intros x. rewrite K. apply Ha. }
    rewrite I. cbn [rbind]. exists (data_object d its), false. split; [reflexivity|]. split; [exact K|].
    assert (V : forall x, dget x (data_object d its) = match dget x its with Some v => Some v | None => dget x d end)
      by (intros x; exact (init_values fields d its _ x Hd Hni I)).
    split; [intros x v H; apply Hit in H; now rewrite V, H|].
    split; [|split; [split; [discriminate|]|discriminate]].
    - intros x H. rewrite V. destruct (dget x its) as [v|] eqn:G; [|reflexivity]. apply Hit in G. now apply H in G.
    - intros H. destruct i as [y v]. exfalso. apply (H y v). apply Hit. subst. cbn. now rewrite key_eqb_refl.
  Qed.

  Lemma branch_unknown fields (d kw : ctx) : ~ known d kw -> context_branch is_None differs fields d kw = Raise (XPy EKeyError).
  Proof.
    intros H. unfold context_branch. destruct kw as [|p r].
    - exfalso. apply H. intros x v [].
    - now rewrite branch_items_unknown.
  Qed.

  (** *** Defaults *)
  Lemma setdefaults_get (d s : ctx) x : NoDup (dkeys d) -> NoDup (dkeys s) ->
    dget x (context_setdefaults d s) = match dget x d with Some v => Some v | None => dget x s end.
  Proof.
    intros Hd Hs. unfold context_setdefaults. rewrite dget_dupdate by now apply NoDup_dupdate.
    rewrite dget_dupdate by assumption. now destruct (dget x d), (dget x s).
  Qed.

  (** *** Positional construction *)
  Lemma dget_combine (fields : list key) (args : list A) i x v : NoDup fields -> nth_error fields i = Some x ->
    nth_error args i = Some v -> dget x (combine fields args) = Some v.
  Proof.
    clear is_None differs. revert fields args; induction i as [|i IH]; intros [|f fs] [|a r] Hn Hf Ha; try discriminate; cbn in *.
    - injection Hf as ->. injection Ha as ->. now rewrite key_eqb_refl.
    - apply NoDup_cons_iff in Hn as [Hx Hn]. destruct (key_eqb_spec x f) as [->|]; [|now eapply IH].
      exfalso. apply Hx. eapply nth_error_In; eauto.
  Qed.
  Lemma dkeys_combine (fields : list key) (args : list A) x : In x (dkeys (combine fields args)) -> In x fields.
  Proof.
    clear is_None differs. revert args; induction fields as [|f fs IH]; intros [|a r]; cbn; try tauto. intros [H|H]; [now left|right; eauto].
  Qed.
  Lemma NoDup_combine (fields : list key) (args : list A) : NoDup fields -> NoDup (dkeys (combine fields args)).
  Proof.
    clear is_None differs. intros H; revert args; induction H as [|f fs Hf Hn IH]; intros [|a r]; cbn; try constructor.
    - intros C. now apply dkeys_combine in C.
    - apply IH.
  Qed.

  Lemma new_result fields (args : list A) (kw : ctx) : NoDup fields -> NoDup (dkeys kw) -> fields <> [] ->
    (length fields < length args -> context_new fields args kw = Raise (XPy ETypeError)) /\
    (length args <= length fields -> ~ (forall x, In x (dkeys kw) -> In x fields) ->
       context_new fields args kw = Raise (XPy EValueError)) /\
    (length args <= length fields -> (forall x, In x (dkeys kw) -> In x fields) ->
       exists d, context_new fields args kw = Ok d /\
         (forall x v, dget x kw = Some v -> dget x d = Some v) /\
         (forall i x, dget x kw = None -> nth_error fields i = Some x -> dget x d = nth_error args i) /\
         (forall x, In x (dkeys d) -> In x fields)).
  Proof.
    clear is_None differs. intros Hf Hk Hne. unfold context_new. split; [|split].
    - intros H. apply Nat.ltb_lt in H. now rewrite H.
    - intros H Hx. apply Nat.ltb_ge in H. rewrite H. apply init_allowed.
      intros [C|C]; [congruence|]. apply Hx. intros x Hi. apply C. unfold data_object.
      rewrite !dkeys_dupdate_in. now right.
    - intros H Hx. apply Nat.ltb_ge in H. rewrite H.
      assert (Ha : allowed fields (data_object (combine fields args) kw)).
      { right. intros x. unfold data_object. rewrite !dkeys_dupdate_in. intros [[[]|Hi]|Hi]; [|now apply Hx].
        now apply dkeys_combine in Hi. }
      eexists. split; [now apply init_allowed|].
      assert (V : forall x, dget x (data_object (combine fields args) kw) =
                            match dget x kw with Some v => Some v | None => dget x (combine fields args) end).
      { intros x. apply (init_values fields); [now apply NoDup_combine|exact Hk|now apply init_allowed]. }
      split; [intros x v G; now rewrite V, G|]. split.
      + intros i x G Hi. rewrite V, G. destruct (nth_error args i) as [v|] eqn:Ga.
        * eapply dget_combine; eauto.
        * apply dget_None_keys. clear - Hf Hi Ga. revert fields args Hf Hi Ga.
          induction i as [|i IH]; intros [|f fs] [|a r] Hf Hi Ga; try discriminate; cbn in *; try tauto.
          apply NoDup_cons_iff in Hf as [Hx Hf]. intros [->|C]; [apply Hx; eapply nth_error_In; eauto|].
          now apply (IH fs r) in C.
      + destruct Ha as [Ha|Ha]; [congruence|exact Ha].
  Qed.

  Lemma setattr_once (d : ctx) x v : NoDup (dkeys d) ->
    (dget x d <> None -> context_setattr d x v = Raise (XPy ETypeError)) /\
    (dget x d = None -> exists e, context_setattr d x v = Ok e /\ dget x e = Some v /\
                                  forall y, y <> x -> dget y e = dget y d).
  Proof.
    intros _. unfold context_setattr, dmem. split; intros H.
    - destruct (dget x d); [reflexivity|congruence].
    - rewrite H. eexists; split; [reflexivity|]. split; [apply dget_dset_eq|]. intros y Hy. now apply dget_dset_neq.
  Qed.

  Lemma loop_context_result (o : make_arg A) (defaults : ctx) :
    NoDup (dkeys defaults) ->
    (forall d, o = FromContext d -> NoDup (dkeys d)) ->
    exists given d, loop_context o defaults = Ok d /\
      match o with FromNone => given = [] | FromContext c => given = c | FromSource s => given = dupdate [] s end /\
      (dget (k "initialized") given <> None -> d = given) /\
      (dget (k "initialized") given = None -> forall x, dget x d = match dget x given with Some v => Some v | None => dget x defaults end).
  Proof.
    intros Hdef Ho. unfold loop_context.
    assert (M : exists given b, context_make [] o = Ok (given, b) /\
      match o with FromNone => given = [] | FromContext c => given = c | FromSource s => given = dupdate [] s end /\
      NoDup (dkeys given)).
    { destruct o as [|c|s].
      - exists [], false. repeat split; constructor.
      - exists c, true. repeat split. now apply Ho.
      - exists (dupdate [] s), false. repeat split. apply NoDup_dupdate. constructor. }
    destruct M as [given [b [E [Hg Hn]]]]. rewrite E. cbn [rbind fst]. unfold dmem.
    exists given. destruct (dget (k "initialized") given) eqn:G.
    - exists given. repeat split; auto. discriminate.
    - exists (context_setdefaults given defaults). repeat split; auto; [congruence|].
      intros _ x. now apply setdefaults_get.
  Qed.

  Lemma stub_result (stub options : ctx) : NoDup (dkeys stub) -> NoDup (dkeys options) ->
    exists d, stub_context stub options = Ok d /\
      forall x, dget x d = match dget x options with Some v => Some v | None => dget x stub end.
  Proof.
    intros Hs Ho. eexists; split; [reflexivity|]. intros x. unfold data_object.
    change (dupdate (@nil (key * A)) []) with (@nil (key * A)). rewrite dupdate_nil_l by now apply NoDup_dupdate.
    now apply dget_dupdate.
  Qed.
End Facts.

(** *** The import contexts of Core.v *)
Lemma branch_attrs (differs : cval -> cval -> bool) x td sub :
  (forall v w, differs v w = false -> v = w) -> is_none td = false ->
  exists same, context_branch cval_None differs [] (ctx_attrs x)
      [(k "trusted_data", CData td); (k "mapping", submap_val sub)] = Ok (ctx_attrs (branch x td sub), same).
Proof.
  intros Hd Htd.
  assert (Gt : context_getitem (ctx_attrs x) (k "trusted_data") = Ok (CData (cx_trusted x))) by reflexivity.
  assert (Gm : context_getitem (ctx_attrs x) (k "mapping") = Ok (CMapping (cx_mapping x))) by reflexivity.
  unfold context_branch. cbn [branch_items cval_None]. rewrite Htd, Gt.
  destruct sub as [m|]; cbn [submap_val cval_None]; rewrite ?Gm; cbn [rbind].
  - destruct (differs (CMapping m) (CMapping (cx_mapping x))) eqn:D1;
      destruct (differs (CData td) (CData (cx_trusted x))) eqn:D2; cbn [rbind];
      try (apply Hd in D1; injection D1 as D1); try (apply Hd in D2; injection D2 as D2); subst;
      eexists; try reflexivity; destruct x; reflexivity.
  - destruct (differs (CData td) (CData (cx_trusted x))) eqn:D2; cbn [rbind];
      try (apply Hd in D2; injection D2 as D2); subst; eexists; try reflexivity; destruct x; reflexivity.
Qed.

Lemma nested_td_not_none E x n : is_none (nested_td E x n) = false.
Proof.
  unfold nested_td. destruct (truthy (cx_trusted x) && cx_recursive x); [|reflexivity].
  destruct (match cx_trusted x with VDict _ => _ | _ => _ end); reflexivity.
Qed.

Lemma import_branch E differs x n :
  (forall v w : cval, differs v w = false -> v = w) ->
  exists same, context_branch cval_None differs [] (ctx_attrs x)
      [(k "trusted_data", CData (nested_td E x n)); (k "mapping", submap_val (nested_map x n))]
    = Ok (ctx_attrs (branch x (nested_td E x n) (nested_map x n)), same).
Proof. intros H. apply branch_attrs; [exact H|apply nested_td_not_none]. Qed.

Lemma context_reads {A} (d : list (key * A)) x :
  (forall v, dget x d = Some v -> context_getattr d x = Ok v /\ context_getitem d x = Ok v) /\
  (dget x d = None -> context_getattr d x = Raise (XPy EAttributeError) /\ context_getitem d x = Raise (XPy EKeyError)).
Proof. unfold context_getattr, context_getitem. split; [intros v ->|intros ->]; auto. Qed.
