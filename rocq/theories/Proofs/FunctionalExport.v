(** Agreeing data are exported alike; what a functional validation leaves of the caller's data. *)
From Verif.Model Require Import Py Core Export Api Functional.
From Verif.Spec Require Import ImportSpec FunctionalSpec.
From Verif.Proofs Require Import DictLemmas FunctionalFacts.

Definition fine (f : fspec) : Prop :=
  forall g ms m, part_of g f -> fs_type g = TUnion ms -> In m ms -> exists l, fs_type m = TLeaf l.

Lemma fine_list o g : fine (FS o (TList g)) -> fine g.
Proof. intros H h ms m P. apply H. now constructor. Qed.
Lemma fine_dict o g ck : fine (FS o (TDict g ck)) -> fine g.
Proof. intros H h ms m P. apply H. now constructor. Qed.

Lemma agree_nil E f v w : agree E f v w -> is_nil v = is_nil w.
Proof. intros H. induction H; try reflexivity. exact IHagree. Qed.
Lemma agree_leaf E o l v w : agree E (FS o (TLeaf l)) v w -> v = w.
Proof. inversion 1. reflexivity. Qed.
Lemma agree_union E o ms v w : fine (FS o (TUnion ms)) -> agree E (FS o (TUnion ms)) v w -> v = w.
Proof.
  intros F H. inversion H as [| | | | |o' ms' m v1 v2 Hin A]; subst; [reflexivity|].
  destruct (F _ ms m (po_here _) eq_refl Hin) as [l Hl]. destruct m as [o' t]. cbn in Hl. subst t.
  eapply agree_leaf; eauto.
Qed.

Lemma filter_by_name E c x g : roles_by_name E x -> export_filter (e_class E c) x = Ok (Some g) -> by_name g.
Proof.
  intros [H1 H2] K. unfold export_filter in K. destruct (ec_role x) as [|n|f] eqn:Er.
  - injection K as K. apply dget_In in K. eapply H2; eauto.
  - destruct (dget n (mc_roles (e_class E c))) as [f|] eqn:G.
    + injection K as <-. apply dget_In in G. eapply H2; eauto.
    + destruct (key_true n && ec_raise x); [discriminate|]. injection K as K. apply dget_In in K. eapply H2; eauto.
  - injection K as <-. now apply H1.
Qed.

Section Export.
  Context (E : env) (HF : stored_fields E) (HU : simple_unions E).

  Definition xsim (fe : fspec -> pyval -> ectx -> res pyval) (x : ectx) : Prop :=
    forall f v1 v2, fine f -> agree E f v1 v2 -> fe f v1 x = fe f v2 x.

  Context (fe : fspec -> pyval -> ectx -> res pyval) (x : ectx) (HR : roles_by_name E x) (HS : xsim fe x).

  Lemma atom_items c d1 d2 n f : agree_items E c d1 d2 -> In (n, f) (mc_fields (e_class E c)) ->
    agree E (fd_spec f) (atom_value E (VModel c (MD [] d1 [] None)) n) (atom_value E (VDict d2) n).
  Proof using HF.
    intros H Hin. destruct H as [c d1 d2 H]. destruct (HF c) as [Hn Hg].
    assert (G : dget n (mc_fields (e_class E c)) = Some f) by now apply In_dget.
    unfold atom_value at 1. cbn [py_getitem]. unfold model_getitem. rewrite G. unfold field_get. rewrite (Hg n f Hin).
    unfold chain_get. cbn [md_unsafe md_converted md_valid dget].
    unfold atom_value. cbn [py_getitem].
    pose proof (drel_dget (entry E c) n d1 d2 H) as K.
    destruct (dget n d1) as [v1|], (dget n d2) as [v2|]; try contradiction; [|constructor].
    assert (A : agree E (fd_spec f) v1 v2).
    { destruct K as [->|(f' & Hf & A)]; [constructor|].
      apply (In_dget _ _ _ Hn) in Hf. rewrite G in Hf. injection Hf as <-. exact A. }
    destruct (is_undef v1) eqn:U; [|exact A].
    destruct v1; try discriminate U. exact A.
  Qed.

  Lemma export_field_sim filt c d1 d2 n f :
    (forall g, filt = Some g -> by_name g) -> agree_items E c d1 d2 -> In (n, f) (mc_fields (e_class E c)) ->
    export_field E fe x filt (VModel c (MD [] d1 [] None)) n f = export_field E fe x filt (VDict d2) n f.
  Proof using HF HU HS.
    intros Hfilt H Hin. unfold export_field.
    pose proof (atom_items c d1 d2 n f H Hin) as A.
    set (v1 := atom_value E (VModel c (MD [] d1 [] None)) n) in *. set (v2 := atom_value E (VDict d2) n) in *.
    assert (Hb : match filt with Some g => g n v1 | None => false end = match filt with Some g => g n v2 | None => false end).
    { destruct filt as [g|]; [|reflexivity]. now apply Hfilt. }
    rewrite Hb. destruct (match filt with Some g => g n v2 | None => false end); [reflexivity|].
    destruct (get_export_level E (fd_spec f) x =? DROP)%Z; [reflexivity|].
    rewrite (agree_nil _ _ _ _ A). destruct (is_nil v2) eqn:Nil.
    - assert (Hv : v1 = v2); [|now rewrite Hv].
      assert (N1 : is_nil v1 = true) by (rewrite (agree_nil _ _ _ _ A); exact Nil).
      clear -A N1. clearbody v1 v2. induction A; try reflexivity; try discriminate N1. auto.
    - rewrite (HS (fd_spec f) v1 v2); [reflexivity| |exact A].
      intros g ms m P Q R. eapply HU; eauto.
  Qed.

  Lemma export_loop_sim c d1 d2 : agree_items E c d1 d2 ->
    export_loop E fe x c (VModel c (MD [] d1 [] None)) = export_loop E fe x c (VDict d2).
  Proof using HF HU HS HR.
    intros H. unfold export_loop. destruct (export_filter (e_class E c) x) as [filt|e] eqn:Ef; [|reflexivity].
    cbn [rbind].
    assert (Hfilt : forall g, filt = Some g -> by_name g) by (intros g ->; eapply filter_by_name; eauto).
    assert (K : forall fs data, (forall n f, In (n, f) fs -> In (n, f) (mc_fields (e_class E c))) ->
      export_fields E fe x filt (VModel c (MD [] d1 [] None)) fs data = export_fields E fe x filt (VDict d2) fs data).
    { induction fs as [|[n f] fs IH]; intros data Hin; [reflexivity|]. cbn [export_fields].
      rewrite (export_field_sim filt c d1 d2 n f Hfilt H (Hin n f (or_introl eq_refl))).
      destruct (export_field E fe x filt (VDict d2) n f) as [o|e]; [|reflexivity]. cbn [rbind].
      apply IH. intros a b Hab. apply Hin. now right. }
    now apply K.
  Qed.

  (** Instances of the same class with agreeing data. *)
  Lemma export_loop_instances c d1 d2 : agree_items E c d1 d2 ->
    export_loop E fe x c (VModel c (MD [] d1 [] None)) = export_loop E fe x c (VModel c (MD [] d2 [] None)).
  Proof using HF HU HS HR.
    intros H. rewrite (export_loop_sim c d1 d2 H). symmetry. apply export_loop_sim. constructor. apply drel_refl.
  Qed.
End Export.

Lemma export_sim E x n : stored_fields E -> simple_unions E -> roles_by_name E x -> xsim E (export_at E n) x.
Proof.
  intros HF HU HR. induction n as [|n IH]; intros f v1 v2 Hf A; [reflexivity|].
  cbn [export_at]. unfold export_step. destruct f as [o t]. cbn [fs_type]. destruct t as [l|ms|c|p|g|g ck].
  - apply agree_leaf in A. now subst.
  - apply agree_union in A; [now subst|exact Hf].
  - inversion A; subst; [reflexivity|]. unfold model_export.
    now rewrite (export_loop_sim E HF HU (export_at E n) x HR IH c d1 d2).
  - inversion A; subst; [reflexivity|]. unfold poly_export. cbn [poly_allowed].
    now rewrite (export_loop_instances E HF HU (export_at E n) x HR IH c d1 d2).
  - inversion A; subst; [reflexivity|]. unfold list_export. destruct (get_export_level E g x =? DROP)%Z; [reflexivity|].
    cbn [py_iter rbind]. f_equal.
    apply fine_list in Hf. clear A. match goal with H : Forall2 _ _ _ |- _ => revert H end. generalize (@nil pyval) as acc.
    intros acc Hl. revert acc. induction Hl as [|a b l1 l2 Hab Hl IHl]; intros acc; [reflexivity|]. cbn [list_export_loop].
    rewrite (IH g a b Hf Hab). destruct (export_at E n g b x) as [w|e]; [|reflexivity]. cbn [rbind]. apply IHl.
  - inversion A; subst; [reflexivity|]. unfold dict_export. destruct (get_export_level E g x =? DROP)%Z; [reflexivity|].
    cbn [py_item_pairs rbind]. f_equal.
    apply fine_dict in Hf. clear A. match goal with H : Forall2 _ _ _ |- _ => revert H end. generalize (@nil (key * pyval)) as acc.
    intros acc Hl. revert acc. induction Hl as [|[y a] [z b] l1 l2 [Hk Hab] Hl IHl]; intros acc; [reflexivity|]. cbn [fst snd] in Hk, Hab. subst z.
    cbn [dict_export_loop].
    rewrite (IH g a b Hf Hab). destruct (export_at E n g b x) as [w|e]; [|reflexivity]. cbn [rbind]. apply IHl.
Qed.

Lemma fn_export_agrees E n x c d1 d2 :
  stored_fields E -> simple_unions E -> roles_by_name E x -> agree_items E c d1 d2 ->
  export_loop E (export_at E n) x c (VModel c (MD [] d1 [] None)) = fn_export E (export_at E n) x c (VDict d2).
Proof. intros HF HU HR H. apply export_loop_sim; auto. now apply export_sim. Qed.

(** ** The caller's data *)

Lemma mutate_fields_none E fc pre x a fs mut raw : no_setters fs ->
  forall errs, mutate_fields E fc pre x a fs mut raw errs = (mut, raw, Ok errs).
Proof.
  induction fs as [|[n f] fs IH]; intros H errs; [reflexivity|]. cbn [mutate_fields].
  rewrite (H n f (or_introl eq_refl)). apply IH. intros m g K. eapply H. right. exact K.
Qed.

Lemma import_loop_leaves E fc pre x c d a :
  no_setters (mc_fields (e_class E c)) -> NoDup (dkeys d) ->
  let out := import_loop E fc pre x (mc_fields (e_class E c)) (VDict d) a (VDict d) in
  lo_mut out = VDict d /\ lo_raw out = VDict d.
Proof.
  intros Hs Hn. cbv zeta. unfold import_loop.
  destruct (if truthy (cx_trusted x) then py_dict E (cx_trusted x) else Ok []); [|now split].
  change (negb (is_none (VDict d))) with true. cbn [andb].
  destruct (cx_validate x); [|now split].
  unfold mutate. rewrite mutate_fields_none by exact Hs. cbn [py_dict]. rewrite (dupdate_self d Hn).
  destruct a; now split.
Qed.

Lemma fn_validate_leaves E r c d td w :
  no_setters (mc_fields (e_class E c)) -> NoDup (dkeys d) ->
  lo_mut (fn_validate E r c (VDict d) VNone td w) = VDict d /\ lo_raw (fn_validate E r c (VDict d) VNone td w) = VDict d.
Proof.
  intros Hs Hn. unfold fn_validate. cbn [fn_raw is_none]. unfold validate_fn. cbn [lo_mut lo_raw].
  now apply import_loop_leaves.
Qed.

Lemma fn_convert_leaves E r c v raw td w :
  lo_mut (fn_convert E r c v raw td w) = v /\
  lo_raw (fn_convert E r c v raw td w) = if is_none raw then v else raw.
Proof.
  unfold fn_convert, fn_raw. destruct (is_none raw); unfold import_loop; cbn [fn_ctx cx_trusted cx_validate];
    rewrite andb_false_r; match goal with |- context [if ?b then py_dict ?E ?v else ?o] => destruct (if b then py_dict E v else o) end;
    now split.
Qed.
