(** Roles: set algebra and filtering. *)
From Verif.Model Require Import Py Core Export Role.
From Verif.Spec Require Import ImportSpec ExportSpec RoleSpec.
From Verif.Proofs Require Import DictLemmas EqLemmas ExportLemmas.

Lemma kmem_In x l : kmem x l = true <-> In x l.
Proof.
  unfold kmem. rewrite existsb_exists. split.
  - intros [y [Hy E]]. apply key_eqb_eq in E. now subst.
  - intros H. exists x; split; [exact H|apply key_eqb_refl].
Qed.

Lemma to_set_In x l : In x (to_set l) <-> In x l.
Proof.
  induction l as [|y r IH]; cbn; [tauto|]. destruct (kmem y r) eqn:E; cbn; rewrite IH; [|tauto].
  apply kmem_In in E. split; [tauto|]. intros [<-|H]; assumption.
Qed.

Lemma set_eqb_In a b : set_eqb a b = true <-> forall x, In x a <-> In x b.
Proof.
  unfold set_eqb. rewrite andb_true_iff, !forallb_forall. split.
  - intros [H1 H2] x. split; intros Hx; apply kmem_In; auto.
  - intros H. split; intros x Hx; apply kmem_In, H, Hx.
Qed.

Definition kind_name (kd : rkind) : pstr :=
  match kd with Only => u "whitelist" | Except => u "blacklist" | Everything => u "wholelist" end.
Definition kind_fn (kd : rkind) : key -> pyval -> list key -> bool :=
  match kd with Only => f_whitelist | Except => f_blacklist | Everything => f_wholelist end.

Scheme rexp_ind2 := Induction for rexp Sort Prop with operand_ind2 := Induction for operand Sort Prop.
Combined Scheme rexp_mut from rexp_ind2, operand_ind2.

Lemma negb_kmem x l : negb (kmem x l) = true <-> ~ In x l.
Proof. rewrite negb_true_iff, <- kmem_In. destruct (kmem x l); split; congruence. Qed.

Lemma build_spec :
  (forall e, (forall x, In x (ro_fields (build e)) <-> about e x) /\
             ro_name (build e) = kind_name (kind_of e) /\ ro_function (build e) = kind_fn (kind_of e)) /\
  (forall o x, In x (operand_names o) <-> about_operand o x).
Proof.
  apply rexp_mut.
  - intros kd l. split; [|destruct kd; split; reflexivity].
    intros x. destruct kd; cbn; apply to_set_In.
  - intros e [He [Hn Hf]] o Ho. cbn [build kind_of]. split; [|split; assumption].
    intros x. unfold role_add, from_iterable, role_init. cbn [ro_fields about]. rewrite !to_set_In, in_app_iff, He, Ho. tauto.
  - intros e [He [Hn Hf]] o Ho. cbn [build kind_of]. split; [|split; assumption].
    intros x. unfold role_sub, from_iterable, role_init. cbn [ro_fields about].
    rewrite to_set_In, filter_In, negb_kmem, He, Ho. tauto.
  - intros e [He [Hn Hf]] o Ho. cbn [build kind_of]. split; [|split; assumption].
    intros x. unfold role_and, from_iterable, role_init, role_contains. cbn [ro_fields about].
    rewrite to_set_In, filter_In, kmem_In, He, Ho. tauto.
  - intros e [He [Hn Hf]] o Ho. cbn [build kind_of]. split; [|split; assumption].
    intros x. unfold role_or, from_iterable, role_init. cbn [ro_fields about]. rewrite to_set_In, in_app_iff, He, Ho. tauto.
  - intros e [He [Hn Hf]] o Ho. cbn [build kind_of]. split; [|split; assumption].
    intros x. unfold role_xor, role_or, role_sub, from_iterable, role_init, role_contains. cbn [ro_fields about].
    rewrite to_set_In, in_app_iff, to_set_In, !filter_In, !negb_kmem, He, Ho. tauto.
  - reflexivity.
  - intros e [He _] x. apply He.
Qed.

Lemma kind_fn_skip kd n v l : kind_fn kd n v l = true <->
  match kd with Only => ~ In n l | Except => In n l | Everything => False end.
Proof.
  destruct kd; cbn.
  - unfold f_whitelist. destruct l as [|y r]; cbn [length Nat.ltb Nat.leb].
    + split; [intros _ []|reflexivity].
    + apply negb_kmem.
  - unfold f_blacklist. destruct l as [|y r]; cbn [length Nat.ltb Nat.leb].
    + split; [discriminate|intros []].
    + apply kmem_In.
  - split; [discriminate|intros []].
Qed.

Lemma role_filter e n v : role_call (build e) n v = false <-> admits e n.
Proof.
  destruct (proj1 build_spec e) as [He [_ Hf]]. unfold role_call, admits. rewrite Hf.
  assert (D : about e n \/ ~ about e n) by (rewrite <- He; destruct (in_dec key_dec n (ro_fields (build e))); tauto).
  rewrite <- not_true_iff_false, kind_fn_skip. destruct (kind_of e); rewrite ?He; tauto.
Qed.

Lemma role_equality e e' : role_eq (build e) (build e') = true <->
  kind_of e = kind_of e' /\ forall x, about e x <-> about e' x.
Proof.
  destruct (proj1 build_spec e) as [He [Hn _]]. destruct (proj1 build_spec e') as [He' [Hn' _]].
  unfold role_eq. rewrite andb_true_iff, set_eqb_In, Hn, Hn', pstr_eqb_eq.
  assert (K : kind_name (kind_of e) = kind_name (kind_of e') <-> kind_of e = kind_of e').
  { split; [|congruence]. destruct (kind_of e), (kind_of e'); try reflexivity; discriminate. }
  rewrite K. split; intros [H1 H2]; (split; [exact H1|]); intros x; specialize (H2 x); rewrite He, He' in *; exact H2.
Qed.

Lemma role_members e x : role_contains (build e) x = true <-> about e x.
Proof. unfold role_contains. rewrite kmem_In. apply (proj1 (proj1 build_spec e)). Qed.

(** *** Export *)
Lemma export_role E fe x c obj d e :
  export_loop E fe x c obj = Ok d -> role_in_force E c x (Some (role_call (build e))) ->
  (forall s, In s (dkeys d) -> exists n f, In (n, f) (fields_of E c) /\ s = public_name n f /\ admits e n) /\
  (forall n f w, In (n, f) (fields_of E c) -> admits e n -> writes E fe x None obj n f w -> In (public_name n f) (dkeys d)).
Proof.
  intros Hd Hr. split.
  - intros s Hs. apply (export_loop_keys E fe x c obj d _ s Hd Hr) in Hs as [n [f [w [Hi [-> Hw]]]]].
    exists n, f. split; [exact Hi|split; [reflexivity|]]. destruct Hw as [Hh _].
    apply (role_filter e n (reading E obj n)). destruct (role_call (build e) n (reading E obj n)) eqn:F; [|reflexivity].
    exfalso. apply Hh. exists (role_call (build e)). auto.
  - intros n f w Hi Ha [_ Hw]. apply (export_loop_keys E fe x c obj d _ _ Hd Hr).
    exists n, f, w. split; [exact Hi|split; [reflexivity|]]. split; [|exact Hw].
    intros [g [[= <-] F]]. apply (role_filter e n (reading E obj n)) in Ha. congruence.
Qed.
