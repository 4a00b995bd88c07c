(** Consequences: order of fields, untouched classes, subclass relation. *)
From Verif.Model Require Import Py Core Export Meta.
From Verif.Spec Require Import MetaSpec.
From Verif.Proofs Require Import DictLemmas MetaHeap MetaClass MetaFacts.
From Coq Require Import Lia Sorted Permutation.

(** ** Order *)
Lemma sorted_before {A} (R : A -> A -> Prop) l x y : StronglySorted R l -> before x y l -> R x y.
Proof.
  intros S (l1 & l2 & l3 & ->). induction l1 as [|a l1 IH]; cbn in S; inversion S as [|? ? S' F]; subst.
  - apply (proj1 (Forall_forall _ _) F). apply in_or_app. right. now left.
  - now apply IH.
Qed.

Lemma before_sorted {A} (R : A -> A -> Prop) l x y : (forall a b, R a b -> R b a -> False) ->
  StronglySorted R l -> In x l -> In y l -> R x y -> before x y l.
Proof.
  intros As S Ix Iy r. apply in_split in Ix. destruct Ix as (l1 & l2 & ->).
  apply in_app_or in Iy. destruct Iy as [I|[E|I]].
  - exfalso. apply in_split in I. destruct I as (l3 & l4 & ->). apply (As x y r).
    eapply sorted_before; [exact S|]. exists l3, l4, l2. now rewrite <- app_assoc.
  - subst y. exfalso. eapply As; eassumption.
  - apply in_split in I. destruct I as (l3 & l4 & ->). exists l1, l3, l4. reflexivity.
Qed.

Lemma sorted_unique {A} (R : A -> A -> Prop) : (forall a b, R a b -> R b a -> False) ->
  forall l l', StronglySorted R l -> StronglySorted R l' -> (forall x, In x l <-> In x l') -> l = l'.
Proof.
  intros As. induction l as [|a l IH]; intros [|b l'] S S' I.
  - reflexivity.
  - destruct (proj2 (I b) (or_introl eq_refl)).
  - destruct (proj1 (I a) (or_introl eq_refl)).
  - inversion S as [|? ? S1 F]; inversion S' as [|? ? S1' F']; subst.
    rewrite Forall_forall in F, F'.
    assert (a = b) as ->.
    { destruct (proj1 (I a) (or_introl eq_refl)) as [E|J]; [now symmetry|].
      destruct (proj2 (I b) (or_introl eq_refl)) as [E|J']; [exact E|].
      exfalso. apply (As a b); auto. }
    f_equal. apply IH; auto. intros x. split; intros J.
    + destruct (proj1 (I x) (or_intror J)) as [E|J']; [|exact J']. subst x. exfalso.
      pose proof (F b J) as r. exact (As b b r r).
    + destruct (proj2 (I x) (or_intror J)) as [E|J']; [|exact J']. subst x. exfalso.
      pose proof (F' b J) as r. exact (As b b r r).
Qed.

Definition earlier (P : program) (c : cid) (x y : key) : Prop :=
  exists p q, created P c x = Some p /\ created P c y = Some q /\ (p < q)%Z.

Lemma earlier_asym P c x y : earlier P c x y -> earlier P c y x -> False.
Proof. intros (p & q & A & B & L) (p' & q' & A' & B' & L'). assert (p' = q /\ q' = p) by (split; congruence). lia. Qed.

Lemma StronglySorted_map {A B} (f : A -> B) (R : B -> B -> Prop) l :
  StronglySorted (fun a b => R (f a) (f b)) l -> StronglySorted R (map f l).
Proof.
  induction 1 as [|a l S IH F]; cbn; constructor; [exact IH|].
  apply Forall_forall. intros y I. apply in_map_iff in I. destruct I as (b & <- & J).
  now apply (proj1 (Forall_forall _ _) F).
Qed.

Lemma names_sorted P c : wf P -> (forall k, class_at P c = Some k -> by_creation (p_heap P) k) ->
  StronglySorted (earlier P c) (names_of P c).
Proof.
  intros W Sk. destruct (class_at P c) as [k|] eqn:K.
  - rewrite (names_of_class P c k K). apply StronglySorted_map.
    pose proof (class_at_In _ _ _ K) as Ik.
    eapply StronglySorted_impl; [|exact (Sk k eq_refl)].
    intros [x e] [y e'] Ix Iy L. cbn in L. exists (pos_at (p_heap P) (en_type e)), (pos_at (p_heap P) (en_type e')).
    unfold created. rewrite K. cbn [fst].
    rewrite (In_dget x e), (In_dget y e') by (assumption || now apply (w_nodup P W)). cbn. auto.
  - unfold names_of, env_of. cbn. rewrite K. constructor.
Qed.

Lemma created_names P c x p : created P c x = Some p -> In x (names_of P c).
Proof.
  unfold created. destruct (class_at P c) as [k|] eqn:K; [|discriminate].
  rewrite (names_of_class P c k K). destruct (dget x (cl_fields k)) as [e|] eqn:G; [|discriminate].
  intros _. apply dget_keys. congruence.
Qed.

Lemma names_created P c x : In x (names_of P c) -> exists p, created P c x = Some p.
Proof.
  unfold created. destruct (class_at P c) as [k|] eqn:K.
  - rewrite (names_of_class P c k K). intros I. apply dget_keys in I.
    destruct (dget x (cl_fields k)); [cbn; eauto|congruence].
  - unfold names_of, env_of. cbn. rewrite K. contradiction.
Qed.

Lemma class_by_creation P c x y p q : wf P -> (forall k, class_at P c = Some k -> by_creation (p_heap P) k) ->
  created P c x = Some p -> created P c y = Some q -> (before x y (names_of P c) <-> (p < q)%Z).
Proof.
  intros W Sk Cx Cy. pose proof (names_sorted P c W Sk) as S. split.
  - intros Bf. pose proof (sorted_before _ _ _ _ S Bf) as (p' & q' & A & B' & L). congruence.
  - intros L. eapply before_sorted; [apply earlier_asym|exact S| | |].
    + now apply (created_names P c x p).
    + now apply (created_names P c y q).
    + exists p, q. auto.
Qed.

Lemma made_class_sorted P c : made P -> forall k, class_at P c = Some k -> by_creation (p_heap P) k.
Proof. intros M k K. apply made_sorted; [exact M|]. now apply (class_at_In P c). Qed.

Theorem fields_by_creation P c x y p q : made P ->
  created P c x = Some p -> created P c y = Some q -> (before x y (names_of P c) <-> (p < q)%Z).
Proof. intros M. apply class_by_creation; [now apply made_wf|now apply made_class_sorted]. Qed.

Lemma new_class_by_creation P bases attrs own claim x y p q : wf P ->
  (forall b, In b bases -> class_at P b <> None) -> class_body P attrs ->
  let P' := define_class P bases attrs own claim in
  created P' (next_class P) x = Some p -> created P' (next_class P) y = Some q ->
  (before x y (names_of P' (next_class P)) <-> (p < q)%Z).
Proof.
  intros W B CB P'. apply class_by_creation; [now apply define_wf|].
  intros k K. unfold P' in *. rewrite (new_class_at P W bases attrs own claim B CB) in K. injection K as <-.
  exact (new_class_sorted P W bases attrs own claim B CB).
Qed.

Lemma created_class P b k x : class_at P b = Some k ->
  created P b x = option_map (fun e => pos_at (p_heap P) (en_type e)) (dget x (cl_fields k)).
Proof. intros H. unfold created. now rewrite H. Qed.

Lemma inherited_created_first P bases x : (forall b, In b bases -> class_at P b <> None) ->
  inherited_created P bases x = option_map (fun e => pos_at (p_heap P) (en_type e)) (first_entry P bases x).
Proof.
  induction bases as [|b bs IH]; intros B; [reflexivity|]. cbn.
  destruct (class_at P b) as [k|] eqn:K; [|now apply B in K; [|left]].
  rewrite (created_class P b k x K). destruct (dget x (cl_fields k)); cbn; [reflexivity|].
  apply IH. intros; apply B; now right.
Qed.

Lemma created_inherited P bases attrs own claim x : wf P ->
  (forall b, In b bases -> class_at P b <> None) -> class_body P attrs ->
  (forall t, In (x, t) attrs -> declared_obj t = None) ->
  created (define_class P bases attrs own claim) (next_class P) x = inherited_created P bases x.
Proof.
  intros W B CB N.
  rewrite (created_class _ _ _ x (new_class_at P W bases attrs own claim B CB)). cbn [cl_fields].
  rewrite (fs_get P W bases attrs own claim B CB), (no_own P W bases attrs own claim B CB x N).
  rewrite (inherited_created_first P bases x B).
  pose proof (bi_fields _ _ _ (BI P W bases attrs own claim B CB) x) as D.
  fold (start P) in *.
  destruct (dget x (ac_fields (fold_left (add_base P) (rev bases) (start P)))) as [e|],
           (first_entry P bases x) as [e0|]; try contradiction; [|reflexivity].
  cbn [option_map]. f_equal.
  rewrite (P'_eq P W bases attrs own claim B CB). cbn [p_heap].
  rewrite (same_kinds_pos _ _ _ (H'_kinds P W bases attrs own claim B CB)).
  destruct D as (D & _). unfold pos_at. rewrite (proj1 (attrs_heap attrs _)). now rewrite D.
Qed.

Lemma own_names_In attrs x : In x (own_names attrs) <-> exists t a, In (x, t) attrs /\ declared_obj t = Some a.
Proof.
  unfold own_names. rewrite in_flat_map. split.
  - intros ([y t] & I & J). cbn in J. destruct (declared_obj t) as [a|] eqn:D; [|contradiction].
    destruct J as [<-|[]]. eauto.
  - intros (t & a & I & D). exists (x, t). split; [exact I|]. cbn. rewrite D. now left.
Qed.

Theorem single_base_names P b attrs own claim : made P -> class_at P b <> None -> class_body P attrs ->
  StronglySorted (fun p q => forall a d, declared_obj (snd p) = Some a -> declared_obj (snd q) = Some d -> a < d) attrs ->
  (forall x t a y p, In (x, t) attrs -> declared_obj t = Some a -> created P b y = Some p -> (p < Z.of_nat a)%Z) ->
  names_of (define_class P [b] attrs own claim) (next_class P)
  = filter (fun x => negb (kmem x (own_names attrs))) (names_of P b) ++ own_names attrs.
Proof.
  intros M K CB So After.
  pose proof (made_wf P M) as W.
  assert (forall d, In d [b] -> class_at P d <> None) as B by (intros d [<-|[]]; exact K).
  set (P' := define_class P [b] attrs own claim). set (c := next_class P).
  assert (forall x, In x (own_names attrs) -> exists t a, In (x, t) attrs /\ declared_obj t = Some a /\
            created P' c x = Some (Z.of_nat a)) as Co.
  { intros x I. apply own_names_In in I. destruct I as (t & a & I & D). exists t, a.
    repeat split; auto. now apply (created_own P W [b] attrs own claim B CB x t). }
  assert (forall x, ~ In x (own_names attrs) -> created P' c x = created P b x) as Ci.
  { intros x N. unfold P', c. rewrite (created_inherited P [b] attrs own claim x W B CB).
    - cbn. destruct (created P b x); reflexivity.
    - intros t I. destruct (declared_obj t) as [a|] eqn:D; [|reflexivity]. exfalso. apply N.
      apply own_names_In. eauto. }
  assert (forall x, In x (names_of P' c) <-> In x (own_names attrs) \/ (In x (names_of P b) /\ ~ In x (own_names attrs))) as Iff.
  { intros x. destruct (in_dec key_dec x (own_names attrs)) as [I|N].
    - split; [now left|]. intros _. destruct (Co x I) as (t & a & _ & _ & E). now apply created_names in E.
    - split.
      + intros I. right. split; [|exact N]. apply names_created in I. destruct I as (p & E).
        rewrite (Ci x N) in E. now apply created_names in E.
      + intros [I|[I _]]; [contradiction|]. apply names_created in I. destruct I as (p & E).
        rewrite <- (Ci x N) in E. now apply created_names in E. }
  apply (sorted_unique (earlier P' c)).
  - apply earlier_asym.
  - apply names_sorted; [now apply define_wf|]. intros k0 K0. unfold P', c in *.
    rewrite (new_class_at P W [b] attrs own claim B CB) in K0. injection K0 as <-.
    exact (new_class_sorted P W [b] attrs own claim B CB).
  - assert (StronglySorted (earlier P' c) (filter (fun x => negb (kmem x (own_names attrs))) (names_of P b))) as S1.
    { pose proof (names_sorted P b W (made_class_sorted P b M)) as S. clear - S Ci.
      induction S as [|x l S IH F]; cbn; [constructor|].
      destruct (kmem x (own_names attrs)) eqn:E; cbn; [exact IH|]. constructor; [exact IH|].
      apply Forall_forall. intros y I. apply filter_In in I. destruct I as [I Ey].
      apply negb_true_iff in Ey. apply kmem_nIn in E, Ey.
      rewrite Forall_forall in F. destruct (F y I) as (p & q & A & B & L).
      exists p, q. rewrite !Ci by assumption. auto. }
    assert (StronglySorted (earlier P' c) (own_names attrs)) as S2.
    { assert (forall x t a, In (x, t) attrs -> declared_obj t = Some a -> created P' c x = Some (Z.of_nat a)) as Cr.
      { intros x t a I D. now apply (created_own P W [b] attrs own claim B CB x t). }
      clearbody P' c. clear - So Cr. unfold own_names. induction So as [|[x t] l S IH F]; cbn; [constructor|].
      assert (StronglySorted (earlier P' c) (flat_map (fun p => match declared_obj (snd p) with Some _ => [fst p] | None => [] end) l)) as IH'.
      { apply IH. intros y s a I. apply Cr. now right. }
      destruct (declared_obj t) as [a|] eqn:D; cbn; [|exact IH']. constructor; [exact IH'|].
      apply Forall_forall. intros y I. apply in_flat_map in I. destruct I as ([y' s] & I & J). cbn in J.
      destruct (declared_obj s) as [d|] eqn:Ds; [|contradiction]. destruct J as [<-|[]].
      rewrite Forall_forall in F. pose proof (F (y', s) I a d D Ds).
      exists (Z.of_nat a), (Z.of_nat d). repeat split; [|eapply Cr; [right; exact I|exact Ds]|lia].
      eapply Cr; [now left|exact D]. }
    assert (forall x y, In x (filter (fun x => negb (kmem x (own_names attrs))) (names_of P b)) ->
              In y (own_names attrs) -> earlier P' c x y) as X.
    { intros x y I J. apply filter_In in I. destruct I as [I E]. apply negb_true_iff in E. apply kmem_nIn in E.
      destruct (names_created _ _ _ I) as (p & Ep). destruct (Co y J) as (t & a & It & D & Ea).
      exists p, (Z.of_nat a). rewrite (Ci x E). repeat split; auto. eapply After; eassumption. }
    clear - S1 S2 X. induction S1 as [|x l S IH F]; cbn; [exact S2|]. constructor.
    + apply IH. intros a d I. apply X. now right.
    + apply Forall_app. split; [exact F|]. apply Forall_forall. intros y I. apply X; [now left|exact I].
  - intros x. rewrite Iff, in_app_iff, filter_In, negb_true_iff, kmem_nIn. tauto.
Qed.
