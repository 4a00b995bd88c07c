(** What counts as false, and options given by such values (C73). *)
From Verif.Model Require Import Py Core Export Compound Equality Build.
From Verif.Spec Require Import BuildSpec TruthSpec.
From Verif.Proofs Require Import DictLemmas BuildFacts BuildUse.

Lemma truthy_false v : truthy v = false <-> false_value v.
Proof.
  split.
  - destruct v as [| |b|z|f|s|s|l|l|d|c m|d|d t o|us|c|uu|cl nm ix|o]; cbn; intros H; try discriminate H; try constructor.
    + subst. constructor.
    + apply Bool.negb_false_iff, Z.eqb_eq in H. subst. constructor.
    + destruct f; try discriminate. constructor.
    + destruct s; [constructor|discriminate].
    + destruct s; [constructor|discriminate].
    + destruct l; [constructor|discriminate].
    + destruct l; [constructor|discriminate].
    + destruct d; [constructor|discriminate].
    + destruct m as [[|] [|] [|] h]; try discriminate. constructor.
    + apply Bool.negb_false_iff, Z.eqb_eq in H. subst. constructor.
    + apply Bool.negb_false_iff, Z.eqb_eq in H. subst. constructor.
  - now intros [].
Qed.
Lemma truthy_true v : truthy v = true <-> ~ false_value v.
Proof. rewrite <- truthy_false. destruct (truthy v); split; congruence. Qed.

Lemma required_iff E d str n c kw f v : own_params c -> new_type E d str n c kw = Ok f ->
  dget (k "required") kw = Some (AVal v) -> (fo_required (fs_opts f) = true <-> ~ false_value v).
Proof. intros O H R. destruct (new_type_means _ _ _ _ _ _ _ O H) as [_ M _ _ _ _ _ _ _ _ _ _ _]. rewrite (M v R). apply truthy_true. Qed.

Lemma unfit_validators E d str n c kw v p : own_params (CLeaf c) -> (forall y, In y (lc_needed c) -> In y (dkeys kw)) ->
  lc_make c (map (fun q => (fst q, arg_val (Some (snd q)) VNone)) (only (lc_params c) kw)) = Ok p ->
  dget (k "validators") kw = Some (AVal v) -> ~ false_value v -> new_type E d str (S n) (CLeaf c) kw = Raise (XPy ETypeError).
Proof.
  intros O Hn Hm Hv Hf. cbn [new_type]. unfold leaf_init. replace (forallb (fun x => dmem x kw) (lc_needed c)) with true.
  2: { symmetry. apply forallb_forall. intros y Hy. apply dmem_In. auto. }
  rewrite Hm. cbn [rbind]. destruct p as [l vs]. unfold base_init. destruct (forallb _ (without _ _)) eqn:F; [|reflexivity].
  assert (W : dget (k "validators") (without (lc_params c) kw) = Some (AVal v)).
  { unfold without. rewrite (dget_filter (fun y => negb (kmem y (lc_params c)))).
    destruct (kmem (k "validators") (lc_params c)) eqn:K; [|exact Hv].
    apply kmem_In in K. destruct (O _ K). cbn. tauto. }
  rewrite W. unfold read_validators, arg_true. apply truthy_true in Hf. rewrite Hf. cbn [rbind].
  destruct (read_choices _) as [ch|e] eqn:Rc; cbn [rbind]; [reflexivity|].
  unfold read_choices in Rc. destruct (arg_val _ _) as [| | | | | | | | | | | | | | | | |]; try discriminate Rc; match type of Rc with (if ?t then _ else _) = _ => destruct t; congruence end.
Qed.
