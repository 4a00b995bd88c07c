(** Facts about keys and insertion ordered dictionaries. *)
From Verif.Model Require Import Py.

Lemma pstr_eqb_spec a b : reflect (a = b) (pstr_eqb a b).
Proof.
  revert b; induction a as [|x a IH]; intros [|y b]; cbn; try (constructor; congruence).
  destruct (N.eqb_spec x y) as [->|H]; cbn.
  - destruct (IH b) as [->|H]; constructor; congruence.
  - constructor; congruence.
Qed.

Lemma key_eqb_spec a b : reflect (a = b) (key_eqb a b).
Proof.
  destruct a as [s|z], b as [t|w]; cbn; try (constructor; congruence).
  - destruct (pstr_eqb_spec s t); constructor; congruence.
  - destruct (Z.eqb_spec z w); constructor; congruence.
Qed.

Lemma key_eqb_refl a : key_eqb a a = true.
Proof. destruct (key_eqb_spec a a); congruence. Qed.
Lemma key_eqb_eq a b : key_eqb a b = true <-> a = b.
Proof. destruct (key_eqb_spec a b); split; congruence. Qed.
Lemma key_eqb_neq a b : key_eqb a b = false <-> a <> b.
Proof. destruct (key_eqb_spec a b); split; congruence. Qed.
Lemma key_eqb_sym a b : key_eqb a b = key_eqb b a.
Proof. destruct (key_eqb_spec a b), (key_eqb_spec b a); congruence. Qed.
Lemma key_dec (a b : key) : {a = b} + {a <> b}.
Proof. destruct (key_eqb_spec a b); [left|right]; assumption. Qed.

Lemma kmem_In x l : kmem x l = true <-> In x l.
Proof.
  unfold kmem; rewrite existsb_exists; split.
  - intros (y & H & E); apply key_eqb_eq in E; subst; assumption.
  - intros H; exists x; split; [assumption|apply key_eqb_refl].
Qed.
Lemma kmem_nIn x l : kmem x l = false <-> ~ In x l.
Proof. rewrite <- kmem_In; destruct (kmem x l); split; congruence. Qed.

Section D.
  Context {A : Type}.
  Implicit Types d e : list (key * A).

  Lemma dget_dset_eq x v d : dget x (dset x v d) = Some v.
  Proof.
    induction d as [|[y w] d IH]; cbn; [now rewrite key_eqb_refl|].
    destruct (key_eqb x y) eqn:E; cbn; rewrite E; auto.
  Qed.
  Lemma dget_dset_neq x y v d : x <> y -> dget x (dset y v d) = dget x d.
  Proof.
    intros H; induction d as [|[z w] d IH]; cbn.
    - apply key_eqb_neq in H; now rewrite H.
    - destruct (key_eqb_spec y z) as [->|Hz]; cbn.
      + destruct (key_eqb_spec x z); congruence.
      + now rewrite IH.
  Qed.
  Lemma dget_dset x y v d : dget x (dset y v d) = if key_eqb x y then Some v else dget x d.
  Proof.
    destruct (key_eqb_spec x y) as [->|H]; [apply dget_dset_eq|now apply dget_dset_neq].
  Qed.

  Lemma dget_In x v d : dget x d = Some v -> In (x, v) d.
  Proof.
    induction d as [|[y w] d IH]; cbn; [discriminate|].
    destruct (key_eqb_spec x y) as [->|H]; [intros [= ->]; auto|auto].
  Qed.
  Lemma dget_keys x d : dget x d <> None <-> In x (dkeys d).
  Proof.
    unfold dkeys.
    induction d as [|[y w] d IH]; cbn; [firstorder congruence|].
    destruct (key_eqb_spec x y) as [->|H]; [firstorder congruence|].
    rewrite IH; firstorder congruence.
  Qed.
  Lemma dget_None_keys x d : dget x d = None <-> ~ In x (dkeys d).
  Proof. rewrite <- dget_keys; destruct (dget x d); firstorder congruence. Qed.
  Lemma dmem_In x d : dmem x d = true <-> In x (dkeys d).
  Proof. unfold dmem; rewrite <- dget_keys; destruct (dget x d); firstorder congruence. Qed.
  Lemma dmem_nIn x d : dmem x d = false <-> ~ In x (dkeys d).
  Proof. rewrite <- dmem_In; destruct (dmem x d); firstorder congruence. Qed.
  Lemma dmem_dget x d : dmem x d = false <-> dget x d = None.
  Proof. unfold dmem; destruct (dget x d); firstorder congruence. Qed.
  Lemma dmem_true_dget x d : dmem x d = true <-> exists v, dget x d = Some v.
  Proof.
    unfold dmem; destruct (dget x d) as [v|]; split; intros H; eauto; try discriminate.
    destruct H; discriminate.
  Qed.

  Lemma In_dget x v d : NoDup (dkeys d) -> In (x, v) d -> dget x d = Some v.
  Proof.
    unfold dkeys; induction d as [|[y w] d IH]; cbn; [tauto|].
    intros Hn [[= -> ->]|H]; [now rewrite key_eqb_refl|].
    inversion Hn as [|? ? Hy Hd]; subst.
    destruct (key_eqb_spec x y) as [->|_]; [|auto].
    exfalso; apply Hy; apply (in_map fst) in H; exact H.
  Qed.

  Lemma dkeys_dset_in x y v d : In x (dkeys (dset y v d)) <-> x = y \/ In x (dkeys d).
  Proof.
    rewrite <- !dget_keys, dget_dset.
    destruct (key_eqb_spec x y) as [->|H]; firstorder congruence.
  Qed.
  Lemma dkeys_dset_mem y v d : In y (dkeys d) -> dkeys (dset y v d) = dkeys d.
  Proof.
    unfold dkeys; induction d as [|[z w] d IH]; cbn; [tauto|].
    destruct (key_eqb_spec y z) as [->|H]; cbn; [reflexivity|].
    intros [->|Hi]; [congruence|]. now rewrite IH.
  Qed.
  Lemma dkeys_dset_new y v d : ~ In y (dkeys d) -> dset y v d = d ++ [(y, v)].
  Proof.
    unfold dkeys; induction d as [|[z w] d IH]; cbn; [reflexivity|].
    intros H; destruct (key_eqb_spec y z) as [->|Hz]; [tauto|].
    rewrite IH; tauto.
  Qed.
  Lemma NoDup_dset y v d : NoDup (dkeys d) -> NoDup (dkeys (dset y v d)).
  Proof.
    intros H; destruct (in_dec key_dec y (dkeys d)) as [Hi|Hn].
    - now rewrite dkeys_dset_mem.
    - rewrite dkeys_dset_new by assumption; unfold dkeys in *; rewrite map_app; cbn.
      apply NoDup_Add with (a := y) (l := map fst d).
      + rewrite <- (app_nil_r (map fst d)) at 1; apply Add_app.
      + split; assumption.
  Qed.

  Lemma dget_ddel_neq x y d : x <> y -> dget x (ddel y d) = dget x d.
  Proof.
    intros H; induction d as [|[z w] d IH]; cbn; [reflexivity|].
    destruct (key_eqb_spec y z) as [->|Hz]; cbn.
    - destruct (key_eqb_spec x z); congruence.
    - now rewrite IH.
  Qed.
  Lemma dkeys_ddel_in x y d : In x (dkeys (ddel y d)) -> In x (dkeys d).
  Proof.
    unfold dkeys; induction d as [|[z w] d IH]; cbn; [tauto|].
    destruct (key_eqb y z); cbn; tauto.
  Qed.
  Lemma NoDup_ddel y d : NoDup (dkeys d) -> NoDup (dkeys (ddel y d)).
  Proof.
    induction d as [|[z w] d IH]; cbn; [auto|].
    intros H; inversion H as [|? ? H1 H2]; subst.
    destruct (key_eqb y z); [assumption|]; cbn; constructor; [|auto].
    intros Hi; apply H1; eapply dkeys_ddel_in; exact Hi.
  Qed.
  Lemma dget_ddel_eq x d : NoDup (dkeys d) -> dget x (ddel x d) = None.
  Proof.
    induction d as [|[z w] d IH]; cbn; [reflexivity|].
    intros H; inversion H as [|? ? H1 H2]; subst.
    destruct (key_eqb_spec x z) as [->|Hz]; cbn.
    - now apply dget_None_keys.
    - destruct (key_eqb_spec x z); [congruence|auto].
  Qed.
  Lemma dget_ddel x y d : NoDup (dkeys d) ->
    dget x (ddel y d) = if key_eqb x y then None else dget x d.
  Proof.
    intros H; destruct (key_eqb_spec x y) as [->|Hn]; [now apply dget_ddel_eq|now apply dget_ddel_neq].
  Qed.
  Lemma ddel_notin x d : ~ In x (dkeys d) -> ddel x d = d.
  Proof.
    unfold dkeys; induction d as [|[z w] d IH]; cbn; [reflexivity|].
    intros H; destruct (key_eqb_spec x z) as [->|Hz]; [tauto|]. now rewrite IH by tauto.
  Qed.

  (** The last binding of a key in a list of pairs. *)
  Definition dlast x e : option A := dget x (rev e).

  Lemma dget_app x d e : dget x (d ++ e) = match dget x d with Some v => Some v | None => dget x e end.
  Proof.
    induction d as [|[y w] d IH]; cbn; [reflexivity|].
    destruct (key_eqb x y); auto.
  Qed.

  Lemma dget_dupdate_last x d e :
    dget x (dupdate d e) = match dlast x e with Some v => Some v | None => dget x d end.
  Proof.
    unfold dupdate, dlast; revert d; induction e as [|[y w] e IH]; intros d; cbn; [reflexivity|].
    rewrite IH, dget_app, dget_dset; cbn.
    destruct (dget x (rev e)); [reflexivity|].
    destruct (key_eqb x y); reflexivity.
  Qed.

  Lemma dkeys_rev_in x e : In x (dkeys (rev e)) <-> In x (dkeys e).
  Proof. unfold dkeys; rewrite map_rev, <- in_rev; tauto. Qed.

  Lemma dlast_dget x e : NoDup (dkeys e) -> dlast x e = dget x e.
  Proof.
    intros H; unfold dlast.
    destruct (dget x e) as [v|] eqn:G.
    - apply In_dget.
      + unfold dkeys in *; rewrite map_rev; now apply NoDup_rev.
      + rewrite <- in_rev; now apply dget_In.
    - apply dget_None_keys; rewrite dkeys_rev_in; now apply dget_None_keys.
  Qed.

  Lemma dget_dupdate x d e : NoDup (dkeys e) ->
    dget x (dupdate d e) = match dget x e with Some v => Some v | None => dget x d end.
  Proof. intros H; now rewrite dget_dupdate_last, dlast_dget. Qed.

  Lemma dlast_None x e : dlast x e = None <-> ~ In x (dkeys e).
  Proof. unfold dlast; now rewrite dget_None_keys, dkeys_rev_in. Qed.

  Lemma dkeys_dupdate_in x d e : In x (dkeys (dupdate d e)) <-> In x (dkeys d) \/ In x (dkeys e).
  Proof.
    rewrite <- (dget_keys x (dupdate d e)), dget_dupdate_last.
    destruct (dlast x e) as [v|] eqn:L.
    - assert (In x (dkeys e)).
      { destruct (in_dec key_dec x (dkeys e)) as [H|H]; [assumption|].
        apply dlast_None in H; congruence. }
      split; [tauto|discriminate].
    - apply dlast_None in L; rewrite dget_keys; tauto.
  Qed.
  Lemma NoDup_dupdate d e : NoDup (dkeys d) -> NoDup (dkeys (dupdate d e)).
  Proof.
    unfold dupdate; revert d; induction e as [|[y w] e IH]; intros d H; cbn; [assumption|].
    apply IH, NoDup_dset, H.
  Qed.
  Lemma dset_same x v d : dget x d = Some v -> dset x v d = d.
  Proof.
    induction d as [|[y w] d IH]; cbn; [discriminate|].
    destruct (key_eqb x y); [intros [= ->]; reflexivity|].
    intros H; now rewrite IH.
  Qed.
  Lemma dupdate_same d e : (forall x v, In (x, v) e -> dget x d = Some v) -> dupdate d e = d.
  Proof.
    unfold dupdate; induction e as [|[y w] e IH]; cbn; intros H; [reflexivity|].
    rewrite dset_same by auto. apply IH; auto.
  Qed.
  Lemma dupdate_self d : NoDup (dkeys d) -> dupdate d d = d.
  Proof. intros H; apply dupdate_same; intros; now apply In_dget. Qed.
  Lemma dupdate_nil_l d : NoDup (dkeys d) -> dupdate [] d = d.
  Proof.
    intros H. unfold dupdate.
    cut (forall e, (forall x, In x (dkeys e) -> ~ In x (dkeys d)) ->
           fold_left (fun acc p => dset (fst p) (snd p) acc) d e = e ++ d).
    { intros C; apply (C []); cbn; tauto. }
    induction d as [|[y w] d IH]; intros e Hd; cbn; [now rewrite app_nil_r|].
    inversion H as [|? ? H1 H2]; subst.
    rewrite dkeys_dset_new.
    - rewrite IH, <- app_assoc; [reflexivity|assumption|].
      intros x; unfold dkeys; rewrite map_app, in_app_iff; cbn.
      intros [Hi|[<-|[]]]; [|assumption].
      intros Hx; apply (Hd x Hi); cbn; auto.
    - intros Hi; apply (Hd y Hi); cbn; auto.
  Qed.
End D.

Lemma dget_map {A B} (f : A -> B) x (d : list (key * A)) :
  dget x (map (fun p => (fst p, f (snd p))) d) = option_map f (dget x d).
Proof.
  induction d as [|[y w] d IH]; cbn; [reflexivity|]. destruct (key_eqb x y); auto.
Qed.
