(** Witnesses and the choices validator. *)
From Verif.Model Require Import Py Core Num Calendar Api Equality.
From Verif.Spec Require Import ImportSpec FuelSpec EqSpec.
From Verif.Proofs Require Import DictLemmas ImportLemmas ApiLemmas FuelBound FuelWitness EqLemmas.
From Verif.Conformance Require Import Sample.
Open Scope string_scope.
Open Scope list_scope.

Definition pers (d : list (key * pyval)) : pyval := VModel 1 (MD [] d [] None).
Lemma asymmetric : exists a b, eq_at Esample 5 a b = Ok true /\ eq_at Esample 5 b a = Ok false.
Proof. exists (pers []), (pers [(k "name", VStr (u "Bob"))]). split; reflexivity. Qed.
Lemma not_transitive : exists a b c, eq_at Esample 5 a b = Ok true /\ eq_at Esample 5 b c = Ok true /\ eq_at Esample 5 a c = Ok false.
Proof.
  exists (pers [(k "name", VNone)]), (pers []), (pers [(k "name", VStr (u "Bob"))]). repeat split; reflexivity.
Qed.
Lemma nan_copy : exists a, eq_at Esample 5 a a = Ok false.
Proof. exists (pers [(k "age", VFloat S754_nan)]). reflexivity. Qed.

Lemma same_object E n a b : model_eq E n true a b = Ok true.
Proof. reflexivity. Qed.
Lemma ne_is_not_eq E n s a b t : model_eq E n s a b = Ok t <-> model_ne E n s a b = Ok (negb t).
Proof.
  unfold model_ne. destruct (model_eq E n s a b) as [q|e]; cbn; [|split; discriminate].
  split; [congruence|]. intros [= H]. destruct q, t; cbn in H; congruence.
Qed.

(** ** Choices *)
Lemma py_in_true E n v l : py_in E n v l = Ok true -> exists w, In w l /\ eq_at E n w v = Ok true.
Proof.
  induction l as [|w l IH]; cbn; [discriminate|]. destruct (eq_at E n w v) as [[|]|e] eqn:Q; cbn.
  - intros _. exists w. auto.
  - intros H. destruct (IH H) as (w' & Hw & Q'). eauto.
  - discriminate.
Qed.
Lemma py_in_false E n v l : py_in E n v l = Ok false <-> forall w, In w l -> eq_at E n w v = Ok false.
Proof.
  induction l as [|w l IH]; cbn; [split; [intros _ w []|reflexivity]|].
  destruct (eq_at E n w v) as [[|]|e] eqn:Q; cbn.
  - split; [discriminate|]. intros H. specialize (H w (or_introl eq_refl)). congruence.
  - rewrite IH. split; [intros H w' [<-|Hw]; auto|intros H w' Hw; apply H; auto].
  - split; [discriminate|]. intros H. specialize (H w (or_introl eq_refl)). congruence.
Qed.
Lemma choices_accept E n l v : (forall w, In w l -> exists t, eq_at E n w v = Ok t) ->
  (validate_choices E n (Some l) v = None <-> exists w, In w l /\ eq_at E n w v = Ok true) /\
  (validate_choices E n (Some l) v = Some (XValid false [m_choices]) <-> forall w, In w l -> eq_at E n w v = Ok false).
Proof.
  intros Ht. unfold validate_choices. destruct (py_in E n v l) as [[|]|e] eqn:P.
  - split.
    + split; [intros _; now apply py_in_true|reflexivity].
    + split; [discriminate|]. intros H. pose proof (proj2 (py_in_false E n v l) H). congruence.
  - pose proof (proj1 (py_in_false E n v l) P) as P'. clear P. rename P' into P. split.
    + split; [discriminate|]. intros (w & Hw & Q). apply P in Hw. congruence.
    + split; auto.
  - exfalso. revert P. induction l as [|w l IH]; cbn; [discriminate|].
    destruct (Ht w (or_introl eq_refl)) as [t Q]. rewrite Q. cbn. destruct t; [discriminate|]. apply IH. intros; apply Ht; cbn; auto.
Qed.
Lemma no_choices E n v : validate_choices E n None v = None.
Proof. reflexivity. Qed.
(** For scalar choices the comparison always succeeds. *)
Lemma atoms_total E n a b : (forall c m, a <> VModel c m) -> vdepth a <= 1 -> vdepth a < n ->
  (match a with VList [] | VTuple [] | VDict [] => True | VList _ | VTuple _ | VDict _ => False | _ => True end) ->
  exists t, eq_at E n a b = Ok t.
Proof.
  intros Hm _ Hn Ha. destruct n as [|n]; [lia|]. cbn [eq_at]. unfold eq_step.
  destruct a; eauto.
  - destruct l; [|contradiction]. destruct b; eauto. destruct l; cbn; eauto.
  - destruct l; [|contradiction]. destruct b; eauto. destruct l; cbn; eauto.
  - destruct d; [|contradiction]. destruct b; eauto. destruct d; cbn; eauto.
  - exfalso. eapply Hm. reflexivity.
Qed.

Lemma sample_plain c : plain_fields (fields_of Esample c).
Proof. apply (ca_plain Esample sample_calm). Qed.
Definition home1 : pyval := VModel 0 (MD [] [(k "street", VStr (u "Main"))] [] None).
Definition home2 : pyval := VModel 0 (MD [] [] [(k "street", VStr (u "Side"))] None).
Lemma same_fields_sample : same_fields Esample (pers [(k "name", VInt 1); (k "home", home1)]) (pers [(k "home", home2); (k "name", VStr (u "x"))]).
Proof.
  apply sf_model.
  - intros x f Hf. cbn in Hf. destruct Hf as [[= <- <-]|[[= <- <-]|[[= <- <-]|[[= <- <-]|[]]]]]; reflexivity.
  - intros x v w. cbn. destruct (key_eqb x (k "name")) eqn:K; [intros [= <-]|].
    + destruct (key_eqb x (k "home")) eqn:K'; [apply key_eqb_eq in K, K'; subst; discriminate|]. intros [= <-]. apply sf_other. intros [].
    + destruct (key_eqb x (k "home")) eqn:K'; intros [= <-] [= <-]. apply sf_model.
      * intros y f Hf. cbn in Hf. destruct Hf as [[= <- <-]|[[= <- <-]|[]]]; reflexivity.
      * intros y v w. cbn. destruct (key_eqb y (k "street")); [|discriminate]. intros [= <-] [= <-]. apply sf_other. intros [].
Qed.
