(** What equality of lists, tuples, dictionaries and simple values means. *)
From Verif.Model Require Import Py Core Num Calendar Api Equality.
From Verif.Spec Require Import ImportSpec EqSpec.
From Verif.Proofs Require Import DictLemmas EqLemmas.
From Coq Require Import Lia.

Lemma list_eq_iff eq a : forall b, list_eq eq a b = Ok true <-> Forall2 (fun x y => eq x y = Ok true) a b.
Proof.
  induction a as [|x a IH]; intros [|y b]; cbn.
  - split; [constructor|reflexivity].
  - split; [discriminate|intros H; inversion H].
  - split; [discriminate|intros H; inversion H].
  - destruct (eq x y) as [t|e] eqn:D; cbn.
    + destruct t.
      * rewrite IH. split; [intros H; constructor; auto|intros H; inversion H; auto].
      * split; [discriminate|]. intros H. inversion H. congruence.
    + split; [discriminate|]. intros H. inversion H. congruence.
Qed.
Lemma seq_eq_iff eq a b :
  (if Nat.eqb (length a) (length b) then list_eq eq a b else Ok false) = Ok true <-> Forall2 (fun x y => eq x y = Ok true) a b.
Proof.
  destruct (Nat.eqb_spec (length a) (length b)) as [L|L]; [apply list_eq_iff|].
  split; [discriminate|]. intros H. exfalso. apply L. induction H; cbn; [reflexivity|]. f_equal. apply IHForall2. cbn in L. lia.
Qed.
Lemma lists_equal E n a b : eq_at E (S n) (VList a) (VList b) = Ok true <-> Forall2 (fun x y => eq_at E n x y = Ok true) a b.
Proof. apply seq_eq_iff. Qed.
Lemma tuples_equal E n a b : eq_at E (S n) (VTuple a) (VTuple b) = Ok true <-> Forall2 (fun x y => eq_at E n x y = Ok true) a b.
Proof. apply seq_eq_iff. Qed.

Lemma dict_eq_iff eq b : forall a, dict_eq eq a b = Ok true <->
  forall x v, In (x, v) a -> exists w, dget x b = Some w /\ eq v w = Ok true.
Proof.
  induction a as [|[x v] a IH]; cbn.
  - split; [intros _ ? ? []|reflexivity].
  - destruct (dget x b) as [w|] eqn:D.
    + destruct (eq v w) as [t|e] eqn:Q; cbn.
      * destruct t.
        -- rewrite IH. split; [intros H y z [K|K]; [injection K as <- <-; eauto|auto]|auto].
        -- split; [discriminate|]. intros H. destruct (H x v (or_introl eq_refl)) as (w' & D' & Q'). congruence.
      * split; [discriminate|]. intros H. destruct (H x v (or_introl eq_refl)) as (w' & D' & Q'). congruence.
    + split; [discriminate|]. intros H. destruct (H x v (or_introl eq_refl)) as (w' & D' & Q'). congruence.
Qed.
Lemma dicts_equal E n a b : NoDup (dkeys a) -> NoDup (dkeys b) ->
  (eq_at E (S n) (VDict a) (VDict b) = Ok true <->
   (forall x, In x (dkeys a) <-> In x (dkeys b)) /\
   (forall x v w, dget x a = Some v -> dget x b = Some w -> eq_at E n v w = Ok true)).
Proof.
  intros Na Nb. cbn [eq_at eq_step].
  assert (Ka : length (dkeys a) = length a) by apply map_length. assert (Kb : length (dkeys b) = length b) by apply map_length.
  destruct (Nat.eqb_spec (length a) (length b)) as [L|L].
  - rewrite dict_eq_iff. split.
    + intros H.
      assert (I : incl (dkeys a) (dkeys b)).
      { intros x Hx. apply in_map_iff in Hx as ([y v] & <- & Hx). destruct (H y v Hx) as (w & D & _).
        cbn. apply dget_keys. congruence. }
      split.
      * intros x. split; [apply I|]. apply NoDup_length_incl; [exact Na|lia|exact I].
      * intros x v w Hv Hw. apply dget_In in Hv. destruct (H x v Hv) as (w' & D & Q). congruence.
    + intros (K & V) x v I. assert (D : dget x a = Some v) by (apply In_dget; auto).
      destruct (dget x b) as [w|] eqn:W.
      * exists w. split; [reflexivity|]. eapply V; eauto.
      * exfalso. apply dget_None_keys in W. apply W, K. apply dget_keys. congruence.
  - split; [discriminate|]. intros (K & _). exfalso. apply L. rewrite <- Ka, <- Kb. apply Nat.le_antisymm.
    + apply NoDup_incl_length; [exact Na|]. intros x. apply K.
    + apply NoDup_incl_length; [exact Nb|]. intros x. apply K.
Qed.

Lemma texts_equal E n s t : eq_at E (S n) (VStr s) (VStr t) = Ok true <-> s = t.
Proof. cbn. split; [intros H; injection H as H; now destruct (pstr_eqb_spec s t)|intros ->; now destruct (pstr_eqb_spec t t)]. Qed.
Lemma ints_equal E n a b : eq_at E (S n) (VInt a) (VInt b) = Ok true <-> a = b.
Proof. cbn. split; [intros H; injection H as H; apply Z.eqb_eq in H; lia|intros ->]. f_equal. apply Z.eqb_eq. lia. Qed.
