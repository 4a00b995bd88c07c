(** Sample classes for mock objects. *)
From Verif.Model Require Import Py Core Mock MockObject.
From Verif.Spec Require Import EnumSpec MockSpec.
From Verif.Proofs Require Import MockObjectFacts.
Local Open Scope Z_scope.
Open Scope string_scope.

(** A generator: the state counts the choices made so far. *)
Definition counting : rng nat :=
  Rng (fun s => (Nat.even s, S s)) (fun n s => (Nat.modulo s n, S s)) (fun a b s => (a + Z.of_nat s mod (b - a + 1), S s)).
Lemma counting_fair : fair_rng counting.
Proof.
  split; cbn.
  - intros n s H. apply Nat.mod_upper_bound. lia.
  - intros a b s H. pose proof (Z.mod_pos_bound (Z.of_nat s) (b - a + 1)). lia.
Qed.
Definition name_draw (s : nat) : (mexn + pyval) * nat := (inr (VStr [97%N; 98%N]), S s).
Definition no_draw (s : nat) : (mexn + pyval) * nat := (inl MockCreation, s).
Definition k (x : string) : key := KStr (u x).
Definition req (t : mtype nat) : mfield nat := MF true VUndef None t.
(** A constructor that keeps its argument. *)
Definition keep (c : cid) (args : list (key * pyval)) : res pyval := Ok (VDict args).

(** Class 1: a person with a name, a best friend, a pet, pets, a dict.  Class 2: a pet with an owner and a kind. *)
Definition people (c : cid) : list (key * mfield nat) :=
  match c with
  | 1%N => [(k "name", req (MDraw name_draw)); (k "friend", req (MModel 1%N)); (k "pet", req (MModel 2%N));
            (k "pets", req (MList (Some 1) (Some 3) None (MModel 2%N))); (k "notes", MF false VNone None (MNone None))]
  | 2%N => [(k "owner", req (MModel 1%N)); (k "kind", MF true VUndef (Some [VStr (u "cat"); VStr (u "dog")]) (MDraw name_draw))]
  | _ => []
  end.
Lemma people_closed : closed people [1%N; 2%N].
Proof.
  intros c x f d [<-|[<-|[]]] H K; cbn in H; repeat destruct H as [[= <- <-]|H]; try destruct H; cbn in K;
    repeat match goal with H : refers _ _ |- _ => inversion H; clear H; subst end; cbn; auto.
Qed.

(** A required second field of a class that has been used gets no value. *)
Definition two_pets (c : cid) : list (key * mfield nat) :=
  match c with 1%N => [(k "cat", req (MModel 2%N)); (k "dog", req (MModel 2%N))] | _ => [] end.
Lemma second_field_skipped : exists (fields : cid -> list (key * mfield nat)) c x f,
  In (x, f) (fields c) /\ mf_required f = true /\
  forall R s, exists args, fst (mock_object R fields keep 2 [] c ([], s)) = inr (VDict args) /\ dget x args = None.
Proof.
  exists two_pets, 1%N, (k "dog"), (req (MModel 2%N)). split; [cbn; auto|]. split; [reflexivity|].
  intros R s. exists [(k "cat", VDict [])]. split; reflexivity.
Qed.
(** Two elements of a mocked list of models. *)
Definition kennel (c : cid) : list (key * mfield nat) :=
  match c with
  | 1%N => [(k "dogs", req (MList (Some 2) (Some 2) None (MModel 2%N)))]
  | 2%N => [(k "owner", req (MModel 3%N))]
  | _ => []
  end.
Lemma elements_differ : forall R, fair_rng R -> forall s,
  fst (mock_object R kennel keep 3 [] 1%N ([], s)) =
  inr (VDict [(k "dogs", VList [VDict [(k "owner", VDict [])]; VDict []])]).
Proof.
  intros R [_ F] s. cbn [mock_object kennel field_values]. unfold dmem. cbn [dget]. unfold seen. cbn [mf_type req model_class_of in_memo existsb N.eqb fst snd orb].
  unfold field_mock, req. cbn [mf_required mf_choices mf_type type_mock].
  change (range_endpoints (Some 2) (Some 2) 0 0) with (Some (2, 2)). cbn iota beta. cbn [fst snd].
  specialize (F 2 2 s ltac:(lia)). destruct (rnd_int R 2 2 s) as [n s']. cbn in F. assert (n = 2) as -> by lia. reflexivity.
Qed.
Lemma creation_error_lost : exists (fields : cid -> list (key * mfield nat)) c s,
  fst (field_mock counting (fun _ w => (inr VNone, w)) (req (MDraw no_draw)) ([], s)) = inl MockCreation /\
  fields c = [(k "name", req (MDraw no_draw))] /\
  fst (mock_object counting fields keep 1 [] c ([], s)) = inl (Other (XPy EAttributeError)).
Proof. exists (fun _ => [(k "name", req (MDraw no_draw))]), 1%N, O. repeat split. Qed.
Lemma element_choices_ignored : exists ch t w l v,
  fst (type_mock counting (fun _ w => (inr VNone, w)) (MList None None (Some ch) t) w) = inr (VList l) /\ In v l /\ ~ In v ch.
Proof.
  exists [VStr (u "cat")], (MDraw name_draw), ([], 1%nat), [VStr [97%N; 98%N]], (VStr [97%N; 98%N]).
  split; [reflexivity|]. split; [now left|]. intros [[=]|[]].
Qed.
