(** Proofs about the value Undefined. *)
From Coq Require Import Lia.
From Verif.Model Require Import Py Undefined.
From Verif.Spec Require Import UndefinedSpec.

Lemma loaded_state : forall mro, descend mro -> undefined_loaded mro = US [(0%N, Some 0%N); (0%N, None)] [0%N].
Proof.
  intros mro [[r Hr] _]. unfold undefined_loaded, undefined_load, undefined_call, undefined_new.
  rewrite Hr. reflexivity.
Qed.

Lemma read_loaded : forall cs, In 0%N cs -> read_attr [(0%N, Some 0%N); (0%N, None)] cs = Some (Some 0%N).
Proof.
  induction cs as [|c r IH]; intros H; [destruct H|]. cbn [read_attr own_attr].
  destruct (N.eqb c 0) eqn:E; [reflexivity|]. apply IH. destruct H as [->|H]; [discriminate|exact H].
Qed.

Lemma new_loaded : forall mro, descend mro -> forall c,
  undefined_new mro (undefined_loaded mro) c = (undefined_loaded mro, if N.eqb c 0 then Ok the_undefined else Raise (XPy ETypeError)).
Proof.
  intros mro D c. rewrite (loaded_state _ D). unfold undefined_new. cbn [us_attr].
  rewrite read_loaded; [|apply (proj2 D)]. destruct (N.eqb c 0); reflexivity.
Qed.

Lemma step_loaded : forall mro, descend mro -> forall e, plain_event e ->
  undefined_step mro (undefined_loaded mro) e = (undefined_loaded mro, expected e).
Proof.
  intros mro D e He. destruct e as [c args|c own|o|p o]; cbn [undefined_step plain_event expected] in *.
  - unfold undefined_call. rewrite (new_loaded _ D). destruct (N.eqb c 0); cbn [andb]; [|reflexivity].
    destruct (Nat.eqb args 0); reflexivity.
  - subst own. reflexivity.
  - subst o. rewrite (loaded_state _ D) at 2. cbn [us_made nth N.to_nat the_undefined].
    rewrite (new_loaded _ D). reflexivity.
  - destruct He as [Hp ->]. apply Nat.leb_le in Hp. rewrite Hp.
    rewrite (loaded_state _ D) at 2. cbn [us_made nth N.to_nat the_undefined].
    rewrite (new_loaded _ D). reflexivity.
Qed.

Lemma run_loaded : forall mro, descend mro -> forall es, Forall plain_event es ->
  undefined_run mro (undefined_loaded mro) es = (undefined_loaded mro, map expected es).
Proof.
  intros mro D es H. induction H as [|e r He Hr IH]; [reflexivity|].
  cbn [undefined_run map]. rewrite (step_loaded _ D _ He), IH. reflexivity.
Qed.

(** Whatever a program does, the type's own attribute stays. *)
Definition keeps (s : ustate) : Prop := own_attr (us_attr s) 0 = Some (Some the_undefined).

Lemma keeps_new : forall mro, descend mro -> forall s c, keeps s -> keeps (fst (undefined_new mro s c)).
Proof.
  intros mro [[r Hr] _] s c K. unfold undefined_new.
  destruct (read_attr (us_attr s) (mro c)) as [[o|]|] eqn:R; [destruct (N.eqb c 0); exact K| |exact K].
  cbn [object_new fst]. unfold keeps. cbn [us_attr own_attr].
  destruct (N.eqb 0 c) eqn:E; [|exact K]. apply N.eqb_eq in E. subst c.
  rewrite Hr in R. cbn [read_attr] in R. unfold keeps in K. rewrite K in R. discriminate.
Qed.

Lemma keeps_step : forall mro, descend mro -> forall s e, (forall own, e <> UDefine 0 own) -> keeps s -> keeps (fst (undefined_step mro s e)).
Proof.
  intros mro D s e He K. destruct e as [c args|c own|o|p o]; cbn [undefined_step].
  - unfold undefined_call. pose proof (keeps_new _ D s c K) as K1. destruct (undefined_new mro s c). exact K1.
  - destruct own; [|exact K]. unfold keeps. cbn [fst us_attr own_attr].
    destruct (N.eqb 0 c) eqn:E; [|exact K]. apply N.eqb_eq in E. subst c. destruct (He true eq_refl).
  - pose proof (keeps_new _ D s (nth (N.to_nat o) (us_made s) 0%N) K) as K1. destruct (undefined_new mro s _). exact K1.
  - destruct (Nat.leb 2 p); [|exact K].
    pose proof (keeps_new _ D s (nth (N.to_nat o) (us_made s) 0%N) K) as K1. destruct (undefined_new mro s _). exact K1.
Qed.

Lemma keeps_run : forall mro, descend mro -> forall es s, Forall (fun e => forall own, e <> UDefine 0 own) es -> keeps s ->
  keeps (fst (undefined_run mro s es)).
Proof.
  intros mro D es. induction es as [|e r IH]; intros s H K; [exact K|].
  inversion H; subst. cbn [undefined_run].
  pose proof (keeps_step _ D s e H2 K) as K1. destruct (undefined_step mro s e) as [s1 v]. cbn [fst] in K1.
  pose proof (IH s1 H3 K1) as K2. destruct (undefined_run mro s1 r). exact K2.
Qed.

Lemma call_always : forall mro, descend mro -> forall es, Forall (fun e => forall own, e <> UDefine 0 own) es ->
  snd (undefined_call mro (fst (undefined_run mro (undefined_loaded mro) es)) 0 0) = Ok the_undefined.
Proof.
  intros mro D es H.
  assert (K : keeps (fst (undefined_run mro (undefined_loaded mro) es))).
  { apply keeps_run; auto. rewrite (loaded_state _ D). reflexivity. }
  destruct D as [[r Hr] _]. unfold undefined_call, undefined_new. rewrite Hr. cbn [read_attr].
  unfold keeps in K. rewrite K. reflexivity.
Qed.

Lemma load_gives : forall mro, descend mro -> snd (undefined_load mro) = Ok the_undefined.
Proof. intros mro [[r Hr] _]. unfold undefined_load, undefined_call, undefined_new. rewrite Hr. reflexivity. Qed.

(** Orderings. *)
Lemma undefined_left : forall answer op x, compare_as answer the_undefined op x = Raise (XPy ETypeError).
Proof. reflexivity. Qed.
Lemma undefined_right : forall answer op x, answer x op the_undefined = None -> compare_as answer x op the_undefined = Raise (XPy ETypeError).
Proof. intros answer op x H. unfold compare_as. rewrite H. cbn. destruct (N.eqb x the_undefined); reflexivity. Qed.
Lemma no_order : forall answer op x,
  compare_as answer the_undefined op x = Raise (XPy ETypeError) /\
  (answer x op the_undefined = None -> compare_as answer x op the_undefined = Raise (XPy ETypeError)).
Proof. intros. split; [apply undefined_left|apply undefined_right]. Qed.

Lemma least_fails : forall answer l a, (forall x, answer x Lt the_undefined = None) -> (forall x op y e, answer x op y = Some (Raise e) -> e = XPy ETypeError) ->
  In the_undefined (a :: l) -> l <> [] -> least answer a l = Raise (XPy ETypeError).
Proof.
  intros answer l a Hn He. revert a. assert (C : forall b a, (exists t, compare_as answer b Lt a = Ok t) \/ compare_as answer b Lt a = Raise (XPy ETypeError)).
  { intros b a. unfold compare_as. destruct (N.eqb b the_undefined); [right; reflexivity|].
    destruct (answer b Lt a) as [[t|e]|] eqn:Q; [left; now exists t|right; now rewrite (He _ _ _ _ Q)|].
    destruct (N.eqb a the_undefined); [right; reflexivity|].
    destruct (answer a (reflected Lt) b) as [[t|e]|] eqn:Q2; [left; now exists t|right; now rewrite (He _ _ _ _ Q2)|right; reflexivity]. }
  induction l as [|b r IH]; intros a I N; [now destruct N|]. cbn [least].
  destruct (N.eq_dec a the_undefined) as [->|Na]; [now rewrite (undefined_right answer Lt b (Hn b))|].
  destruct (N.eq_dec b the_undefined) as [->|Nb]; [now rewrite undefined_left|].
  destruct (C b a) as [[t Q]| Q]; rewrite Q; [|reflexivity]. cbn [rbind]. destruct I as [I|[I|I]]; try congruence.
  destruct r as [|d r]; [destruct I|]. apply IH; [right; exact I|discriminate].
Qed.
