(** Consequences and witnesses for application data. *)
From Verif.Model Require Import Py Core AppData.
From Verif.Spec Require Import AppDataSpec.
From Verif.Proofs Require Import DictLemmas AppDataFacts.

Lemma app_data_everywhere A (empty : A) answer model n c app :
  (forall raw partial validate, all_saw (effective empty app) (new_instance empty answer model n c raw partial validate app)) /\
  (forall d partial convert, all_saw (effective empty app) (validate_instance empty answer model n c d partial convert app)) /\
  (forall d raw, all_saw (effective empty app) (import_instance empty answer model n c d raw false app)) /\
  (forall d prim, all_saw (effective empty app) (export_instance empty answer model n c prim d app)).
Proof.
  destruct (all_calls empty model (effective empty app) answer answer (fun _ _ => eq_refl) n c app eq_refl) as (H1 & H2 & H3 & H4).
  split; [|split; [|split]]; intros; [apply H1|apply H2|apply H3|apply H4].
Qed.
Lemma results_depend A (empty : A) model f g n c app : agree_on (effective empty app) f g ->
  (forall raw partial validate,
     new_instance empty f model n c raw partial validate app = new_instance empty g model n c raw partial validate app) /\
  (forall d partial convert,
     validate_instance empty f model n c d partial convert app = validate_instance empty g model n c d partial convert app) /\
  (forall d raw, import_instance empty f model n c d raw false app = import_instance empty g model n c d raw false app) /\
  (forall d prim, export_instance empty f model n c prim d app = export_instance empty g model n c prim d app).
Proof.
  intros H. destruct (all_calls empty model (effective empty app) f g H n c app eq_refl) as (H1 & H2 & H3 & H4).
  split; [|split; [|split]]; intros; [apply H1|apply H2|apply H3|apply H4].
Qed.
Lemma assigned A (empty : A) answer model n c v : all_saw empty (assign_model empty answer model n c v).
Proof. exact (proj1 (app_data_everywhere A empty answer model n c None) v true false). Qed.

(** What exports does not validate. *)
Definition no_checks {A X} (m : @traced A X) : Prop := forall b s, In (b, s) (fst m) -> forall i, b <> Validator i /\ b <> ModelValidator i.
Lemma no_checks_each {A X Y} (f : X -> @traced A Y) l : (forall x, no_checks (f x)) -> no_checks (each f l).
Proof.
  intros H. induction l as [|x l IH]; cbn; [intros b s []|]. pose proof (H x) as Hx. destruct (f x) as [e1 y], (each f l) as [e2 ys].
  intros b s Hi. cbn in Hi. apply in_app_or in Hi as [Hi|Hi]; [exact (Hx b s Hi)|exact (IH b s Hi)].
Qed.
Lemma no_checks_fields {A} (model : nat -> mdl) (ft : ty -> tree -> @actx A -> @traced A tree) c d x :
  (forall t v, no_checks (ft t v x)) -> no_checks (export_fields model ft c d x).
Proof.
  intros H. apply no_checks_each. intros [m [t vs rq df]]. cbn [snd fst].
  destruct (dget m d) as [v|]; [|intros b s []]. specialize (H t v). destruct v; [intros b s []|..]; destruct (ft t _ x) as [e w]; exact H.
Qed.
Lemma no_checks_union {A} answer ms v (x : actx A) : no_checks (resolve_union answer ms v x).
Proof.
  unfold resolve_union. induction ms as [|m ms IH]; cbn; [intros b s []|].
  destruct (answer _ _ _).
  - intros b s [[= <- _]|[]] i. split; discriminate.
  - destruct (first_of _ ms) as [e q]. intros b s [[= <- _]|Hi] i; [split; discriminate|]. exact (IH b s Hi i).
Qed.
Lemma no_checks_call {A} answer (prim : bool) i (x : actx A) v : no_checks (call answer (if prim then Prim i else Native i) x v).
Proof. intros b s [[= <- _]|[]] j. destruct prim; split; discriminate. Qed.
Lemma no_checks_export {A} (empty : A) answer model prim : forall n t v x, no_checks (export_ty empty answer model n prim t v x).
Proof.
  induction n as [|n IH]; intros t v x; [intros b s []|]. cbn [export_ty]. destruct t as [i|[t' vs rq df]|[t' vs rq df]|c|ms].
  - apply no_checks_call.
  - destruct v; try (intros b s []). pose proof (no_checks_each (fun w => export_ty empty answer model n prim t' w x) l (fun w => IH t' w x)) as H.
    destruct (each _ l) as [e r]. exact H.
  - destruct v as [| | |l]; try (intros b s []). set (h := fun kw : key * tree => _).
    assert (H : no_checks (each h l)).
    { apply no_checks_each. intros [y w]. unfold h. cbn [snd fst]. specialize (IH t' w x). destruct (export_ty _ _ _ _ _ _ _ _). exact IH. }
    destruct (each h l) as [e r]. exact H.
  - destruct v as [| | |d]; try (intros b s []).
    pose proof (no_checks_fields model (export_ty empty answer model n prim) c d (fill_context empty x None false) (fun t v => IH t v _)) as H.
    destruct (export_fields _ _ _ _ _) as [e r]. exact H.
  - pose proof (no_checks_union answer ms v x) as H. destruct (resolve_union answer ms v x) as [e [mv|]]; [|exact H].
    cbn [tbind]. pose proof (no_checks_call answer prim (fst (fst mv)) x v) as H2. destruct (call answer _ x v) as [e' r].
    intros b s Hi. cbn in Hi. apply in_app_or in Hi as [Hi|Hi]; [exact (H b s Hi)|exact (H2 b s Hi)].
Qed.
Lemma serialize_two_steps A (empty : A) answer model n c d app : exists e e',
  fst (serialize_instance empty answer model n c d app) = e ++ e' /\
  (forall b s, In (b, s) e -> s = Some empty) /\
  (forall b s, In (b, s) e' -> s = Some (effective empty app) /\ forall i, b <> Validator i /\ b <> ModelValidator i) /\
  forall r, snd (validate_instance empty answer model n c d false true None) = Some r ->
    snd (serialize_instance empty answer model n c d app) = snd (export_instance empty answer model n c true r app).
Proof.
  unfold serialize_instance.
  pose proof (proj1 (proj2 (app_data_everywhere A empty answer model n c None)) d false true) as H1.
  destruct (validate_instance empty answer model n c d false true None) as [e v].
  pose proof (proj2 (proj2 (proj2 (app_data_everywhere A empty answer model n c app))) (match v with Some d' => d' | None => d end) true) as H2.
  pose proof (no_checks_fields model (export_ty empty answer model n true) c (match v with Some d' => d' | None => d end)
                (fill_context empty (ACtx false None false false false false) app false)
                (fun t v => no_checks_export empty answer model true n t v _)) as H3.
  unfold export_instance in H2 |- *. destruct (export_fields _ _ _ _ _) as [e' r] eqn:X.
  exists e, e'. split; [reflexivity|]. split; [exact H1|]. split; [intros b s Hi; split; [exact (H2 b s Hi)|exact (H3 b s Hi)]|].
  intros r' Hr. cbn [snd] in Hr. subst v. unfold export_instance. rewrite X. reflexivity.
Qed.

(** An order with lines; a line has a number. *)
Definition shop (c : nat) : mdl :=
  match c with
  | 0 => Mdl [(k "amount", F (LeafT 0) [0] true None)] [(k "amount", 4)]
  | _ => Mdl [(k "lines", F (ListT (F (ModelT 0) [] true None)) [] true None)] [(k "lines", 5)]
  end.
Definition shop_raw : list (key * tree) :=
  [(k "lines", Items [Entries [(k "amount", Atom 1)]; Entries [(k "amount", Atom 2)]])].
(** A validator that accepts when the application data is 7 only. *)
Definition picky (b : callback) (s : option nat) (v : tree) : option tree :=
  match b, s with Validator _, Some 7 => Some v | Validator _, _ => None | _, _ => Some v end.

Lemma import_and_validate :
  exists (answer : callback -> option nat -> tree -> option tree) model c d raw a r,
    import_instance 0 answer model 5 c d raw false (Some a) = ([(Native 0, Some a)], Some r) /\ a <> 0 /\
    snd (validate_instance 0 answer model 5 c raw false true (Some a)) = Some r /\
    In (Validator 0, Some a) (fst (import_instance 0 answer model 5 c d raw true (Some a))) /\
    In (Validator 0, Some 0) (fst (import_instance 0 answer model 5 c d raw true (Some a))) /\
    snd (import_instance 0 answer model 5 c d raw true (Some a)) = None.
Proof.
  exists picky, shop, 0, [], [(k "amount", Atom 1)], 7, [(k "amount", Atom 1)].
  split; [reflexivity|]. split; [discriminate|]. split; [reflexivity|]. cbn. intuition.
Qed.
Lemma serialize_without :
  exists (answer : callback -> option nat -> tree -> option tree) model c d a, a <> 0 /\
    ~ all_saw a (serialize_instance 0 answer model 5 c d (Some a)).
Proof.
  exists picky, shop, 0, [(k "amount", Atom 1)], 7. split; [discriminate|].
  intros H. specialize (H (Validator 0) (Some 0)). cbn in H. assert (E : Some 0 = Some 7) by (apply H; auto). discriminate E.
Qed.
