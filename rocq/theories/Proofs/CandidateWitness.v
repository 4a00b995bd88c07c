(** Hierarchies with claim hooks (C74). *)
From Verif.Model Require Import Py Core Export Meta.
From Verif.Spec Require Import CompoundSpec MetaSpec CandidateSpec.
From Verif.Proofs Require Import DictLemmas MetaWitness Candidates.
From Verif.Conformance Require Import Sample.

(** A hook that claims mappings with this key. *)
Definition claims_key (x : string) : pyval -> res bool := fun v =>
  match v with VDict d => Ok (dmem (k x) d) | _ => Ok false end.

Definition family (P : program) (decl : list (list cid * option (pyval -> res bool))) : program :=
  fold_left (fun P d => define_class P (fst d) [] [] (snd d)) decl P.

Fixpoint family_ok (P : program) (decl : list (list cid * option (pyval -> res bool))) : bool :=
  match decl with [] => true | d :: r => bases_ok P (fst d) && family_ok (define_class P (fst d) [] [] (snd d)) r end.

Lemma family_made decl : forall P, made P -> family_ok P decl = true -> made (family P decl).
Proof.
  induction decl as [|d r IH]; intros P M E; [exact M|]. cbn in E. apply andb_true_iff in E. destruct E as [E1 E2].
  apply (IH (define_class P (fst d) [] [] (snd d))); [|exact E2].
  apply made_class; [exact M|now apply bases_ok_sound|]. apply body_ok_sound. reflexivity.
Qed.

(** class Shape(Model); class Circle(Shape), which claims [radius]; class Square(Shape), which claims [side]. *)
Definition shapes : program :=
  family program0 [([0%N], None); ([1%N], Some (claims_key "radius")); ([1%N], Some (claims_key "side"))].
(** class Base(Model); class Left(Base); class Right(Base); class Both(Left, Right), which claims [both]. *)
Definition diamond : program :=
  family program0 [([0%N], None); ([1%N], None); ([1%N], None); ([2%N; 3%N], Some (claims_key "both"))].

Lemma shapes_made : made shapes.
Proof. apply family_made; [constructor|vm_compute; reflexivity]. Qed.
Lemma diamond_made : made diamond.
Proof. apply family_made; [constructor|vm_compute; reflexivity]. Qed.

Definition singleb (P : program) : bool := forallb (fun k => Nat.leb (length (cl_bases k)) 1) (p_classes P).
Lemma singleb_sound P : singleb P = true -> single P.
Proof.
  intros E c kl K. unfold singleb in E. rewrite forallb_forall in E. apply Nat.leb_le, E. unfold class_at in K.
  now apply nth_error_In in K.
Qed.

(** The claim hook of a class as the class statement gave it. *)
Definition answersb (P : program) (v : pyval) : bool :=
  forallb (fun kl => match cl_claim kl with Some cl => match cl v with Ok _ => true | Raise _ => false end | None => true end)
          (p_classes P).
Lemma answers_sound P b v : answersb P v = true -> hooks_answer P b v.
Proof.
  intros E c cl K _ C. unfold answersb in E. rewrite forallb_forall in E. cbn in C. destruct (class_at P c) as [kl|] eqn:A; [|congruence].
  unfold class_at in A. apply nth_error_In in A. specialize (E kl A). cbn in C. rewrite C in E. destruct (cl v); [eauto|discriminate].
Qed.

Definition the_claim (P : program) (v : pyval) (c : cid) : bool :=
  match mc_claim (e_class (env_of P) c) with Some cl => match cl v with Ok true => true | _ => false end | None => false end.
Lemma the_claim_iff P v c : the_claim P v c = true <-> claims (env_of P) v c.
Proof.
  unfold the_claim, claims. split.
  - destruct (mc_claim _) as [cl|]; [|discriminate]. destruct (cl v) as [[|]|] eqn:E; try discriminate. intros _. eauto.
  - intros (cl & -> & ->). reflexivity.
Qed.

Definition onlyb (P : program) (v : pyval) (c : cid) : bool :=
  forallb (fun d => negb (the_claim P v d) || N.eqb d c) (map N.of_nat (seq 0 (length (p_classes P)))).
Lemma only_sound P v c : onlyb P v c = true -> forall d, class_at P d <> None -> claims (env_of P) v d -> d = c.
Proof.
  intros E d K C. unfold onlyb in E. rewrite forallb_forall in E. unfold class_at in K. apply nth_error_Some in K.
  specialize (E d). rewrite (proj2 (the_claim_iff P v d) C) in E. cbn [negb orb] in E. apply N.eqb_eq, E.
  apply in_map_iff. exists (N.to_nat d). split; [apply Nnat.N2Nat.id|]. apply in_seq. Lia.lia.
Qed.

(** Only one class claims the value, and the choice fails. *)
Lemma diamond_witness : exists P b c v, made P /\ class_at P c <> None /\ derived P c b /\ hooks_answer P b v /\
  claims (env_of P) v c /\ (forall d, class_at P d <> None -> claims (env_of P) v d -> d = c) /\
  find_model (env_of P) (poly_of b) v = Raise (XPy EGenericException).
Proof.
  exists diamond, 1%N, 4%N, (VDict [(k "both", VInt 1)]). split; [exact diamond_made|]. split; [vm_compute; discriminate|].
  split. { eapply derived_base; [reflexivity|now left|]. eapply derived_base; [reflexivity|now left|constructor]. }
  split; [apply answers_sound; vm_compute; reflexivity|]. split; [apply the_claim_iff; vm_compute; reflexivity|].
  split; [apply only_sound; vm_compute; reflexivity|]. vm_compute. reflexivity.
Qed.

(** So it does if a class is listed beside its base. *)
Lemma overlap_witness : exists P cs c v, made P /\ single P /\ In c cs /\ NoDup cs /\
  claims (env_of P) v c /\ (forall d, class_at P d <> None -> claims (env_of P) v d -> d = c) /\
  find_model (env_of P) (Poly cs true None) v = Raise (XPy EGenericException) /\
  find_model (env_of P) (Poly cs false None) v = Ok c.
Proof.
  exists shapes, [1%N; 2%N], 2%N, (VDict [(k "radius", VInt 1)]). split; [exact shapes_made|].
  split; [apply singleb_sound; vm_compute; reflexivity|]. split; [cbn; auto|].
  split; [repeat constructor; cbn; intuition discriminate|].
  split; [apply the_claim_iff; vm_compute; reflexivity|]. split; [apply only_sound; vm_compute; reflexivity|].
  split; vm_compute; reflexivity.
Qed.
