(** Cases for the theorems about the functional interface. *)
From Verif.Model Require Import Py Core Export Api Functional.
From Verif.Spec Require Import ImportSpec FunctionalSpec.
From Verif.Proofs Require Import FunctionalFacts FunctionalExport ApiWitness.
From Verif.Conformance Require Import Sample.

(** A test for data without instances. *)
Fixpoint plainb (v : pyval) : bool :=
  match v with
  | VModel _ _ => false
  | VList l | VTuple l => forallb plainb l
  | VDict d => (fix go (d : list (key * pyval)) := match d with [] => true | (_, w) :: r => plainb w && go r end) d
  | _ => true
  end.
Lemma plainb_no_instances v : plainb v = true -> no_instances v.
Proof.
  intros H c m O. induction O as [|l w Hw O IH|l w Hw O IH|d n w Hw O IH].
  - discriminate H.
  - apply IH. cbn in H. rewrite forallb_forall in H. auto.
  - apply IH. cbn in H. rewrite forallb_forall in H. auto.
  - apply IH. clear IH O. cbn in H. induction d as [|[a b] d IHd]; [destruct Hw|].
    apply andb_prop in H. destruct H as [H1 H2]. destruct Hw as [[= -> ->]|Hw]; auto.
Qed.

Lemma plain_alice : no_instances (VDict alice).
Proof. now apply plainb_no_instances. Qed.

Lemma plain_sample : plain_defaults Esample.
Proof.
  intros c n f H. destruct c as [|[ [ | | ]|[ | | ]| ]]; cbn in H;
    repeat match type of H with _ \/ _ => destruct H as [H|H] end;
    try contradiction; injection H; intros <- <-; now apply plainb_no_instances.
Qed.

Lemma sample_stored : stored_fields Esample.
Proof.
  intros c. split.
  - destruct c as [|[ [ | | ]|[ | | ]| ]]; cbn; repeat constructor; cbn; intuition discriminate.
  - intros n f H. destruct c as [|[ [ | | ]|[ | | ]| ]]; cbn in H;
    repeat match type of H with _ \/ _ => destruct H as [H|H] end;
    try contradiction; injection H; intros <- <-; reflexivity.
Qed.

Lemma sample_unions : simple_unions Esample.
Proof.
  intros c n f g ms m H P T M. destruct c as [|[ [ | | ]|[ | | ]| ]]; cbn in H;
    repeat match type of H with _ \/ _ => destruct H as [H|H] end;
    try contradiction; injection H; intros <- <-; cbn in P; inversion P; subst; try discriminate T;
    try match goal with Q : part_of _ _ |- _ => inversion Q; subst; discriminate T end.
  all: cbn in T; injection T as <-; cbn in M; destruct M as [<-|[<-|[]]]; eexists; reflexivity.
Qed.

(** class Outer: inner = ModelType(Signup); Signup has validate_pin2. *)
Definition Outer : mclass := MC [ fld "inner" (o0 1) (TModel 2) ] [] [] DEFAULT None.
Definition Eouter : env :=
  Env (fun c => match c with 1%N => Outer | 2%N => Signup | _ => Nothing end) N.eqb (fun _ => []).
Definition mismatch : list (key * pyval) :=
  [(k "inner", VDict [(k "pin", VInt 1); (k "pin2", VInt 2)])].

Lemma nested_validators_skipped :
  exists E n c d m, model_init E (conv_at E n) c (VDict d) (VDict []) kw0 = Ok m /\
    (exists m' errs pd, model_validate E (conv_at E n) c m kwv = (m', Some (XData errs pd)) /\
                        dget (k "inner") errs <> None) /\
    exists d2, lo_res (fn_validate E (conv_at E n) c (VDict d) VNone VNone kwv) = Ok d2 /\ dkeys d2 = [k "inner"].
Proof.
  exists Eouter, 10%nat, 1%N, mismatch. eexists. split; [reflexivity|]. split.
  - eexists. eexists. eexists. split; [reflexivity|]. discriminate.
  - eexists. split; reflexivity.
Qed.

Definition xprim : ectx := ECtx Primitive NoRole true None.

Lemma computed_fields_missing :
  exists E n x c d m d2 e1 e2, model_init E (conv_at E n) c (VDict d) (VDict []) kw1 = Ok m /\
    lo_res (fn_convert E (conv_at E n) c (VDict d) VNone VNone kw1) = Ok d2 /\
    export_loop E (export_at E n) x c (VModel c m) = Ok e1 /\ fn_export E (export_at E n) x c (VDict d2) = Ok e2 /\
    dget (k "area") e1 = Some (VInt 9) /\ dget (k "area") e2 = None.
Proof.
  exists Esq, 10%nat, xprim, 0%N, [(k "side", VInt 3)]. do 4 eexists. repeat (split; [reflexivity|]). reflexivity.
Qed.

(** Setters receive the caller's dictionary: validating changes it. *)
Definition set_side : pyval -> pyval -> pyval * option exn := fun mut w =>
  match mut with VDict d => (VDict (dset (k "half") w d), None) | _ => (mut, None) end.
Definition Halved : mclass :=
  MC [ fld "half" (o0 0) (TLeaf int_leaf);
       (k "both", Fld (FS (o0 0) (TLeaf int_leaf)) (Some (fun _ => Ok (VInt 0))) (Some set_side)) ] [] [] DEFAULT None.
Definition Ehalf : env := Env (fun _ => Halved) N.eqb (fun _ => []).
Lemma setters_change_the_input :
  exists E n c d d2, lo_mut (fn_validate E (conv_at E n) c (VDict d) VNone VNone kwv) = VDict d2 /\
    dget (k "half") d = None /\ dget (k "half") d2 = Some (VInt 4).
Proof. exists Ehalf, 10%nat, 0%N, [(k "both", VInt 4)]. eexists. repeat split. Qed.
