(** validate(convert=False): examples and the exception. *)
From Verif.Model Require Import Py Core Export Api.
From Verif.Spec Require Import ImportSpec ValidateSpec SettledSpec.
From Verif.Proofs Require Import DictLemmas SettledFacts.
From Verif.Conformance Require Import Sample.
Open Scope string_scope.
Open Scope list_scope.

Theorem imported_validate E j c raw w0 w m :
  (forall n f, In (n, f) (fields_of E c) -> stable_type (fd_spec f)) -> plain_fields (fields_of E c) ->
  separate_names (fields_of E c) (kw_mapping w) -> NoDup (dkeys (fields_of E c)) -> kw_apply_defaults w = false -> kw_validate w0 = false ->
  model_init E (conv_at E j) c raw (VDict []) w0 = Ok m ->
  snd (model_validate E (conv_at E j) c m (with_convert w true)) <> Some XFuel ->
  model_validate E (conv_at E j) c m (with_convert w false) = model_validate E (conv_at E j) c m (with_convert w true).
Proof.
  intros St Pl Sep Nd Ap V0 I. destruct (imported_settled E j c raw w0 w m St Pl Sep Nd Ap V0 I) as [U S].
  apply validate_settled; [|exact U|exact S]. intros n f J. exact (proj2 (Pl n f J)).
Qed.
(** An instance that contains another one: validate() is content, without conversion it ends in an AttributeError. *)
Lemma nested_convert_witness : exists E c d w m m1,
  model_init E (conv_at E 10) c (VDict d) (VDict []) kw0 = Ok m /\
  model_validate E (conv_at E 10) c m (with_convert w true) = (m1, None) /\
  snd (model_validate E (conv_at E 10) c m (with_convert w false)) = Some (XPy EAttributeError).
Proof. exists Esample, 1%N, alice, kw1. do 2 eexists. repeat split; reflexivity. Qed.
(** So import_data with validate=True cannot be used with such classes. *)
Lemma nested_import_witness : exists E c m d,
  (exists m1, model_import_data E (conv_at E 10) c m (VDict d) kw1 = (m1, None) /\
    exists m2, model_validate E (conv_at E 10) c m1 kw1 = (m2, None)) /\
  snd (model_import_data E (conv_at E 10) c m (VDict d) kwv) = Some (XPy EAttributeError).
Proof. exists Esample, 1%N, md_empty, alice. split; [eexists; split; [reflexivity|eexists; reflexivity]|reflexivity]. Qed.

(** class Scores: name = BaseType(required=True); points = DictType(ListType(Int with a validator)) *)
Definition Scores : mclass :=
  MC [ fld "name" (o_req (o0 0)) (TLeaf any_leaf);
       fld "points" (o0 0) (TDict (FS (o_inner (o0 0)) (TList (FS (o_val [non_negative] (o_inner (o0 0))) (TLeaf int_leaf)))) (fun y => Ok y)) ]
     [] [] DEFAULT None.
Definition Escores : env := Env (fun _ => Scores) N.eqb (fun _ => []).
Lemma scores_stable : forall n f, In (n, f) (fields_of Escores 0) -> stable_type (fd_spec f).
Proof.
  assert (I : forall o, stable_type (FS o (TLeaf int_leaf))).
  { intros o. constructor. intros [] w; cbn; try discriminate; intros [= <-]; reflexivity. }
  intros n f H. cbn in H. destruct H as [Q|[Q|[]]]; injection Q as <- <-; cbn.
  - constructor. now intros v w [= <-].
  - constructor; [now intros y z [= <-]|]. constructor. apply I.
Qed.
