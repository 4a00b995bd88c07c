(** C90: validate(convert=False). *)
From Verif.Model Require Import Py Core Export Api.
From Verif.Spec Require Import ImportSpec ValidateSpec SettledSpec.
From Verif.Proofs Require Import DictLemmas SettledFacts SettledWitness Decide.
From Verif.Conformance Require Import Sample.
Open Scope string_scope.
Open Scope list_scope.

(** If all values already have their type (at every depth, and no model instances are among them), leaving the conversion out
    does not change anything: not the outcome, not the errors, not the instance. *)
Theorem C90_validate : forall E j c m w, (forall n f, In (n, f) (fields_of E c) -> fd_set f = None) -> md_unsafe m = [] ->
  settled_instance E c w m ->
  snd (model_validate E (conv_at E j) c m (with_convert w true)) <> Some XFuel ->
  model_validate E (conv_at E j) c m (with_convert w false) = model_validate E (conv_at E j) c m (with_convert w true).
Proof. exact validate_settled. Qed.
Print Assumptions C90_validate.
(** In particular right after Model(data), for classes of basic types, lists and dictionaries. *)
Theorem C90_after_import : forall E j c raw w0 w m,
  (forall n f, In (n, f) (fields_of E c) -> stable_type (fd_spec f)) -> plain_fields (fields_of E c) ->
  separate_names (fields_of E c) (kw_mapping w) -> NoDup (dkeys (fields_of E c)) -> kw_apply_defaults w = false -> kw_validate w0 = false ->
  model_init E (conv_at E j) c raw (VDict []) w0 = Ok m ->
  snd (model_validate E (conv_at E j) c m (with_convert w true)) <> Some XFuel ->
  model_validate E (conv_at E j) c m (with_convert w false) = model_validate E (conv_at E j) c m (with_convert w true).
Proof. exact imported_validate. Qed.
Print Assumptions C90_after_import.

(** It is not true of instances that contain other instances: what validate() accepts ends in an AttributeError. *)
Theorem C90_nested_models_refuted : exists E c d w m m1,
  model_init E (conv_at E 10) c (VDict d) (VDict []) kw0 = Ok m /\
  model_validate E (conv_at E 10) c m (with_convert w true) = (m1, None) /\
  snd (model_validate E (conv_at E 10) c m (with_convert w false)) = Some (XPy EAttributeError).
Proof. exact nested_convert_witness. Qed.
Print Assumptions C90_nested_models_refuted.
(** import_data(data, validate=True) validates without conversion, so it fails for such classes although importing the data and
    then validating succeeds. *)
Theorem C90_import_and_validate_refuted : exists E c m d,
  (exists m1, model_import_data E (conv_at E 10) c m (VDict d) kw1 = (m1, None) /\
    exists m2, model_validate E (conv_at E 10) c m1 kw1 = (m2, None)) /\
  snd (model_import_data E (conv_at E 10) c m (VDict d) kwv) = Some (XPy EAttributeError).
Proof. exact nested_import_witness. Qed.
Print Assumptions C90_import_and_validate_refuted.

(** Scores({"name": "a", "points": {"x": [true, 2], "y": null}}): the hypotheses hold and validation succeeds. *)
Definition scores_data : pyval :=
  VDict [(k "name", VStr (u "a")); (k "points", VDict [(k "x", VList [VBool true; VInt 2]); (k "y", VNone)])].
Example C90_case : (forall n f, In (n, f) (fields_of Escores 0) -> stable_type (fd_spec f)) /\ plain_fields (fields_of Escores 0) /\
  separate_names (fields_of Escores 0) no_mapping /\ NoDup (dkeys (fields_of Escores 0)) /\
  exists m m', model_init Escores (conv_at Escores 9) 0 scores_data (VDict []) kw0 = Ok m /\
    model_validate Escores (conv_at Escores 9) 0 m (with_convert kw1 true) = (m', None) /\ md_valid m' <> [].
Proof.
  split; [apply scores_stable|]. split; [now apply plainb_ok|]. split.
  - intros n f n' f' H H'. cbn in H. destruct H as [Q|[Q|[]]]; injection Q as <- <-; intros I; cbn in I; destruct I as [<-|[]]; reflexivity.
  - split; [now apply nodupb_ok|]. do 2 eexists. split; [reflexivity|]. split; [reflexivity|discriminate].
Qed.
(** The same with a failing validator; and without conversion a value of the wrong type is accepted. *)
Example C90_case_errors :
  exists m, model_init Escores (conv_at Escores 9) 0 (VDict [(k "points", VDict [(k "x", VList [VInt (-1)])])]) (VDict []) kw0 = Ok m /\
    exists m' es pd, model_validate Escores (conv_at Escores 9) 0 m (with_convert kw1 true) = (m', Some (XData es pd)) /\ length es = 2.
Proof. eexists. split; [reflexivity|]. do 3 eexists. split; reflexivity. Qed.
Example C90_case_matters :
  exists m1 m2 e, model_validate Escores (conv_at Escores 9) 0 (MD [] [(k "name", VInt 1); (k "points", VDict [(k "x", VList [VBool true])])] [] None) (with_convert kw1 false) = (m1, None) /\
    model_validate Escores (conv_at Escores 9) 0 (MD [] [(k "name", VInt 1); (k "points", VDict [(k "x", VList [VBool true])])] [] None) (with_convert kw1 true) = (m2, e) /\ m1 <> m2.
Proof. do 3 eexists. split; [reflexivity|]. split; [reflexivity|discriminate]. Qed.
