(** C89: allowing missing and unknown fields does not change what is accepted anyway. *)
From Verif.Model Require Import Py Core Export Api.
From Verif.Spec Require Import OptionSpec.
From Verif.Proofs Require Import OptionFacts OptionWitness.
From Verif.Conformance Require Import Sample.
Open Scope string_scope.
Open Scope list_scope.

(** [laxer w w']: [w'] is [w] with partial=True or strict=False or both, or [w] itself.
    A construction that succeeds makes the same instance with the laxer options; with validate=True this is claimed for strict
    only. *)
Theorem C89_construction : forall E, calm_getters E -> forall j c raw td w w' m, laxer w w' ->
  (kw_validate w = true -> no_setters E /\ kw_partial w' = kw_partial w) ->
  model_init E (conv_at E j) c raw td w = Ok m -> model_init E (conv_at E j) c raw td w' = Ok m.
Proof. exact init_pass. Qed.
Print Assumptions C89_construction.
(** The same for import_data, with and without validation, *)
Theorem C89_import_data : forall E, calm_getters E -> forall j c m raw w w' m', laxer w w' ->
  (kw_validate w = true -> no_setters E) ->
  model_import_data E (conv_at E j) c m raw w = (m', None) -> model_import_data E (conv_at E j) c m raw w' = (m', None).
Proof. exact import_data_pass. Qed.
Print Assumptions C89_import_data.
(** and validate(), when there is something new to validate. *)
Theorem C89_validate : forall E, calm_getters E -> forall j c m w w' m', laxer w w' -> no_setters E -> md_converted m <> [] ->
  model_validate E (conv_at E j) c m w = (m', None) -> model_validate E (conv_at E j) c m w' = (m', None).
Proof. exact validate_pass. Qed.
Print Assumptions C89_validate.
(** Without that it is not true: validate() converts the data of a lazily created instance, validate(partial=True) leaves
    it as it is. *)
Theorem C89_lazy_instances_refuted : exists E c m w w' m1, calm_getters E /\ no_setters E /\ laxer w w' /\
  model_validate E (conv_at E 9) c m w = (m1, None) /\ model_validate E (conv_at E 9) c m w' <> (m1, None).
Proof. exact lazy_option_witness. Qed.
Print Assumptions C89_lazy_instances_refuted.

(** The strictest options: everything required, nothing unknown. *)
Definition kw_exact (v : bool) : kwargs := KW no_mapping false true true true true v false.
Definition kw_loose (v : bool) : kwargs := KW no_mapping true false true true true v false.
Example C89_case_construction : calm_getters Esample /\ laxer (kw_exact false) (kw_loose false) /\
  exists m, model_init Esample (lib 10) 1 (VDict alice) (VDict []) (kw_exact false) = Ok m.
Proof. split; [apply sample_calm|]. split; [exists true, false; auto|]. eexists. reflexivity. Qed.
(** The options do matter: for the nested address as well. *)
Example C89_case_matters :
  (exists e, model_init Esample (lib 10) 1 (VDict [(k "name", VNone); (k "home", VDict [(k "colour", VNone)])]) (VDict []) (kw_exact false) = Raise e) /\
  (exists m, model_init Esample (lib 10) 1 (VDict [(k "name", VNone); (k "home", VDict [(k "colour", VNone)])]) (VDict []) (kw_loose false) = Ok m).
Proof. split; eexists; reflexivity. Qed.
Example C89_case_import_data : no_setters Esample /\ laxer (kw_exact true) (kw_loose true) /\
  exists m', model_import_data Esample (lib 10) 1 (MD [] [(k "age", VInt 3)] [] None)
    (VDict [(k "name", VStr (u "Alice")); (k "tags", VList [VInt 1; VBool true])]) (kw_exact true) = (m', None).
Proof. split; [apply sample_no_setters|]. split; [exists true, false; auto|]. eexists. reflexivity. Qed.
Example C89_case_validate :
  exists m', model_validate Esample (lib 10) 1 (MD [] [(k "name", VStr (u "Al")); (k "home", VDict [(k "street", VStr (u "Main"))])] [] None) (kw_exact true) = (m', None).
Proof. eexists. reflexivity. Qed.
