(** C46: recursion depth.

    [conv_at E n] are the library's converters with at most [n] nested calls, [Raise XFuel] is RecursionError.
    [calm_env E]: no computed fields, the user's own functions do not exhaust the stack, and defaults of compound
    fields (and unions with compound members) are absent or scalar. *)
From Verif.Model Require Import Py Core Export Api.
From Verif.Spec Require Import ImportSpec FuelSpec.
From Verif.Proofs Require Import Fuel FuelBound FuelWitness.
From Verif.Conformance Require Import Sample.
Open Scope string_scope.
Open Scope list_scope.

(** ** The result does not depend on the limit once it suffices *)
Theorem C46_limit_does_not_matter_construct :
  forall E n m c raw trusted w, n <= m -> settles (model_init E (conv_at E n) c raw trusted w) ->
    model_init E (conv_at E m) c raw trusted w = model_init E (conv_at E n) c raw trusted w.
Proof. exact init_stable. Qed.
Print Assumptions C46_limit_does_not_matter_construct.

Theorem C46_limit_does_not_matter_validate :
  forall E n m c d w, n <= m -> settles_opt (snd (model_validate E (conv_at E n) c d w)) ->
    model_validate E (conv_at E m) c d w = model_validate E (conv_at E n) c d w.
Proof. exact validate_stable. Qed.
Print Assumptions C46_limit_does_not_matter_validate.

Theorem C46_limit_does_not_matter_import :
  forall E n m c d raw w, n <= m -> settles_opt (snd (model_import_data E (conv_at E n) c d raw w)) ->
    model_import_data E (conv_at E m) c d raw w = model_import_data E (conv_at E n) c d raw w.
Proof. exact import_stable. Qed.
Print Assumptions C46_limit_does_not_matter_import.

Theorem C46_limit_does_not_matter_export :
  forall E n m c d x, n <= m -> settles (model_export_top E (export_at E n) c d x) ->
    model_export_top E (export_at E m) c d x = model_export_top E (export_at E n) c d x.
Proof. exact export_stable. Qed.
Print Assumptions C46_limit_does_not_matter_export.

(** ** Four calls per level of nesting suffice *)
Theorem C46_depth_of_construction :
  forall E n c raw trusted w, calm_env E -> kw_validate w = false ->
    4 * vdepth raw + 4 <= n -> 4 * vdepth (VDict trusted) + 8 <= n ->
    settles (model_init E (conv_at E n) c raw (VDict trusted) w).
Proof. exact init_bound. Qed.
Print Assumptions C46_depth_of_construction.

Theorem C46_depth_of_validate :
  forall E n c m w, calm_env E -> 4 * vdepth (VModel c m) + 4 <= n ->
    settles_opt (snd (model_validate E (conv_at E n) c m w)).
Proof. exact validate_bound. Qed.
Print Assumptions C46_depth_of_validate.

Theorem C46_depth_of_import :
  forall E n c m raw w, calm_env E -> kw_validate w = false ->
    4 * vdepth raw + 4 <= n -> 4 * vdepth (VModel c m) + 4 <= n ->
    settles_opt (snd (model_import_data E (conv_at E n) c m raw w)).
Proof. exact import_bound. Qed.
Print Assumptions C46_depth_of_import.

(** Whatever the options, some limit suffices: no input makes the library recurse for ever. *)
Theorem C46_construction_terminates :
  forall E c raw trusted w, calm_env E ->
    exists n0, forall n, n0 <= n -> settles (model_init E (conv_at E n) c raw trusted w).
Proof. exact init_exists. Qed.
Print Assumptions C46_construction_terminates.

Theorem C46_import_terminates :
  forall E c m raw w, calm_env E ->
    exists n0, forall n, n0 <= n -> settles_opt (snd (model_import_data E (conv_at E n) c m raw w)).
Proof. exact import_exists. Qed.
Print Assumptions C46_import_terminates.

Theorem C46_export_terminates :
  forall E c d, calm_env E ->
    exists n0, forall n x, n0 <= n -> settles (model_export_top E (export_at E n) c d x).
Proof. exact export_top_exists. Qed.
Print Assumptions C46_export_terminates.

Example C46_case : calm_env Esample /\ vdepth (VDict alice) = 2 /\
  settles (model_init Esample (conv_at Esample 12) 1 (VDict alice) (VDict []) kw0) /\
  ~ settles (model_init Esample (conv_at Esample 3) 1 (VDict alice) (VDict []) kw0).
Proof.
  split; [exact sample_calm|]. split; [reflexivity|]. split; [discriminate|]. intros H. now apply H.
Qed.

(** ** Without scalar defaults there is no bound *)
(** [class Chain(Model): next = ModelType('Chain', default={})]: [Chain()] never returns. *)
Theorem C46_cyclic_default_never_terminates :
  forall n, model_init Echain (conv_at Echain n) 0 VNone (VDict []) kw0 = Raise XFuel.
Proof. exact chain_never_settles. Qed.
Print Assumptions C46_cyclic_default_never_terminates.
