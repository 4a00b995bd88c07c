(** C106: reading data with a mapping is reading renamed data without it. *)
From Verif.Model Require Import Py Core Export Api.
From Verif.Spec Require Import ImportSpec ValidateSpec PrimitiveSpec MapSpec.
From Verif.Proofs Require Import MapFacts MapWitness.
From Verif.Conformance Require Import Sample.
Open Scope string_scope.
Open Scope list_scope.

(** Model(data, deserialize_mapping=...) is Model(renamed data): the same instance or the same error. *)
Theorem C106_init : forall E j c d e td w,
  (forall c, plain_fields (fields_of E c)) -> kw_validate w = false -> renamed E (kw_strict w) (kw_mapping w) c d e ->
  model_init E (conv_at E j) c (VDict d) (VDict td) w = model_init E (conv_at E j) c (VDict e) (VDict td) (unmapped w).
Proof. exact mapping_init. Qed.
Print Assumptions C106_init.

(** So it is with validate=True. *)
Theorem C106_init_validate : forall E j c d e w,
  (forall c, plain_fields (fields_of E c)) -> kw_validate w = true -> kw_convert w = true ->
  renamed E (kw_strict w) (kw_mapping w) c d e ->
  model_init E (conv_at E j) c (VDict d) (VDict []) w = model_init E (conv_at E j) c (VDict e) (VDict []) (unmapped w).
Proof. exact mapping_init_validate. Qed.
Print Assumptions C106_init_validate.

(** import_data(data, mapping=...) leaves the same instance and raises the same error as import_data(renamed data). *)
Theorem C106_import_data : forall E j c m d e w,
  (forall c, plain_fields (fields_of E c)) -> kw_validate w = false -> md_unsafe m = [] -> d <> [] -> e <> [] ->
  renamed E (kw_strict w) (kw_mapping w) c d e ->
  model_import_data E (conv_at E j) c m (VDict d) w = model_import_data E (conv_at E j) c m (VDict e) (unmapped w).
Proof. exact mapping_import. Qed.
Print Assumptions C106_import_data.

(** Renamed data exist for all data and all mappings. *)
Theorem C106_renamed_data_exist : forall E strict mp c d, mappable_env E ->
  (forall y v, In (y, v) d -> external v) -> exists e, renamed E strict mp c d e.
Proof. intros E strict mp c d H. exact (renamed_exists E strict H mp c d). Qed.
Print Assumptions C106_renamed_data_exist.

Example C106_case :
  mappable_env Esample /\ (forall c, plain_fields (fields_of Esample c)) /\ (forall y v, In (y, v) foreign_data -> external v) /\
  renamed Esample true foreign 1%N foreign_data own_data /\
  (exists m, model_init Esample (lib 10) 1 (VDict foreign_data) (VDict []) kw_foreign = Ok m) /\
  (exists m, model_init Esample (lib 10) 1 (VDict foreign_data) (VDict []) kwv_foreign = Ok m) /\
  (exists ex, model_init Esample (lib 10) 1 (VDict foreign_data) (VDict []) (unmapped kw_foreign) = Raise ex).
Proof.
  split; [exact sample_mappable|]. split; [exact sample_plain_fields|]. split; [exact foreign_external|]. split; [apply foreign_renamed|].
  split; [eexists; vm_compute; reflexivity|]. split; [eexists; vm_compute; reflexivity|]. eexists; vm_compute; reflexivity.
Qed.

(** A mapping for another field changes how a nested model is read: when model_mapping lists any field at all, the models inside
    the others are read with the names listed for the outer model; when it lists none, they are read without. *)
Theorem C106_nested_names_refuted : exists E j c d w w' m ex,
  kw_mapping w = Mapping [(k "street", [k "road"])] [] /\
  w' = KW (Mapping [(k "street", [k "road"])] [(k "tags", Mapping [] [])]) (kw_partial w) (kw_strict w) (kw_init_values w)
          (kw_apply_defaults w) (kw_convert w) (kw_validate w) (kw_recursive w) /\
  model_init E (conv_at E j) c (VDict d) (VDict []) w = Raise ex /\
  model_init E (conv_at E j) c (VDict d) (VDict []) w' = Ok m.
Proof.
  exists Esample, 10, 1%N, road_data, (KW road_alone true true true true true false false), (KW road_listed true true true true true false false).
  eexists; eexists. split; [reflexivity|]. split; [reflexivity|]. split; vm_compute; reflexivity.
Qed.
Print Assumptions C106_nested_names_refuted.
