(** C97: importing data in steps. *)
From Verif.Model Require Import Py Core Export Api.
From Verif.Spec Require Import ImportSpec StepsSpec.
From Verif.Proofs Require Import StepsFacts StepsWitness Decide.
From Verif.Conformance Require Import Sample.
Open Scope string_scope.
Open Scope list_scope.

(** Two imports one after the other do what one import does of data that supply for each field the later value. *)
Theorem C97_two_steps_are_one : forall E j c w, steppable E c -> replacing w -> forall m d1 d2 d m1 m2,
  settled m -> input d1 -> input d2 -> input d -> merged E c (kw_mapping w) d1 d2 d ->
  model_import_data E (conv_at E j) c m (VDict d1) w = (m1, None) -> model_import_data E (conv_at E j) c m1 (VDict d2) w = (m2, None) ->
  exists m3, model_import_data E (conv_at E j) c m (VDict d) w = (m3, None) /\ read_alike m3 m2.
Proof. exact steps_merged. Qed.
Print Assumptions C97_two_steps_are_one.
(** For the merge of two dictionaries that do not use different keys for the same field: *)
Theorem C97_merged_dictionaries : forall E j c w m d1 d2 m1 m2, steppable E c -> replacing w -> settled m -> input d1 -> input d2 ->
  NoDup (dkeys d2) -> one_key_each E c (kw_mapping w) d1 d2 ->
  model_import_data E (conv_at E j) c m (VDict d1) w = (m1, None) -> model_import_data E (conv_at E j) c m1 (VDict d2) w = (m2, None) ->
  exists m3, model_import_data E (conv_at E j) c m (VDict (dupdate d1 d2)) w = (m3, None) /\ read_alike m3 m2.
Proof. exact steps_update. Qed.
Print Assumptions C97_merged_dictionaries.
(** Conversely data can be split into parts that supply different fields, *)
Theorem C97_data_can_be_split : forall E j c w m d1 d2 m3, steppable E c -> replacing w -> kw_apply_defaults w = false ->
  settled m -> complete E c w m -> input d1 -> input d2 -> NoDup (dkeys d2) -> apart E c (kw_mapping w) d1 d2 ->
  model_import_data E (conv_at E (S j)) c m (VDict (dupdate d1 d2)) w = (m3, None) ->
  exists m1 m2, model_import_data E (conv_at E (S j)) c m (VDict d1) w = (m1, None) /\
    model_import_data E (conv_at E (S j)) c m1 (VDict d2) w = (m2, None) /\ read_alike m2 m3.
Proof. exact steps_split. Qed.
Print Assumptions C97_data_can_be_split.
(** which can be imported in either order. *)
Theorem C97_either_order : forall E j c w m d1 d2 m1 m2, steppable E c -> replacing w -> kw_apply_defaults w = false ->
  settled m -> complete E c w m -> input d1 -> input d2 -> NoDup (dkeys d2) -> apart E c (kw_mapping w) d1 d2 ->
  model_import_data E (conv_at E (S j)) c m (VDict d1) w = (m1, None) -> model_import_data E (conv_at E (S j)) c m1 (VDict d2) w = (m2, None) ->
  exists m1' m2', model_import_data E (conv_at E (S j)) c m (VDict d2) w = (m1', None) /\
    model_import_data E (conv_at E (S j)) c m1' (VDict d1) w = (m2', None) /\ read_alike m2' m2.
Proof. exact steps_swap. Qed.
Print Assumptions C97_either_order.
(** Importing the same data again succeeds and changes nothing. *)
Theorem C97_again : forall E j c w, steppable E c -> replacing w -> forall m d m1, settled m -> input d ->
  model_import_data E (conv_at E j) c m (VDict d) w = (m1, None) ->
  exists m2, model_import_data E (conv_at E j) c m1 (VDict d) w = (m2, None) /\ read_alike m2 m1.
Proof. exact step_again. Qed.
Print Assumptions C97_again.

(** With different keys for the same field the merge of the dictionaries is another input: the preferred key wins, not the later one. *)
Theorem C97_later_key_wins_refuted : exists E c w m d1 d2 m1 m2 m3 n, steppable E c /\ replacing w /\ settled m /\ input d1 /\ input d2 /\ NoDup (dkeys d2) /\
  model_import_data E (conv_at E 9) c m (VDict d1) w = (m1, None) /\ model_import_data E (conv_at E 9) c m1 (VDict d2) w = (m2, None) /\
  model_import_data E (conv_at E 9) c m (VDict (dupdate d1 d2)) w = (m3, None) /\
  chain_get m2 n = Some (VInt 2) /\ chain_get m3 n = Some (VInt 1).
Proof. exact alias_witness. Qed.
Print Assumptions C97_later_key_wins_refuted.
(** With recursive=True the steps update nested instances, while the merge of the dictionaries has the later nested data only. *)
Theorem C97_recursive_refuted : exists E c w m d1 d2 m1 m2 m3 n h2 h3, steppable E c /\ kw_validate w = false /\ kw_recursive w = true /\
  settled m /\ input d1 /\ input d2 /\ NoDup (dkeys d2) /\ one_key_each E c (kw_mapping w) d1 d2 /\
  model_import_data E (conv_at E 9) c m (VDict d1) w = (m1, None) /\ model_import_data E (conv_at E 9) c m1 (VDict d2) w = (m2, None) /\
  model_import_data E (conv_at E 9) c m (VDict (dupdate d1 d2)) w = (m3, None) /\
  chain_get m2 n = Some (VModel 0 h2) /\ chain_get m3 n = Some (VModel 0 h3) /\
  chain_get h2 (k "zip") = Some (VInt 7) /\ chain_get h3 (k "zip") = Some (VInt 1).
Proof. exact deep_witness. Qed.
Print Assumptions C97_recursive_refuted.

(** A person with name, age and home; first the age and the tags are imported, then another home, with the settings of import_data. *)
Example C97_case : steppable Esample 1 /\ replacing kw1 /\ kw_apply_defaults kw1 = false /\ settled ann0 /\ complete Esample 1 kw1 ann0 /\
  input step1 /\ input step2 /\ NoDup (dkeys step2) /\ apart Esample 1 (kw_mapping kw1) step1 step2 /\
  exists m1 m2, model_import_data Esample (lib 9) 1 ann0 (VDict step1) kw1 = (m1, None) /\
    model_import_data Esample (lib 9) 1 m1 (VDict step2) kw1 = (m2, None) /\
    chain_get m2 (k "age") = Some (VInt 1) /\ chain_get m2 (k "name") = Some (VStr (u "Ann")) /\ chain_get m2 (k "tags") = Some (VList [VInt 4]) /\
    exists h, chain_get m2 (k "home") = Some (VModel 0 h) /\ chain_get h (k "zip") = Some (VInt 7).
Proof.
  split; [apply sample_steppable|]. split; [split; reflexivity|]. split; [reflexivity|]. split; [split; [reflexivity|now apply defined_data_ok]|].
  split; [exact ann_complete|].
  split; [split; [intros y; cbn; repeat destruct (key_eqb y _); discriminate|discriminate]|].
  split; [split; [intros y; cbn; repeat destruct (key_eqb y _); discriminate|discriminate]|].
  split; [now apply nodupb_ok|]. split; [exact steps_apart|].
  do 2 eexists. split; [vm_compute; reflexivity|]. split; [vm_compute; reflexivity|]. repeat split; try reflexivity. eexists. split; reflexivity.
Qed.
