(** C66: nested models are handled like models on their own. *)
From Verif.Model Require Import Py Core Export Api.
From Verif.Spec Require Import ImportSpec CompoundSpec NestedSpec.
From Verif.Proofs Require Import Nested NestedWitness CompoundWitness Decide.
From Verif.Conformance Require Import Sample.
Open Scope string_scope.
Open Scope list_scope.

(** A dictionary supplied for a nested model is stored as the instance that the nested class makes of it with the same
    options and the nested mapping. *)
Theorem C66_nested_models_are_constructed_alike :
  forall E k c d td w n f c',
    defined_dict d -> NoDup (dkeys (fields_of E c)) -> kw_validate w = false -> kw_convert w = true ->
    kw_recursive w = false \/ td = [] -> In (n, f) (fields_of E c) -> has_setter f = false ->
    forall mp, nested_mapping (kw_mapping w) n mp ->
    forall v m, fs_type (fd_spec f) = TModel c' -> supplied d n (fd_spec f) (kw_mapping w) = Some (VDict v) ->
    model_init E (conv_at E (S (S k))) c (VDict d) (VDict td) w = Ok m ->
    exists m', model_init E (conv_at E k) c' (VDict v) (VDict []) (with_mapping w mp) = Ok m' /\
      chain_get m n = Some (VModel c' m').
Proof. exact nested_constructed. Qed.
Print Assumptions C66_nested_models_are_constructed_alike.

(** If the nested class rejects it, so does the outer one, with the nested errors under the name of the field. *)
Theorem C66_nested_failures_are_reported :
  forall E k c d td w n f c',
    defined_dict d -> NoDup (dkeys (fields_of E c)) -> kw_validate w = false -> kw_convert w = true ->
    kw_recursive w = false \/ td = [] -> In (n, f) (fields_of E c) -> has_setter f = false ->
    forall mp, nested_mapping (kw_mapping w) n mp ->
    forall v e, fs_type (fd_spec f) = TModel c' -> supplied d n (fd_spec f) (kw_mapping w) = Some (VDict v) ->
    model_init E (conv_at E k) c' (VDict v) (VDict []) (with_mapping w mp) = Raise e ->
    (forall m, model_init E (conv_at E (S (S k))) c (VDict d) (VDict td) w <> Ok m) /\
    (forall errs pd, model_init E (conv_at E (S (S k))) c (VDict d) (VDict td) w = Raise (XData errs pd) ->
       In (public_name n f) (dkeys errs) /\
       ((forall n' f', In (n', f') (fields_of E c) -> public_name n' f' = public_name n f -> (n', f') = (n, f)) ->
        ~ rogue_key (fields_of E c) (kw_mapping w) d (public_name n f) ->
        dget (public_name n f) errs = Some (shown_error e))).
Proof. exact nested_failure. Qed.
Print Assumptions C66_nested_failures_are_reported.

Theorem C66_lists_of_models_are_constructed_alike :
  forall E k c d td w n f c',
    defined_dict d -> NoDup (dkeys (fields_of E c)) -> kw_validate w = false -> kw_convert w = true ->
    kw_recursive w = false \/ td = [] -> In (n, f) (fields_of E c) -> has_setter f = false ->
    forall mp, nested_mapping (kw_mapping w) n mp ->
    forall g vs m, fs_type (fd_spec f) = TList g -> fs_type g = TModel c' ->
    supplied d n (fd_spec f) (kw_mapping w) = Some (VList (map VDict vs)) ->
    model_init E (conv_at E (S (S (S (S k))))) c (VDict d) (VDict td) w = Ok m ->
    exists ms, Forall2 (fun v m' => model_init E (conv_at E k) c' (VDict v) (VDict []) (with_mapping w mp) = Ok m') vs ms /\
      chain_get m n = Some (VList (map (VModel c') ms)).
Proof. exact nested_list. Qed.
Print Assumptions C66_lists_of_models_are_constructed_alike.

(** import_data with recursive=True does to a nested instance what import_data on that instance does. *)
Theorem C66_recursive_import_is_import_into_the_nested_instance :
  forall E k c m d w n f c' m0 v m' mp,
    defined_dict d -> d <> [] -> NoDup (dkeys (fields_of E c)) -> md_unsafe m = [] -> plain_fields (fields_of E c) ->
    defined_data m -> kw_validate w = false -> kw_convert w = true -> kw_recursive w = true ->
    In (n, f) (fields_of E c) -> fs_type (fd_spec f) = TModel c' -> nested_mapping (kw_mapping w) n mp ->
    chain_get m n = Some (VModel c' m0) -> supplied d n (fd_spec f) (kw_mapping w) = Some (VDict v) ->
    defined_dict v -> v <> [] -> NoDup (dkeys (fields_of E c')) -> md_unsafe m0 = [] -> plain_fields (fields_of E c') ->
    defined_data m0 -> (forall y g, In (y, g) (fields_of E c') -> leaf_members (fd_spec g)) ->
    (exists y, In y (dkeys (fields_of E c')) /\ chain_get m0 y <> None) ->
    model_import_data E (conv_at E (S (S k))) c m (VDict d) w = (m', None) ->
    exists m1 m2, model_import_data E (conv_at E k) c' m0 (VDict v) (with_mapping w mp) = (m2, None) /\
      chain_get m' n = Some (VModel c' m1) /\ forall y, In y (dkeys (fields_of E c')) -> chain_get m1 y = chain_get m2 y.
Proof. exact nested_imported. Qed.
Print Assumptions C66_recursive_import_is_import_into_the_nested_instance.

(** A nested model without a mapping of its own is given the outer model's. *)
Theorem C66_mappings_do_not_leak_refuted :
  exists E r c d w m n f c' v,
    model_init E r c (VDict d) (VDict []) w = Ok m /\ kw_validate w = false /\ kw_convert w = true /\
    In (n, f) (fields_of E c) /\ fs_type (fd_spec f) = TModel c' /\
    supplied d n (fd_spec f) (kw_mapping w) = Some (VDict v) /\
    dget n (nested_mappings (kw_mapping w)) = None /\
    forall m', model_init E r c' (VDict v) (VDict []) (with_mapping w no_mapping) <> Ok m'.
Proof. exact mapping_leaks. Qed.
Print Assumptions C66_mappings_do_not_leak_refuted.

Theorem C66_nested_instances_hold_their_fields_only_refuted :
  exists E r c m d w m' n c' m1,
    kw_recursive w = true /\ model_import_data E r c m (VDict d) w = (m', None) /\ chain_get m' n = Some (VModel c' m1) /\
    exists y, In y (dkeys (md_converted m1)) /\ ~ In y (dkeys (fields_of E c')).
Proof. exact stray_key. Qed.
Print Assumptions C66_nested_instances_hold_their_fields_only_refuted.

(** A model inside a union takes values of the instance that holds it. *)
Theorem C66_models_in_unions_are_independent_refuted :
  exists E r c m d w m' n m1, kw_mapping w = no_mapping /\ kw_recursive w = false /\ kw_validate w = false /\
    model_import_data E r c m (VDict d) w = (m', None) /\
    dget n d = Some (VDict []) /\ chain_get m' n = Some (VModel c m1) /\
    exists y v, chain_get m y = Some v /\ v <> VNone /\ chain_get m1 y = Some v.
Proof. exact union_trusted_witness. Qed.
Print Assumptions C66_models_in_unions_are_independent_refuted.

Example C66_case :
  let mp := Mapping [] [(k "home", Mapping [(k "zip", [k "plz"])] [])] in
  let w := KW mp true true true true true false true in
  let d := [(k "name", VStr (u "A")); (k "home", VDict [(k "street", VStr (u "s")); (k "plz", VInt 5)])] in
  nested_mapping mp (k "home") (Mapping [(k "zip", [k "plz"])] []) /\
  (exists m m', model_init Esample (lib 10) 1 (VDict d) (VDict []) w = Ok m /\ chain_get m (k "home") = Some (VModel 0 m') /\
     chain_get m' (k "zip") = Some (VInt 5) /\
     exists m2 m3, model_import_data Esample (lib 10) 1 m (VDict [(k "home", VDict [(k "plz", VInt 6)])]) w = (m2, None) /\
       chain_get m2 (k "home") = Some (VModel 0 m3) /\ chain_get m3 (k "zip") = Some (VInt 6) /\
       chain_get m3 (k "street") = Some (VStr (u "s"))).
Proof.
  split; [now apply nm_some|]. eexists _, _. split; [vm_compute; reflexivity|]. split; [vm_compute; reflexivity|]. split; [vm_compute; reflexivity|].
  eexists _, _. split; [vm_compute; reflexivity|]. split; [vm_compute; reflexivity|]. split; vm_compute; reflexivity.
Qed.
