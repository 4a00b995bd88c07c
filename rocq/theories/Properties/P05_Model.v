(** C19, C20, C47-C50: model instances as objects and as mappings.

    [model_getitem E c m n] is reading [m.n] or [m["n"]] for an instance [m] of class [c], [model_setitem] and
    [model_delitem] are [m.n = v] and [del m.n]: the new state and the exception raised, if any. *)
From Verif.Model Require Import Py Core Export Api.
From Verif.Spec Require Import CallSpec ImportSpec ValidateSpec ApiSpec.
From Verif.Proofs Require Import DictLemmas ImportLemmas ApiLemmas ImportApi ValidateLemmas ApiMore ApiWitness Decide ValidateWitness Tight.
From Verif.Conformance Require Import Sample.
From Verif.Properties Require Import P02_Validate.
Open Scope string_scope.
Open Scope list_scope.

(** ** C19 *)
(** After a successful [m.x = v] the field reads the stored form of [v] (not for lazily stored fields). *)
Theorem C19_assigned_value_is_read :
  forall E r c m x v f m', ordinary E c x f -> dget x (md_unsafe m) = None ->
    model_setitem E r c m x v = (m', None) ->
    exists w, cv_pre r (fd_spec f) v = Ok w /\ chain_get m' x = Some w /\
      (w <> VUndef -> model_getitem E c m' x = Ok w).
Proof. exact set_reads. Qed.
Print Assumptions C19_assigned_value_is_read.

(** The stored form: the value itself; for a model field a dictionary becomes the instance [Model(dict)] gives. *)
Theorem C19_stored_form :
  forall E j f v w, cv_pre (conv_at E (S j)) f v = Ok w <-> stored_form E (conv_at E j) (fs_type f) v w.
Proof. exact pre_stored. Qed.
Print Assumptions C19_stored_form.

Theorem C19_assignment_leaves_other_fields_alone :
  forall E r c m x v f m' oe y g, ordinary E c x f -> ordinary E c y g -> y <> x ->
    model_setitem E r c m x v = (m', oe) -> model_getitem E c m' y = model_getitem E c m y.
Proof. exact set_others. Qed.
Print Assumptions C19_assignment_leaves_other_fields_alone.

Theorem C19_failed_assignment_changes_nothing :
  forall E r c m x v f m' e, ordinary E c x f ->
    model_setitem E r c m x v = (m', Some e) -> m' = m /\ cv_pre r (fd_spec f) v = Raise e.
Proof. exact set_failed. Qed.
Print Assumptions C19_failed_assignment_changes_nothing.

(** [del m.x] before any validation: the field has no value afterwards, the others are as before; an absent
    value gives KeyError. *)
Theorem C19_deleted_field_has_no_value :
  forall E c m x f m' oe, ordinary E c x f -> proper m -> unvalidated m ->
    model_delitem E c m x = (m', oe) -> chain_get m' x = None.
Proof. exact del_reads. Qed.
Print Assumptions C19_deleted_field_has_no_value.

Theorem C19_delete_outcome :
  forall E c m x f m' oe, ordinary E c x f -> unvalidated m -> model_delitem E c m x = (m', oe) ->
    (chain_get m x <> None -> oe = None) /\ (chain_get m x = None -> oe = Some (XPy EKeyError) /\ m' = m).
Proof. exact del_outcome. Qed.
Print Assumptions C19_delete_outcome.

Theorem C19_delete_leaves_other_fields_alone :
  forall E c m x f m' oe y g, ordinary E c x f -> ordinary E c y g -> y <> x ->
    model_delitem E c m x = (m', oe) -> model_getitem E c m' y = model_getitem E c m y.
Proof. exact del_others. Qed.
Print Assumptions C19_delete_leaves_other_fields_alone.

(** A field without value raises UndefinedValueError when read. *)
Theorem C19_reading :
  forall E c m n f, ordinary E c n f ->
    model_getitem E c m n = match chain_get m n with
                            | Some v => if is_undef v then Raise (XPy EUndefinedValueError) else Ok v
                            | None => Raise (XPy EUndefinedValueError)
                            end.
Proof. exact ordinary_getitem. Qed.
Print Assumptions C19_reading.

(** Unknown names: nothing is stored or deleted. *)
Theorem C19_unknown_names :
  forall E r c m n v, ~ In n (dkeys (fields_of E c)) ->
    model_setitem E r c m n v = (m, Some (XPy EUnknownFieldError)) /\ model_delitem E c m n = (m, Some (XPy EUnknownFieldError)).
Proof. exact set_unknown. Qed.
Print Assumptions C19_unknown_names.

(** Computed fields: read through the getter, not deletable, not assignable without a setter ... *)
Theorem C19_computed_fields :
  forall E r c m n f g, dget n (fields_of E c) = Some f -> fd_get f = Some g ->
    model_delitem E c m n = (m, Some (XPy EAttributeError)) /\
    (forall v, v <> VUndef -> (model_getitem E c m n = Ok v <-> g (VModel c m) = Ok v)) /\
    (forall v, fd_set f = None -> model_setitem E r c m n v = (m, Some (XPy EAttributeError))).
Proof. exact computed_access. Qed.
Print Assumptions C19_computed_fields.

(** ... with one, assignment does what the setter does with the stored form of the value. *)
Theorem C19_settable_computed_fields :
  forall E r c m n f g s v, dget n (fields_of E c) = Some f -> fd_get f = Some g -> fd_set f = Some s ->
    (forall e, cv_pre r (fd_spec f) v = Raise e -> model_setitem E r c m n v = (m, Some e)) /\
    (forall w m' oe, cv_pre r (fd_spec f) v = Ok w -> s (VModel c m) w = (VModel c m', oe) ->
       model_setitem E r c m n v = (m', oe)).
Proof. exact computed_set. Qed.
Print Assumptions C19_settable_computed_fields.

Example C19_case_computed :
  model_getitem Esq 0 sq3 (k "area") = Ok (VInt 9) /\
  model_setitem Esq (lib 5) 0 sq3 (k "area") (VInt 1) = (sq3, Some (XPy EAttributeError)) /\
  model_setitem Esq (lib 5) 0 sq3 (k "twice") (VInt 8) = (MD [] [(k "side", VInt 4)] [] None, None) /\
  model_delitem Esq 0 sq3 (k "twice") = (sq3, Some (XPy EAttributeError)) /\
  model_setitem Esq (lib 5) 0 sq3 (k "colour") (VInt 8) = (sq3, Some (XPy EUnknownFieldError)).
Proof. repeat split. Qed.

(** On an instance with lazily stored data an assignment has no visible effect. *)
Theorem C19_lazy_assignment_is_hidden_refuted :
  exists E r c m x v f m', ordinary E c x f /\ model_setitem E r c m x v = (m', None) /\
    model_getitem E c m x = Ok (VInt 1) /\ model_getitem E c m' x = Ok (VInt 1) /\ v = VInt 5.
Proof. exact lazy_assignment_lost. Qed.
Print Assumptions C19_lazy_assignment_is_hidden_refuted.

(** Assigning a dictionary to [home] and then deleting [age]. *)
Example C19_case :
  (exists f, ordinary Esample 1 (k "home") f) /\ proper bob /\ unvalidated bob /\
  exists m1 m2, model_setitem Esample (lib 8) 1 bob (k "home") (VDict [(k "street", VStr (u "Elm"))]) = (m1, None) /\
    model_getitem Esample 1 m1 (k "home") =
      Ok (VModel 0 (MD [] [(k "street", VStr (u "Elm")); (k "zip", VNone)] [] None)) /\
    model_delitem Esample 1 m1 (k "age") = (m2, None) /\
    model_getitem Esample 1 m2 (k "age") = Raise (XPy EUndefinedValueError) /\
    model_getitem Esample 1 m2 (k "name") = Ok (VStr (u "Bob")) /\
    model_setitem Esample (lib 8) 1 bob (k "home") (VInt 3) = (bob, Some (XConv [m_presetattr])).
Proof.
  split; [eexists; split; reflexivity|]. split; [repeat split; apply nodupb_ok; reflexivity|].
  split; [reflexivity|]. do 2 eexists. repeat split; reflexivity.
Qed.

(** ** C20 *)
(** keys() lists, in declaration order, exactly the fields that hold a value and are not settable computed fields. *)
Theorem C20_keys_in_declaration_order :
  forall E c m, subseq (model_keys E c m) (dkeys (fields_of E c)).
Proof. exact keys_in_order. Qed.
Print Assumptions C20_keys_in_declaration_order.

Theorem C20_keys_exact :
  forall E c m n, NoDup (dkeys (fields_of E c)) ->
    (In n (model_keys E c m) <->
     chain_get m n <> None /\ exists f, dget n (fields_of E c) = Some f /\ fd_set f = None).
Proof. exact keys_exact. Qed.
Print Assumptions C20_keys_exact.

(** items() pairs the keys with the values, each being the value read. *)
Theorem C20_items_keys : forall E c m, map fst (model_items E c m) = model_keys E c m.
Proof. exact items_keys. Qed.
Print Assumptions C20_items_keys.
Theorem C20_items_values : forall E c m, map snd (model_items E c m) = model_values E c m.
Proof. exact items_values. Qed.
Print Assumptions C20_items_values.
Theorem C20_items_are_what_is_read :
  forall E c m n v f, ordinary E c n f -> defined_data m -> In (n, v) (model_items E c m) ->
    model_getitem E c m n = Ok v /\ model_get E c m n VNone = Ok v.
Proof. exact items_read. Qed.
Print Assumptions C20_items_are_what_is_read.

(** [n in m] agrees with keys(), for classes without computed fields. *)
Theorem C20_contains_iff_key :
  forall E c m n, NoDup (dkeys (fields_of E c)) -> plain_fields (fields_of E c) -> defined_data m ->
    (model_contains E c m n = true <-> In n (model_keys E c m)).
Proof. exact contains_keys. Qed.
Print Assumptions C20_contains_iff_key.

(** ... but [in] is true of a computed field that keys() does not list. *)
Theorem C20_computed_contained_but_no_key_refuted :
  exists E c m n, model_contains E c m n = true /\ ~ In n (model_keys E c m).
Proof. exact contains_not_keys. Qed.
Print Assumptions C20_computed_contained_but_no_key_refuted.

(** Unknown names, absent values. *)
Theorem C20_unknown_name :
  forall E c m n dflt, ~ In n (dkeys (fields_of E c)) ->
    model_getitem E c m n = Raise (XPy EUnknownFieldError) /\ model_get E c m n dflt = Ok dflt.
Proof. exact get_unknown. Qed.
Print Assumptions C20_unknown_name.
Theorem C20_get_default :
  forall E c m n f dflt, ordinary E c n f -> chain_get m n = None -> model_get E c m n dflt = Ok dflt.
Proof. exact get_default. Qed.
Print Assumptions C20_get_default.
(** A computed field: get() gives the default only for Undefined and for an AttributeError, of which UndefinedValueError is one. *)
Theorem C20_get_computed :
  forall E c m n f g dflt, dget n (fields_of E c) = Some f -> fd_get f = Some g ->
    (forall v, g (VModel c m) = Ok v -> model_get E c m n dflt = Ok (if is_undef v then dflt else v)) /\
    (g (VModel c m) = Raise (XPy EAttributeError) \/ g (VModel c m) = Raise (XPy EUndefinedValueError) -> model_get E c m n dflt = Ok dflt) /\
    (forall e, g (VModel c m) = Raise e -> e <> XPy EAttributeError -> e <> XPy EUndefinedValueError -> model_get E c m n dflt = Raise e).
Proof. exact get_computed. Qed.
Print Assumptions C20_get_computed.

(** len(m) is the number of keys if nothing undeclared is stored and there are no computed fields ... *)
Theorem C20_len :
  forall E c m, NoDup (dkeys (fields_of E c)) -> plain_fields (fields_of E c) -> declared_only E c m ->
    model_len m = length (model_keys E c m).
Proof. exact len_keys. Qed.
Print Assumptions C20_len.
(** ... and not otherwise. *)
Theorem C20_len_differs_refuted :
  exists E c m m' w, model_import_data E (conv_at E 5) c m (VDict [(k "side", VInt 3); (k "twice", VInt 8)]) w = (m', None) /\
    model_len m' <> length (model_keys E c m').
Proof. exact len_not_keys. Qed.
Print Assumptions C20_len_differs_refuted.

Example C20_case :
  NoDup (dkeys (fields_of Esample 1)) /\ plain_fields (fields_of Esample 1) /\ defined_data bob /\
  declared_only Esample 1 (MD [] [(k "tags", VNone)] [(k "name", VStr (u "Bob"))] None) /\
  model_keys Esample 1 (MD [] [(k "tags", VNone)] [(k "name", VStr (u "Bob"))] None) = [k "name"; k "tags"] /\
  model_values Esample 1 (MD [] [(k "tags", VNone)] [(k "name", VStr (u "Bob"))] None) = [VStr (u "Bob"); VNone].
Proof.
  split; [now apply nodupb_ok|]. split; [now apply plainb_ok|]. split; [now apply defined_data_ok|].
  split; [|split; reflexivity]. intros y H. apply chain_keys in H. cbn in *. intuition.
Qed.

(** ** C47 *)
(** serialize() exports the state validation leaves: all data validated, or after failure the validated and the
    partial data. *)
Theorem C47_exports_the_validated_state :
  forall E r fe c m x m' d, model_serialize E r fe c m x = (m', Ok d) ->
    exists mv oe, model_validate E r c m kw_serialize = (mv, oe) /\
      (oe = None \/ exists errs pd, oe = Some (XData errs pd)) /\
      model_export_top E fe c mv x = Ok d.
Proof. exact serialize_exports. Qed.
Print Assumptions C47_exports_the_validated_state.

(** Every value that was readable is still read unchanged. *)
Theorem C47_readable_values_are_kept :
  forall E r fe c m x m' d n f v,
    NoDup (dkeys (fields_of E c)) -> plain_fields (fields_of E c) -> defined_layers m ->
    NoDup (dkeys (md_converted m)) -> md_unsafe m = [] ->
    model_serialize E r fe c m x = (m', Ok d) -> In (n, f) (fields_of E c) -> chain_get m n = Some v ->
    chain_get m' n = Some v.
Proof. exact serialize_keeps. Qed.
Print Assumptions C47_readable_values_are_kept.

(** The state does change: a field without value reads its default afterwards ... *)
Theorem C47_state_unchanged_refuted :
  exists E r fe c m x m' d n v, model_serialize E r fe c m x = (m', Ok d) /\
    chain_get m n = None /\ chain_get m' n = Some v.
Proof. exact serialize_changes_state. Qed.
Print Assumptions C47_state_unchanged_refuted.
(** ... and a failing export loses data. *)
Theorem C47_failure_keeps_data_refuted :
  exists E r fe c m x m' e n v, model_serialize E r fe c m x = (m', Raise e) /\
    chain_get m n = Some v /\ chain_get m' n = None.
Proof. exact serialize_drops_data. Qed.
Print Assumptions C47_failure_keeps_data_refuted.

Example C47_case :
  defined_layers bob /\ NoDup (dkeys (md_converted bob)) /\ md_unsafe bob = [] /\
  exists m' d, model_serialize Esample (lib 8) (export_at Esample 8) 1 bob (ECtx Primitive NoRole true None) = (m', Ok d) /\
    dget (k "tags") d = Some (VList [VInt 1; VInt 1]) /\ chain_get m' (k "tags") = Some (VList [VInt 1; VBool true]).
Proof.
  split; [repeat split; apply definedb_ok; reflexivity|]. split; [now apply nodupb_ok|]. split; [reflexivity|].
  do 2 eexists. repeat split; reflexivity.
Qed.

(** ** C48 *)
(** A lazy instance reads the raw input under the field's own name. *)
Theorem C48_lazy_reads_raw_input :
  forall E c raw td n f v, ordinary E c n f -> dget n raw = Some v -> v <> VUndef ->
    model_getitem E c (model_init_lazy raw td) n = Ok v.
Proof. exact lazy_reads. Qed.
Print Assumptions C48_lazy_reads_raw_input.

(** After validation (not partial) it reads the validated conversion of the supplied value. *)
Theorem C48_lazy_validated :
  forall E r c raw w m' n f v,
    NoDup (dkeys (fields_of E c)) -> plain_fields (fields_of E c) -> defined_dict raw ->
    readonly_validators (mc_validators (e_class E c)) -> kw_partial w = false ->
    model_validate E r c (model_init_lazy raw []) w = (m', None) -> In (n, f) (fields_of E c) ->
    supplied raw n (fd_spec f) (kw_mapping w) = Some v ->
    exists v', cv_field r (fd_spec f) v (field_ctx E (vctx (model_init_lazy raw []) w) n (fd_spec f)) = Ok v' /\
      chain_get m' n = if is_undef v' then None else Some v'.
Proof. exact lazy_validated. Qed.
Print Assumptions C48_lazy_validated.

(** A value supplied under an alternative name cannot be read before validation. *)
Theorem C48_alternative_name_unreadable_refuted :
  exists E c raw n f v, ordinary E c n f /\ supplied raw n (fd_spec f) no_mapping = Some v /\
    model_getitem E c (model_init_lazy raw []) n = Raise (XPy EUndefinedValueError).
Proof. exact lazy_alias_unreadable. Qed.
Print Assumptions C48_alternative_name_unreadable_refuted.

(** After an assignment the value read before validation is not the one validated. *)
Theorem C48_validates_another_value_refuted :
  exists E r c raw x f m1 m2, ordinary E c x f /\
    model_setitem E r c (model_init_lazy raw []) x (VInt 5) = (m1, None) /\
    model_getitem E c m1 x = Ok (VInt 1) /\
    model_validate E r c m1 kwv = (m2, None) /\ model_getitem E c m2 x = Ok (VInt 5).
Proof. exact lazy_validated_other_value. Qed.
Print Assumptions C48_validates_another_value_refuted.

Example C48_case :
  defined_dict alice /\ exists m', model_validate Esample (lib 8) 1 (model_init_lazy alice []) kwv = (m', None) /\
    model_getitem Esample 1 (model_init_lazy alice []) (k "tags") = Ok (VList [VInt 1; VBool true]) /\
    model_getitem Esample 1 m' (k "tags") = Ok (VList [VInt 1; VInt 1]).
Proof. split; [now apply definedb_ok|]. eexists. repeat split; reflexivity. Qed.

(** ** C49 *)
(** del on a validated instance never removes the value; without trusted data it raises KeyError. *)
Theorem C49_validated_value_survives_delete :
  forall E r c m w m' x f v,
    NoDup (dkeys (fields_of E c)) -> plain_fields (fields_of E c) -> defined_layers m ->
    NoDup (dkeys (md_converted m)) -> (md_converted m <> [] \/ kw_partial w = false) ->
    readonly_validators (mc_validators (e_class E c)) ->
    model_validate E r c m w = (m', None) -> ordinary E c x f -> model_getitem E c m' x = Ok v ->
    exists m'' oe, model_delitem E c m' x = (m'', oe) /\ model_getitem E c m'' x = Ok v /\
      (unvalidated m -> dget x (md_valid m) = None -> oe = Some (XPy EKeyError)).
Proof. exact del_after_validate. Qed.
Print Assumptions C49_validated_value_survives_delete.

Theorem C49_delete_removes_the_value_refuted :
  exists E r c m w m' m'' x f v, model_validate E r c m w = (m', None) /\ ordinary E c x f /\
    model_getitem E c m' x = Ok v /\ model_delitem E c m' x = (m'', Some (XPy EKeyError)) /\
    model_getitem E c m'' x = Ok v.
Proof. exact delete_keeps_value. Qed.
Print Assumptions C49_delete_removes_the_value_refuted.
(** With trusted data, the deletion is silently without effect. *)
Theorem C49_delete_without_effect_refuted :
  exists E r c m w m' m'' x f v, model_validate E r c m w = (m', None) /\ ordinary E c x f /\
    model_getitem E c m' x = Ok v /\ model_delitem E c m' x = (m'', None) /\
    model_getitem E c m'' x = Ok v.
Proof. exact delete_silently_ignored. Qed.
Print Assumptions C49_delete_without_effect_refuted.

Example C49_case :
  defined_layers bob /\ NoDup (dkeys (md_converted bob)) /\ unvalidated bob /\ dget (k "age") (md_valid bob) = None /\
  exists m', model_validate Esample (lib 8) 1 bob kwv = (m', None) /\ model_getitem Esample 1 m' (k "age") = Ok (VInt 40).
Proof.
  split; [repeat split; apply definedb_ok; reflexivity|]. split; [now apply nodupb_ok|].
  do 2 (split; [reflexivity|]). eexists; split; reflexivity.
Qed.

(** ** C50 *)
(** What import_data(raw, validate=True) stores: the conversion of the value found in the input over which the
    values of the instance have been laid ... *)
Theorem C50_what_is_stored :
  forall E j c m d w, NoDup (dkeys (fields_of E c)) -> plain_fields (fields_of E c) -> defined_layers m ->
    defined_dict d -> NoDup (dkeys (md_converted m)) -> md_unsafe m = [] ->
    readonly_validators (mc_validators (e_class E c)) -> kw_validate w = true -> d <> [] ->
    forall m' n f v, model_import_data E (conv_at E (S (S j))) c m (VDict d) w = (m', None) ->
    In (n, f) (fields_of E c) -> is_compound (fd_spec f) = false ->
    supplied (dupdate d (model_items E c m)) n (fd_spec f) (kw_mapping w) = Some v ->
    exists v', cv_field (conv_at E (S (S j))) (fd_spec f) v (call_ctx w (VDict (model_items E c m))) = Ok v' /\
      (v' <> VUndef -> chain_get m' n = Some v').
Proof. exact import_validate_value. Qed.
Print Assumptions C50_what_is_stored.

(** ... so that a field that has a value keeps it, whatever is supplied. *)
Theorem C50_existing_value_wins :
  forall E j c m d w, NoDup (dkeys (fields_of E c)) -> plain_fields (fields_of E c) -> defined_layers m ->
    defined_dict d -> NoDup (dkeys (md_converted m)) -> md_unsafe m = [] ->
    readonly_validators (mc_validators (e_class E c)) -> kw_validate w = true -> d <> [] ->
    forall m' n f v, model_import_data E (conv_at E (S (S j))) c m (VDict d) w = (m', None) ->
    In (n, f) (fields_of E c) -> is_compound (fd_spec f) = false -> chain_get m n = Some v ->
    exists v', cv_field (conv_at E (S (S j))) (fd_spec f) v (call_ctx w (VDict (model_items E c m))) = Ok v' /\
      (v' <> VUndef -> chain_get m' n = Some v').
Proof. exact import_validate_existing. Qed.
Print Assumptions C50_existing_value_wins.

Theorem C50_supplied_value_is_stored_refuted :
  exists E r c m raw w m' n f v, plain_fields (fields_of E c) /\ ordinary E c n f /\ kw_validate w = true /\
    model_import_data E r c m (VDict raw) w = (m', None) /\
    dget n raw = Some v /\ cv_field r (fd_spec f) v (call_ctx w (VDict [])) = Ok v /\
    model_getitem E c m' n <> Ok v.
Proof. exact import_validate_ignores_input. Qed.
Print Assumptions C50_supplied_value_is_stored_refuted.

Example C50_case :
  readonly_validators (mc_validators (e_class Esample 2)) /\
  exists m', model_import_data Esample (lib 8) 2 (MD [] [(k "pin", VInt 4)] [] None)
      (VDict [(k "pin", VInt 9); (k "pin2", VInt 4)]) kwv = (m', None) /\
    chain_get m' (k "pin") = Some (VInt 4) /\ chain_get m' (k "pin2") = Some (VInt 4).
Proof. split; [exact (ti_readonly _ tidy_sample 2%N)|]. eexists. repeat split; reflexivity. Qed.
