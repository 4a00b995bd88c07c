(** C71: the functional interface. *)
From Verif.Model Require Import Py Core Export Api Functional.
From Verif.Spec Require Import ImportSpec FunctionalSpec.
From Verif.Proofs Require Import FunctionalFacts FunctionalExport FunctionalInstance FunctionalWitness ApiWitness.
From Verif.Conformance Require Import Sample.

(** convert(schema, data) and Model(data), given the same options and data without instances, fail alike or hold the
    same data: the dictionary has, for each nested instance, the dictionary of its fields. *)
Theorem C71_convert_gives_the_same_data : forall E n c d td w,
  kw_validate w = false -> kw_convert w = true -> plain_defaults E -> no_instances (VDict d) ->
  match model_init E (conv_at E n) c (VDict d) (VDict td) w,
        lo_res (fn_convert E (conv_at E n) c (VDict d) VNone (VDict td) w) with
  | Ok m, Ok d2 => m = MD [] (md_converted m) td None /\ agree_items E c (md_converted m) d2
  | Raise e1, Raise e2 => same_failure e1 e2
  | _, _ => False
  end.
Proof. exact fn_convert_agrees. Qed.
Print Assumptions C71_convert_gives_the_same_data.

Example C71_convert_case :
  kw_validate kw0 = false /\ kw_convert kw0 = true /\ plain_defaults Esample /\ no_instances (VDict alice) /\
  lo_res (fn_convert Esample (lib 10) 1 (VDict alice) VNone (VDict []) kw0) =
    Ok [(k "name", VStr (u "Alice")); (k "age", VInt 18); (k "tags", VList [VInt 1; VInt 1]);
        (k "home", VDict [(k "street", VStr (u "Main")); (k "zip", VInt 123)])] /\
  (exists errs pd, lo_res (fn_convert Esample (lib 10) 1 (VDict [(k "age", VNone); (k "agee", VInt 1)]) VNone (VDict []) kw0)
                   = Raise (XData errs pd)).
Proof.
  repeat (split; [first [reflexivity|exact plain_sample|exact plain_alice]|]). eexists. eexists. reflexivity.
Qed.

(** Data that agree in this sense are exported alike by to_native and to_primitive, called as functions on the dictionary
    or as methods of the instance, if nothing but stored data is exported and roles look at names only. *)
Theorem C71_same_data_is_exported_alike : forall E n x c d1 d2,
  stored_fields E -> simple_unions E -> roles_by_name E x -> agree_items E c d1 d2 ->
  export_loop E (export_at E n) x c (VModel c (MD [] d1 [] None)) = fn_export E (export_at E n) x c (VDict d2).
Proof. exact fn_export_agrees. Qed.
Print Assumptions C71_same_data_is_exported_alike.

Example C71_export_case :
  stored_fields Esample /\ simple_unions Esample /\ roles_by_name Esample xprim /\
  agree_items Esample 1
    [(k "name", VStr (u "Alice")); (k "home", VModel 0 (MD [] [(k "street", VStr (u "Main")); (k "zip", VInt 123)] [] None))]
    [(k "name", VStr (u "Alice")); (k "home", VDict [(k "street", VStr (u "Main")); (k "zip", VInt 123)])] /\
  fn_export Esample (export_at Esample 10) xprim 1
    (VDict [(k "name", VStr (u "Alice")); (k "home", VDict [(k "street", VStr (u "Main")); (k "zip", VInt 123)])]) =
    Ok [(k "name", VStr (u "Alice")); (k "home", VDict [(k "street", VStr (u "Main")); (k "ZIP", VInt 123)])].
Proof.
  split; [exact sample_stored|]. split; [exact sample_unions|]. split; [|split; [|reflexivity]].
  - split; [discriminate|]. intros c n g H. destruct c as [|[ [ | | ]|[ | | ]| ]]; cbn in H; try contradiction.
    destruct H as [[= <- <-]|[]]. intros a v w. reflexivity.
  - constructor. constructor; [split; [reflexivity|now left]|]. constructor; [split; [reflexivity|right]|constructor].
    eexists. split; [right; right; right; left; reflexivity|]. cbn. constructor. constructor.
    constructor; [split; [reflexivity|now left]|]. constructor; [split; [reflexivity|now left]|]. constructor.
Qed.

(** Computed fields are exported from instances only. *)
Theorem C71_export_with_computed_fields_refuted :
  exists E n x c d m d2 e1 e2, model_init E (conv_at E n) c (VDict d) (VDict []) kw1 = Ok m /\
    lo_res (fn_convert E (conv_at E n) c (VDict d) VNone VNone kw1) = Ok d2 /\
    export_loop E (export_at E n) x c (VModel c m) = Ok e1 /\ fn_export E (export_at E n) x c (VDict d2) = Ok e2 /\
    dget (k "area") e1 = Some (VInt 9) /\ dget (k "area") e2 = None.
Proof. exact computed_fields_missing. Qed.
Print Assumptions C71_export_with_computed_fields_refuted.

(** validate(schema, data) does not run the validate_x methods of nested models, which data.validate() runs. *)
Theorem C71_nested_validators_refuted :
  exists E n c d m, model_init E (conv_at E n) c (VDict d) (VDict []) kw0 = Ok m /\
    (exists m' errs pd, model_validate E (conv_at E n) c m kwv = (m', Some (XData errs pd)) /\
                        dget (k "inner") errs <> None) /\
    exists d2, lo_res (fn_validate E (conv_at E n) c (VDict d) VNone VNone kwv) = Ok d2 /\ dkeys d2 = [k "inner"].
Proof. exact nested_validators_skipped. Qed.
Print Assumptions C71_nested_validators_refuted.

(** Converting leaves the caller's objects as they are; *)
Theorem C71_convert_leaves_the_input : forall E r c v raw td w,
  lo_mut (fn_convert E r c v raw td w) = v /\
  lo_raw (fn_convert E r c v raw td w) = if is_none raw then v else raw.
Proof. exact fn_convert_leaves. Qed.
Print Assumptions C71_convert_leaves_the_input.

(** so does validating, for a schema without settable computed fields, *)
Theorem C71_validate_leaves_the_input : forall E r c d td w,
  no_setters (mc_fields (e_class E c)) -> NoDup (dkeys d) ->
  lo_mut (fn_validate E r c (VDict d) VNone td w) = VDict d /\ lo_raw (fn_validate E r c (VDict d) VNone td w) = VDict d.
Proof. exact fn_validate_leaves. Qed.
Print Assumptions C71_validate_leaves_the_input.

Example C71_input_case :
  no_setters (mc_fields (e_class Esample 1)) /\ NoDup (dkeys alice) /\
  lo_res (fn_validate Esample (lib 10) 1 (VDict alice) VNone VNone kwv) =
    Ok [(k "name", VStr (u "Alice")); (k "tags", VList [VInt 1; VInt 1]);
        (k "home", VDict [(k "street", VStr (u "Main")); (k "zip", VInt 123)])].
Proof.
  split; [|split; [|reflexivity]].
  - intros n f H. cbn in H. repeat (destruct H as [[= <- <-]|H]; [reflexivity|]). destruct H.
  - repeat constructor; cbn; intuition discriminate.
Qed.

(** but setters are given the caller's dictionary. *)
Theorem C71_setters_leave_the_input_refuted :
  exists E n c d d2, lo_mut (fn_validate E (conv_at E n) c (VDict d) VNone VNone kwv) = VDict d2 /\
    dget (k "half") d = None /\ dget (k "half") d2 = Some (VInt 4).
Proof. exact setters_change_the_input. Qed.
Print Assumptions C71_setters_leave_the_input_refuted.

(** An instance of any class may be given to convert as the data: what counts is what dict(instance) gives. *)
Theorem C71_instances_are_read_as_dictionaries : forall E r c c' m items td w,
  NoDup (dkeys (fields_of E c')) -> plain_fields (fields_of E c') -> py_dict E (VModel c' m) = Ok items ->
  lo_res (fn_convert E r c (VModel c' m) VNone td w) = lo_res (fn_convert E r c (VDict items) VNone td w).
Proof. exact fn_convert_instance. Qed.
Print Assumptions C71_instances_are_read_as_dictionaries.

(** validate cannot be given an instance: it fails with an AttributeError, whatever the instance holds. *)
Theorem C71_validate_an_instance_refuted : forall E r c c' m td w,
  no_setters (fields_of E c) -> (forall e, (if truthy td then py_dict E td else Ok []) <> Raise e) ->
  lo_res (fn_validate E r c (VModel c' m) VNone td w) = Raise (XPy EAttributeError).
Proof. exact fn_validate_instance. Qed.
Print Assumptions C71_validate_an_instance_refuted.

Definition street_instance : mdata pyval := MD [] [(k "zip", VInt 12); (k "street", VStr (u "Main"))] [] None.
Example C71_instance_case :
  NoDup (dkeys (fields_of Esample 0)) /\ plain_fields (fields_of Esample 0) /\
  py_dict Esample (VModel 0 street_instance) = Ok [(k "street", VStr (u "Main")); (k "zip", VInt 12)] /\
  lo_res (fn_convert Esample (lib 10) 0 (VModel 0 street_instance) VNone VNone kw0) =
    Ok [(k "street", VStr (u "Main")); (k "zip", VInt 12)] /\
  no_setters (fields_of Esample 0) /\
  lo_res (fn_validate Esample (lib 10) 0 (VModel 0 street_instance) VNone VNone kwv) = Raise (XPy EAttributeError).
Proof.
  split; [repeat constructor; cbn; intuition discriminate|].
  split; [intros n f [[= <- <-]|[[= <- <-]|[]]]; now split|]. split; [reflexivity|]. split; [reflexivity|].
  split; [intros n f [[= <- <-]|[[= <- <-]|[]]]; reflexivity|reflexivity].
Qed.
