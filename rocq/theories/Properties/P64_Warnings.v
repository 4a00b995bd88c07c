(** C117: deprecation warnings turned into exceptions.  The functions called w_... are those of the other properties, with the deprecated attributes
    that the library itself reads; the argument is the exception, or None if warnings are only shown. *)
From Verif.Model Require Import Py Core Export Api Warnings.
From Verif.Spec Require Import ImportSpec.
From Verif.Proofs Require Import DictLemmas WarningsFacts.
From Verif.Conformance Require Import Sample.
Open Scope string_scope.
Open Scope list_scope.

(** Nothing depends on the warnings while they are only shown: construction, import and validation, *)
Theorem C117_shown : forall E r c m raw t w,
  w_init E r None c raw t w = model_init E r c raw t w /\
  w_import_data E r None c m raw w = model_import_data E r c m raw w /\
  w_validate E r None c m w = model_validate E r c m w.
Proof. exact shown_all. Qed.
Print Assumptions C117_shown.
(** assignment, *)
Theorem C117_shown_assignment : forall E r c m x v, w_setitem E r None c m x v = model_setitem E r c m x v.
Proof. exact shown_setitem. Qed.
Print Assumptions C117_shown_assignment.
(** membership. *)
Theorem C117_shown_membership : forall E c m x, w_contains E None c m x = Ok (model_contains E c m x).
Proof. exact shown_contains. Qed.
Print Assumptions C117_shown_membership.
(** And serialize(). *)
Theorem C117_shown_serialize : forall E r fe c m x, w_serialize E r None fe c m x = model_serialize E r fe c m x.
Proof. exact shown_serialize. Qed.
Print Assumptions C117_shown_serialize.

(** If they are exceptions: no instance can be constructed, whatever the class, unless it is lazy, *)
Theorem C117_construction : forall E r e c d td w, kw_validate w = false -> w_init E r (Some e) c (VDict d) (VDict td) w = Raise (XPy e).
Proof. exact init_raises_plain. Qed.
Print Assumptions C117_construction.
(** also if the data are to be validated (classes without setters whose given values can be read), *)
Theorem C117_validated_construction : forall E r e c d td w q, no_setters (fields_of E c) -> py_dict E (VModel c (MD [] [] td None)) = Ok q ->
  w_init E r (Some e) c (VDict d) (VDict td) w = Raise (XPy e).
Proof. exact init_raises. Qed.
Print Assumptions C117_validated_construction.
(** validate() raises the warning; what was validated before stays, every other value is lost, *)
Theorem C117_validation : forall E r e c m w q, no_setters (fields_of E c) -> py_dict E (VModel c (md_set_unsafe m [])) = Ok q ->
  md_converted m <> [] \/ kw_partial w = false ->
  exists m', w_validate E r (Some e) c m w = (m', Some (XPy e)) /\ md_unsafe m' = [] /\ md_converted m' = [] /\ md_valid m' = md_valid m.
Proof. exact validate_loses. Qed.
Print Assumptions C117_validation.
(** serialize() never succeeds, whatever the class, *)
Theorem C117_serialize_fails : forall E r e fe c m x, exists m' y, w_serialize E r (Some e) fe c m x = (m', Raise y).
Proof. exact serialize_raises. Qed.
Print Assumptions C117_serialize_fails.
(** and does not put back the values it has set aside: all that was not validated before is lost, *)
Theorem C117_serialize : forall E r e fe c m x q, no_setters (fields_of E c) -> py_dict E (VModel c (md_set_unsafe m [])) = Ok q ->
  exists m', w_serialize E r (Some e) fe c m x = (m', Raise (XPy e)) /\ md_unsafe m' = [] /\ md_converted m' = [] /\ md_valid m' = md_valid m.
Proof. exact serialize_loses. Qed.
Print Assumptions C117_serialize.
(** except that partial validation with nothing to validate does nothing, *)
Theorem C117_nothing_to_validate : forall E r e c m w, md_converted m = [] -> kw_partial w = true -> w_validate E r (Some e) c m w = (m, None).
Proof. exact validate_nothing. Qed.
Print Assumptions C117_nothing_to_validate.
(** import_data() raises it, and values given lazily are lost, *)
Theorem C117_import : forall E r e c m d w q td, no_setters (fields_of E c) -> py_dict E (VModel c m) = Ok td ->
  py_dict E (VModel c (md_set_unsafe m [])) = Ok q ->
  exists m', w_import_data E r (Some e) c m (VDict d) w = (m', Some (XPy e)) /\ md_unsafe m' = [] /\ md_valid m' = md_valid m.
Proof. exact import_loses. Qed.
Print Assumptions C117_import.
(** whatever the class if nothing is to be validated; then all else stays as it is, *)
Theorem C117_plain_import : forall E r e c m d w td, kw_validate w = false -> py_dict E (VModel c m) = Ok td ->
  w_import_data E r (Some e) c m (VDict d) w = (md_set_unsafe m [], Some (XPy e)).
Proof. exact import_plain. Qed.
Print Assumptions C117_plain_import.
(** plain fields cannot be assigned, and nothing changes; *)
Theorem C117_assignment : forall E r e c m x v f, dget x (fields_of E c) = Some f -> fd_get f = None ->
  w_setitem E r (Some e) c m x v = (m, Some (XPy e)).
Proof. exact assign_plain. Qed.
Print Assumptions C117_assignment.
(** computed fields and names that are no fields behave as ever. *)
Theorem C117_other_assignments : forall E r e c m x v, (forall f, dget x (fields_of E c) = Some f -> fd_get f <> None) ->
  w_setitem E r (Some e) c m x v = model_setitem E r c m x v.
Proof. exact assign_other. Qed.
Print Assumptions C117_other_assignments.
(** Membership can be asked of names that hold a value, and of no others. *)
Theorem C117_membership : forall E e c m x v, chain_get m x <> None -> model_getitem E c m x = Ok v -> w_contains E (Some e) c m x = Ok true.
Proof. exact contains_held. Qed.
Print Assumptions C117_membership.
Theorem C117_other_membership : forall E e c m x, chain_get m x = None \/ (exists y, model_getitem E c m x = Raise y) ->
  w_contains E (Some e) c m x = Raise (XPy e).
Proof. exact contains_other. Qed.
Print Assumptions C117_other_membership.

(** A lazy instance of Address. *)
Definition lazy_address : mdata pyval := model_init_lazy [(k "street", VStr (u "Main"))] [].
(** False of the code: that an instance keeps its values when validate() raises a warning.  The street can be read before, not after. *)
Theorem C117_values_kept_refuted : exists E r e c m w v m', model_getitem E c m (k "street") = Ok v /\
  w_validate E r (Some e) c m w = (m', Some (XPy e)) /\ model_getitem E c m' (k "street") = Raise (XPy EUndefinedValueError).
Proof.
  exists Esample, (lib 10), EGenericException, 0%N, lazy_address, kw1, (VStr (u "Main")), (MD [] [] [] None).
  split; [vm_compute; reflexivity|split; [vm_compute; reflexivity|vm_compute; reflexivity]].
Qed.
Print Assumptions C117_values_kept_refuted.

Example C117_plain_import_case : py_dict Esample (VModel 0 lazy_address) = Ok [(k "street", VStr (u "Main"))] /\ kw_validate kw1 = false.
Proof. split; [vm_compute; reflexivity|reflexivity]. Qed.
(** The hypotheses hold of Address and the lazy instance; without the exception its validation succeeds and the street is kept. *)
Example C117_case : no_setters (fields_of Esample 0) /\ py_dict Esample (VModel 0 (md_set_unsafe lazy_address [])) = Ok [] /\
  snd (w_validate Esample (lib 10) None 0 lazy_address kw1) = None /\
  model_getitem Esample 0 (fst (w_validate Esample (lib 10) None 0 lazy_address kw1)) (k "street") = Ok (VStr (u "Main")).
Proof.
  split; [|split; [vm_compute; reflexivity|split; [vm_compute; reflexivity|vm_compute; reflexivity]]].
  intros n f H. cbn in H. destruct H as [H|[H|[]]]; injection H as _ <-; reflexivity.
Qed.
Example C117_assignment_case : exists f, dget (k "street") (fields_of Esample 0) = Some f /\ fd_get f = None /\
  w_contains Esample (Some EGenericException) 0 lazy_address (k "street") = Ok true /\
  w_contains Esample (Some EGenericException) 0 lazy_address (k "zip") = Raise (XPy EGenericException) /\
  model_contains Esample 0 lazy_address (k "zip") = false.
Proof. eexists; split; [reflexivity|split; [reflexivity|split; [reflexivity|split; reflexivity]]]. Qed.
