(** C103: parts of the data do not influence each other. *)
From Verif.Model Require Import Py Core Export Api.
From Verif.Spec Require Import ImportSpec IndependSpec.
From Verif.Proofs Require Import Independ IndependWitness.
From Verif.Conformance Require Import Sample.
Open Scope string_scope.
Open Scope list_scope.

(** Model(data) for two inputs that are the same at a place (a path of fields, elements of lists, entries of dictionaries),
    whatever they are elsewhere: the error reported for that place is the same, or there is none in both cases. *)
Theorem C103_errors : forall E, distinct_names E ->
  forall w, kw_validate w = false -> kw_convert w = true -> kw_mapping w = no_mapping ->
  forall j c p d e, same_at E (TModel c) p (VDict d) (VDict e) ->
  settled (model_init E (conv_at E j) c (VDict d) (VDict []) w) -> settled (model_init E (conv_at E j) c (VDict e) (VDict []) w) ->
  error_at E (TModel c) p (model_init E (conv_at E j) c (VDict d) (VDict []) w) =
  error_at E (TModel c) p (model_init E (conv_at E j) c (VDict e) (VDict []) w).
Proof. exact init_errors_same. Qed.
Print Assumptions C103_errors.
(** When both calls succeed, the instances have the same value at that place. *)
Theorem C103_values : forall E, distinct_names E ->
  forall w, kw_validate w = false -> kw_convert w = true -> kw_mapping w = no_mapping ->
  forall j c p d e m m', same_at E (TModel c) p (VDict d) (VDict e) ->
  model_init E (conv_at E j) c (VDict d) (VDict []) w = Ok m -> model_init E (conv_at E j) c (VDict e) (VDict []) w = Ok m' ->
  value_at E (TModel c) p (VModel c m) = value_at E (TModel c) p (VModel c m').
Proof. exact init_values_same. Qed.
Print Assumptions C103_values.
(** When either fails, the partial data of the error has the value that the instance would have, at every place reached through models. *)
Theorem C103_partial_data : forall E, distinct_names E ->
  forall w, kw_validate w = false -> kw_convert w = true -> kw_mapping w = no_mapping ->
  forall j c p d e a b, same_at E (TModel c) p (VDict d) (VDict e) -> model_place p -> p <> [] ->
  settled (model_init E (conv_at E j) c (VDict d) (VDict []) w) -> settled (model_init E (conv_at E j) c (VDict e) (VDict []) w) ->
  kept c (model_init E (conv_at E j) c (VDict d) (VDict []) w) = Some a -> kept c (model_init E (conv_at E j) c (VDict e) (VDict []) w) = Some b ->
  value_at E (TModel c) p a = value_at E (TModel c) p b.
Proof. exact init_kept_same. Qed.
Print Assumptions C103_partial_data.

(** Not so for an element of a list: when another element is wrong, none is in the partial data. *)
Theorem C103_list_value_refuted : exists d e a b, same_at Esample (TModel 1) [SField (k "tags"); SItem 1] (VDict d) (VDict e) /\
  kept 1 (model_init Esample (lib 5) 1 (VDict d) (VDict []) kw0) = Some a /\ kept 1 (model_init Esample (lib 5) 1 (VDict e) (VDict []) kw0) = Some b /\
  value_at Esample (TModel 1) [SField (k "tags"); SItem 1] a = Some (VInt 2) /\ value_at Esample (TModel 1) [SField (k "tags"); SItem 1] b = None.
Proof. exact list_value_lost. Qed.
Print Assumptions C103_list_value_refuted.
(** Nor for fields that have one public name: the error of one is reported as that of the other. *)
Theorem C103_shared_name_refuted : exists d e, same_at Etwins (TModel 0) [SField (k "left")] (VDict d) (VDict e) /\
  settled (model_init Etwins (conv_at Etwins 5) 0 (VDict d) (VDict []) kw0) /\ settled (model_init Etwins (conv_at Etwins 5) 0 (VDict e) (VDict []) kw0) /\
  error_at Etwins (TModel 0) [SField (k "left")] (model_init Etwins (conv_at Etwins 5) 0 (VDict d) (VDict []) kw0) <>
  error_at Etwins (TModel 0) [SField (k "left")] (model_init Etwins (conv_at Etwins 5) 0 (VDict e) (VDict []) kw0).
Proof. exact shared_public_name. Qed.
Print Assumptions C103_shared_name_refuted.
(** Nor with validation: the validators of a class see the values of all its fields. *)
Theorem C103_validation_refuted : exists d e, same_at Esample (TModel 2) [SField (k "pin2")] (VDict d) (VDict e) /\
  (exists m, model_init Esample (lib 5) 2 (VDict d) (VDict []) kwv = Ok m) /\ settled (model_init Esample (lib 5) 2 (VDict e) (VDict []) kwv) /\
  error_at Esample (TModel 2) [SField (k "pin2")] (model_init Esample (lib 5) 2 (VDict e) (VDict []) kwv) = Some (NMsgs [u "pins differ"]).
Proof. exact validator_sees_all. Qed.
Print Assumptions C103_validation_refuted.

(** A wrong postcode is reported alike whether it is the only mistake or one of six. *)
Example C103_case_errors : distinct_names Esample /\
  same_at Esample (TModel 1) [SField (k "home"); SField (k "zip")] (VDict (amiss (VStr (u "x")))) (VDict (all_amiss (VStr (u "x")))) /\
  error_at Esample (TModel 1) [SField (k "home"); SField (k "zip")] (model_init Esample (lib 10) 1 (VDict (amiss (VStr (u "x")))) (VDict []) kw0)
    = Some (NConv [u "number_coerce"]) /\
  error_at Esample (TModel 1) [SField (k "home"); SField (k "zip")] (model_init Esample (lib 10) 1 (VDict (all_amiss (VStr (u "x")))) (VDict []) kw0)
    = Some (NConv [u "number_coerce"]).
Proof.
  split; [exact sample_names|]. split; [apply amiss_same; discriminate|]. split; vm_compute; reflexivity.
Qed.
(** A right one is in the instance, and in the partial data of the error about the rest. *)
Example C103_case_partial : exists m errs pd,
  model_init Esample (lib 10) 1 (VDict (amiss (VInt 7))) (VDict []) kw0 = Ok m /\
  model_init Esample (lib 10) 1 (VDict (all_amiss (VInt 7))) (VDict []) kw0 = Raise (XData errs pd) /\
  value_at Esample (TModel 1) [SField (k "home"); SField (k "zip")] (VModel 1 m) = Some (VInt 7) /\
  value_at Esample (TModel 1) [SField (k "home"); SField (k "zip")] (VDict pd) = Some (VInt 7).
Proof.
  do 3 eexists. split; [vm_compute; reflexivity|]. split; [vm_compute; reflexivity|]. split; vm_compute; reflexivity.
Qed.
(** Elements of a list. *)
Example C103_case_items :
  same_at Esample (TModel 1) [SField (k "tags"); SItem 1] (VDict [(k "name", VNone); (k "tags", VList [VInt 1; VStr (u "y")])])
    (VDict [(k "tags", VList [VNone; VStr (u "y"); VStr (u "x")])]) /\
  error_at Esample (TModel 1) [SField (k "tags"); SItem 1]
    (model_init Esample (lib 5) 1 (VDict [(k "tags", VList [VNone; VStr (u "y"); VStr (u "x")])]) (VDict []) kw0) = Some (NConv [u "number_coerce"]).
Proof. split; [apply tags_same|]. vm_compute; reflexivity. Qed.
