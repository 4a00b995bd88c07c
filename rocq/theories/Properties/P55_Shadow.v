(** C108: which names fields can have. *)
From Verif.Model Require Import Py Core Export Api Equality Shadow.
From Verif.Spec Require Import ImportSpec.
From Verif.Proofs Require Import ShadowFacts ShadowWitness.
From Verif.Conformance Require Import Sample.
Open Scope string_scope.
Open Scope list_scope.

(** Construction, import_data() and validate() of a class with any fields work as they do when nothing is looked up by name, unless
    a field is called _convert, or validate when validation is asked for; *)
Theorem C108_construction : forall E r c raw td w,
  ~ In (k "_convert") (dkeys (fields_of E c)) -> (kw_validate w = true -> ~ In (k "validate") (dkeys (fields_of E c))) ->
  named_init E r c raw td w = model_init E r c raw td w.
Proof. exact init_free. Qed.
Print Assumptions C108_construction.
Theorem C108_import_data : forall E r c m raw w,
  ~ In (k "_convert") (dkeys (fields_of E c)) -> (kw_validate w = true -> ~ In (k "validate") (dkeys (fields_of E c))) ->
  named_import_data E r c m raw w = model_import_data E r c m raw w.
Proof. exact import_free. Qed.
Print Assumptions C108_import_data.
Theorem C108_validate : forall E r c m w,
  ~ In (k "_convert") (dkeys (fields_of E c)) -> named_validate E r c m w = model_validate E r c m w.
Proof. exact validate_free. Qed.
Print Assumptions C108_validate.
(** serialize() does unless a field is called _convert, validate or to_primitive; *)
Theorem C108_serialize : forall E r c fe m x,
  ~ In (k "_convert") (dkeys (fields_of E c)) -> ~ In (k "validate") (dkeys (fields_of E c)) -> ~ In (k "to_primitive") (dkeys (fields_of E c)) ->
  named_serialize E r fe c m x = model_serialize E r fe c m x.
Proof. exact serialize_free. Qed.
Print Assumptions C108_serialize.
(** and comparing does unless a field is called get. *)
Theorem C108_comparison : forall E c eq a b ks, ~ In (k "get") (dkeys (fields_of E c)) -> named_eq_loop E eq c a b ks = model_eq_loop E eq c a b ks.
Proof. exact eq_free. Qed.
Print Assumptions C108_comparison.

(** A class with fields called items, keys and serialize. *)
Example C108_case :
  ~ In (k "_convert") (dkeys (fields_of Enames 0)) /\ ~ In (k "validate") (dkeys (fields_of Enames 0)) /\
  ~ In (k "to_primitive") (dkeys (fields_of Enames 0)) /\ ~ In (k "get") (dkeys (fields_of Enames 0)) /\
  exists m, named_init Enames (conv_at Enames 8) 0%N (VDict invoice_data) (VDict []) kw_now = Ok m /\
    model_getitem Enames 0%N m (k "items") = Ok (VList [VInt 1; VInt 2]).
Proof.
  assert (F : forall n, existsb (key_eqb n) (dkeys (fields_of Enames 0)) = false -> ~ In n (dkeys (fields_of Enames 0))).
  { intros n H I. apply Bool.not_true_iff_false in H. apply H. apply existsb_exists. exists n. split; [exact I|apply DictLemmas.key_eqb_refl]. }
  split; [apply F; reflexivity|]. split; [apply F; reflexivity|]. split; [apply F; reflexivity|]. split; [apply F; reflexivity|].
  eexists. split; [vm_compute; reflexivity|reflexivity].
Qed.

(** False of the code: that fields can have any name. No instance of a class with a field called _convert can be constructed; of a
    lazy one, import_data() fails and leaves it alone, and validate() fails and loses what was assigned to it; *)
Theorem C108_convert_refuted : forall E r c, In (k "_convert") (dkeys (fields_of E c)) ->
  (forall raw td w, exists e, named_init E r c raw td w = Raise e) /\
  (forall m raw w, fst (named_import_data E r c m raw w) = m /\ exists e, snd (named_import_data E r c m raw w) = Some e) /\
  (forall m w, md_converted m <> [] \/ kw_partial w = false ->
     md_converted (fst (named_validate E r c m w)) = [] /\ exists e, snd (named_validate E r c m w) = Some e).
Proof. exact convert_hidden. Qed.
Print Assumptions C108_convert_refuted.
(** none of a class with a field called validate can be constructed or filled with validation; *)
Theorem C108_validate_refuted : forall E r c w, In (k "validate") (dkeys (fields_of E c)) -> kw_validate w = true ->
  (forall raw td, exists e, named_init E r c raw td w = Raise e) /\
  (forall m raw, exists e, snd (named_import_data E r c m raw w) = Some e).
Proof. exact validate_hidden. Qed.
Print Assumptions C108_validate_refuted.
(** none with a field called validate or to_primitive can be serialized; *)
Theorem C108_serialize_refuted : forall E r c fe m x,
  In (k "validate") (dkeys (fields_of E c)) \/ In (k "to_primitive") (dkeys (fields_of E c)) ->
  exists e, snd (named_serialize E r fe c m x) = Raise e.
Proof. exact hidden_serialize. Qed.
Print Assumptions C108_serialize_refuted.
(** none with a field called get can be compared with another one unless it is empty. *)
Theorem C108_get_refuted : forall E c eq a b x ks, In (k "get") (dkeys (fields_of E c)) -> exists e, named_eq_loop E eq c a b (x :: ks) = Raise e.
Proof. exact hidden_get. Qed.
Print Assumptions C108_get_refuted.

Example C108_refuted_case :
  In (k "validate") (dkeys (fields_of Enames 1)) /\ In (k "get") (dkeys (fields_of Enames 1)) /\
  named_init Enames (conv_at Enames 8) 1%N (VDict form_data) (VDict []) kw_now = Raise (XPy ETypeError) /\
  exists m, named_init Enames (conv_at Enames 8) 1%N (VDict form_data) (VDict []) kw0 = Ok m /\
    named_eq_loop Enames (eq_at Enames 8) 1%N m m (model_iter Enames 1%N m) = Raise (XPy ETypeError).
Proof.
  split; [now left|]. split; [right; now left|]. split; [vm_compute; reflexivity|]. eexists. split; [vm_compute; reflexivity|]. vm_compute. reflexivity.
Qed.
