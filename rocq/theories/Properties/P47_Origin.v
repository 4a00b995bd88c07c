(** C100: nothing is invented. *)
From Verif.Model Require Import Py Core Export Api.
From Verif.Spec Require Import ImportSpec ExportSpec PartSpec OriginSpec.
From Verif.Proofs Require Import OriginFacts OriginWitness.
From Verif.Conformance Require Import Sample.
Open Scope string_scope.
Open Scope list_scope.

(** Whatever happens to an instance, the values in it have the property that the data had. *)
Theorem C100_always : forall E A, keeps E A -> forall c m, lives E A c m -> made_of A (VModel c m).
Proof. exact lives_fit. Qed.
Print Assumptions C100_always.
(** So has what is read from it, at every name. *)
Theorem C100_what_is_read : forall E A, keeps E A -> forall c m y v, made_of A (VModel c m) ->
  py_getitem E (VModel c m) y = Ok v -> made_of A v.
Proof. exact reading_fit. Qed.
Print Assumptions C100_what_is_read.
(** A new instance, or the partial data of the error. *)
Theorem C100_construction : forall E A, keeps E A -> forall n c raw trusted w, made_of A raw -> made_of A trusted ->
  match model_init E (conv_at E n) c raw trusted w with Ok m => made_of A (VModel c m) | Raise e => fit_exn A e end.
Proof. exact construct_fit. Qed.
Print Assumptions C100_construction.
(** The partial data of the errors of import_data() and validate(). *)
Theorem C100_import_errors : forall E A, keeps E A -> forall n c m raw w, made_of A (VModel c m) -> made_of A raw ->
  forall m' e, model_import_data E (conv_at E n) c m raw w = (m', Some e) -> fit_exn A e.
Proof. exact import_data_fit. Qed.
Print Assumptions C100_import_errors.
Theorem C100_validation_errors : forall E A, keeps E A -> forall n c m w, made_of A (VModel c m) ->
  forall m' e, model_validate E (conv_at E n) c m w = (m', Some e) -> fit_exn A e.
Proof. exact validate_errors_fit. Qed.
Print Assumptions C100_validation_errors.
(** The conversion or validation of a single value, with any settings. *)
Theorem C100_values : forall E A, keeps E A -> forall n c y f v x w, In (y, f) (fields_of E c) -> made_of A v ->
  made_of A (cx_trusted x) -> cv_field (conv_at E n) (fd_spec f) v x = Ok w -> made_of A w.
Proof. exact field_value_fit. Qed.
Print Assumptions C100_values.
(** So [C99] applies to every instance: whatever happened to it, an export that hides more shows a part. *)
Theorem C100_exports_of_any_instance : forall E A, keeps E A -> showing E -> forall c m, lives E A c m ->
  forall x x2, shows_less E x x2 -> forall n d2, model_export_top E (export_at E n) c m x2 = Ok d2 ->
  exists d, model_export_top E (export_at E n) c m x = Ok d /\ part_of (VDict d) (VDict d2).
Proof. exact lives_shows_less. Qed.
Print Assumptions C100_exports_of_any_instance.
(** Without the condition on names it fails: an instance given for a list becomes the list of its field names. *)
Theorem C100_names_refuted : exists E c raw m,
  (forall c n f, In (n, f) (fields_of E c) -> fd_get f = None /\ fd_set f = None /\ fo_default (fs_opts (fd_spec f)) = VUndef /\
     forall o l v, field_in (FS o (TLeaf l)) (fd_spec f) -> lf_native l v = Ok v) /\
  made_of no_text raw /\ model_init E (conv_at E 9) c raw (VDict []) kw0 = Ok m /\ ~ made_of no_text (VModel c m) /\
  md_converted m = [(k "items", VList [VStr (u "x")])].
Proof. exact bag_of_names. Qed.
Print Assumptions C100_names_refuted.

(** An instance of the sample program that was constructed, assigned to, validated in vain, and imported into. *)
Example C100_case : keeps Esample no_object /\ lives Esample no_object 1 alice_later /\ made_of no_object (VDict alice) /\
  md_converted alice_later =
  [(k "name", VStr (u "Alice")); (k "tags", VList [VInt 1; VInt 1]);
   (k "home", VModel 0 (MD [] [(k "street", VStr (u "Main")); (k "zip", VInt 123)] [] None)); (k "age", VInt 3)].
Proof. exact (conj sample_keeps (conj alice_lives (conj alice_made alice_later_is))). Qed.
