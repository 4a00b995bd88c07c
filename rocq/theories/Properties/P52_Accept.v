(** C105: what was accepted can be exported. *)
From Verif.Model Require Import Py Core Export Api Types DateTime Enum Net.
From Verif.Spec Require Import ImportSpec ValidateSpec ExportSpec AcceptSpec.
From Verif.Proofs Require Import AcceptFacts PrimitiveWitness AcceptWitness.
From Verif.Conformance Require Import Sample TypeSample.
Open Scope string_scope.
Open Scope list_scope.

(** Every instance made of data can be exported, given enough recursion depth: the fields are not polymorphic and have types that
    write what they convert, elements of lists and dictionaries are required or of a type that writes None, and the role, if any,
    is known to the classes. *)
Theorem C105_made_of_data : forall E j c d w m x,
  tidy_env E -> (forall c, e_issub E c c = true) -> exports_env x E -> (forall c, ~ unknown_role E c x) ->
  kw_validate w = false -> kw_mapping w = no_mapping -> kw_convert w = true ->
  model_init E (conv_at E j) c (VDict d) (VDict []) w = Ok m ->
  exists N, forall n, N <= n -> exists out, model_export_top E (export_at E n) c m x = Ok out.
Proof. exact init_exports. Qed.
Print Assumptions C105_made_of_data.

(** So can every instance that validate() has accepted, however it was made. *)
Theorem C105_validated : forall E j c m w m' x,
  tidy_env E -> (forall c, e_issub E c c = true) -> exports_env x E -> (forall c, ~ unknown_role E c x) ->
  kw_mapping w = no_mapping -> kw_convert w = true ->
  defined_layers m -> NoDup (dkeys (md_converted m)) -> (md_converted m <> [] \/ kw_partial w = false) ->
  model_validate E (conv_at E j) c m w = (m', None) ->
  exists N, forall n, N <= n -> exists out, model_export_top E (export_at E n) c m' x = Ok out.
Proof. exact validate_exports. Qed.
Print Assumptions C105_validated.

(** Types of the library that write what they convert, in both formats. *)
Theorem C105_library_types : forall R x l, exporting_type R l -> leaf_exports x l.
Proof. exact exporting_library. Qed.
Print Assumptions C105_library_types.

Example C105_case :
  tidy_env Etrip /\ (forall c, e_issub Etrip c c = true) /\ (forall f, exports_env (ctx_of f) Etrip) /\
  (forall f c, ~ unknown_role Etrip c (ctx_of f)) /\
  model_init Etrip (conv_at Etrip 10) 1%N (VDict trip_data) (VDict []) kw0 = Ok trip_model /\
  defined_layers trip_model /\ NoDup (dkeys (md_converted trip_model)) /\
  (exists m', model_validate Etrip (conv_at Etrip 10) 1%N trip_model kwv = (m', None)) /\
  exporting_type rt0 (timestamp_type rt0 false).
Proof.
  split; [exact trip_tidy|]. split; [intros c; apply N.eqb_refl|]. split; [intros f; apply trip_exports|].
  split; [intros f; now apply trip_known|]. split; [exact trip_made|]. split; [apply trip_layers|].
  split; [apply trip_layers|]. split; [exact trip_valid|constructor].
Qed.

(** None among the elements of a list is accepted, by validate() too, but the types of the elements cannot write it: dates, *)
Theorem C105_none_among_dates_refuted :
  exists E c m m', model_init E (conv_at E 10) c (VDict [(k "days", VList [VNone])]) (VDict []) kw0 = Ok m /\
  model_validate E (conv_at E 10) c m kwv = (m', None) /\
  forall n, 5 <= n -> model_export_top E (export_at E n) c m (ctx_of Primitive) = Raise (XPy EAttributeError) /\
    model_export_top E (export_at E n) c m' (ctx_of Primitive) = Raise (XPy EAttributeError).
Proof. exact none_day. Qed.
Print Assumptions C105_none_among_dates_refuted.

(** lists, *)
Theorem C105_none_among_lists_refuted :
  exists E c m m', model_init E (conv_at E 10) c (VDict [(k "rows", VList [VNone])]) (VDict []) kw0 = Ok m /\
  model_validate E (conv_at E 10) c m kwv = (m', None) /\
  forall n, 5 <= n -> model_export_top E (export_at E n) c m (ctx_of Primitive) = Raise (XPy ETypeError) /\
    model_export_top E (export_at E n) c m' (ctx_of Primitive) = Raise (XPy ETypeError).
Proof. exact none_row. Qed.
Print Assumptions C105_none_among_lists_refuted.

(** and, for to_native(), even numbers. *)
Theorem C105_none_among_numbers_refuted :
  exists E c m m', model_init E (conv_at E 10) c (VDict [(k "counts", VList [VNone])]) (VDict []) kw0 = Ok m /\
  model_validate E (conv_at E 10) c m kwv = (m', None) /\
  forall n, 5 <= n -> model_export_top E (export_at E n) c m (ctx_of Native) = Raise (XConv [u "number_coerce"]) /\
    model_export_top E (export_at E n) c m' (ctx_of Native) = Raise (XConv [u "number_coerce"]).
Proof. exact none_count. Qed.
Print Assumptions C105_none_among_numbers_refuted.

(** DateTimeType accepts offsets of a day and more, which cannot be written. *)
Theorem C105_far_time_zones_refuted :
  exists E c m m', model_init E (conv_at E 10) c (VDict [(k "at", VStr (u "2020-01-01T00:00+99:99"))]) (VDict []) kw0 = Ok m /\
  model_validate E (conv_at E 10) c m kwv = (m', None) /\
  forall n, 5 <= n -> model_export_top E (export_at E n) c m (ctx_of Primitive) = Raise (XPy EValueError) /\
    model_export_top E (export_at E n) c m' (ctx_of Primitive) = Raise (XPy EValueError).
Proof. exact far_zone. Qed.
Print Assumptions C105_far_time_zones_refuted.
