(** C88: the order in which the entries of dictionaries are given does not matter. *)
From Coq Require Import Permutation.
From Verif.Model Require Import Py Core Export Api Types.
From Verif.Spec Require Import ImportSpec ValidateSpec ExportSpec DeepSpec PrimitiveSpec OrderSpec.
From Verif.Proofs Require Import DictLemmas PrimitiveFacts OrderFacts OrderMain OrderExport OrderTypes ExportWitness PrimitiveWitness OrderWitness.
From Verif.Conformance Require Import Sample TypeSample.
Open Scope string_scope.
Open Scope list_scope.

(** What follows is about values that are the same up to the order of the entries of the dictionaries in them, at any
    depth ([alike]).  In particular: *)
Theorem C88_permutation : forall K d e, Permutation d e -> sound_value K (VDict d) -> alike K (VDict d) (VDict e).
Proof. exact permuted_alike. Qed.
Print Assumptions C88_permutation.

(** Model(data): an instance with the same data, or the same errors, at every depth; if one call ends in an exception that
    is not an error of the library, so does the other. *)
Theorem C88_construction : forall K E, blind_env K E -> forall j c raw raw' td td' w,
  alike K raw raw' -> alike K td td' ->
  alike_res K (alike_data K) (model_init E (conv_at E j) c raw td w) (model_init E (conv_at E j) c raw' td' w).
Proof. exact (fun K E HE j => init_same K E HE (conv_at E j) (conv_at_same K E HE j)). Qed.
Print Assumptions C88_construction.
(** import_data: the same effect on the instance and the same outcome; *)
Theorem C88_import_data : forall K E, blind_env K E -> forall j c m n raw raw' w,
  alike_data K m n -> alike K raw raw' ->
  let r := model_import_data E (conv_at E j) c m raw w in let s := model_import_data E (conv_at E j) c n raw' w in
  alike_data K (fst r) (fst s) /\ both (alike_exn K) (snd r) (snd s).
Proof. exact (fun K E HE j => import_data_same K E HE (conv_at E j) (conv_at_same K E HE j)). Qed.
Print Assumptions C88_import_data.
(** so has validate(), *)
Theorem C88_validate : forall K E, blind_env K E -> forall j c m n w, alike_data K m n ->
  let r := model_validate E (conv_at E j) c m w in let s := model_validate E (conv_at E j) c n w in
  alike_data K (fst r) (fst s) /\ both (alike_exn K) (snd r) (snd s).
Proof. exact (fun K E HE j => validate_same K E HE (conv_at E j) (conv_at_same K E HE j)). Qed.
Print Assumptions C88_validate.
(** and assignment. *)
Theorem C88_assignment : forall K E, blind_env K E -> forall j c m n x v w,
  alike_data K m n -> alike K v w -> K x ->
  let r := model_setitem E (conv_at E j) c m x v in let s := model_setitem E (conv_at E j) c n x w in
  alike_data K (fst r) (fst s) /\ both (alike_exn K) (snd r) (snd s).
Proof. exact (fun K E HE j => setitem_same K E HE (conv_at E j) (conv_at_same K E HE j)). Qed.
Print Assumptions C88_assignment.
(** to_primitive() and to_native(): both succeed, with the same data, or both fail. *)
Theorem C88_export : forall K E x, blind_env K E -> blind_export K E x -> forall n c m m',
  alike_data K m m' -> typed_instance E c (VModel c m) ->
  agree (keyed K (alike K)) (model_export_top E (export_at E n) c m x) (model_export_top E (export_at E n) c m' x).
Proof. exact (fun K E x HE HX => export_top_same K E HE x HX). Qed.
Print Assumptions C88_export.
(** Together: Model(data).to_primitive() does not depend on the order of the entries in the data. *)
Theorem C88_import_then_export : forall K E x, blind_env K E -> blind_export K E x -> tidy_env E ->
  (forall c, e_issub E c c = true) -> (forall c n f, In (n, f) (fields_of E c) -> monomorphic (fd_spec f)) ->
  forall j n c d e w m, kw_validate w = false -> kw_mapping w = no_mapping -> kw_convert w = true ->
  alike K (VDict d) (VDict e) ->
  model_init E (conv_at E j) c (VDict d) (VDict []) w = Ok m -> clean (VModel c m) ->
  exists m', model_init E (conv_at E j) c (VDict e) (VDict []) w = Ok m' /\
    agree (keyed K (alike K)) (model_export_top E (export_at E n) c m x) (model_export_top E (export_at E n) c m' x).
Proof. exact import_export_same. Qed.
Print Assumptions C88_import_then_export.

(** The types of the library do not look at the order, neither in their conversions *)
Theorem C88_library_types : forall R K l, common_type R l -> blind K (alike K) (lf_native l).
Proof. exact common_blind. Qed.
Print Assumptions C88_library_types.
(** nor in what they write. *)
Theorem C88_library_types_export : forall R K x l, common_type R l -> blind_form K x l.
Proof. exact common_form. Qed.
Print Assumptions C88_library_types_export.

Example C88_case : blind_env text_key Ecart /\ blind_export text_key Ecart xprim /\ alike text_key cart1 cart2 /\
  cart1 <> cart2 /\ (forall l, In l [string_leaf; int_type rt0 true; geo_type] -> common_type rt0 l) /\ keeps_apart text_key str_key /\
  exists m m', model_init Ecart (conv_at Ecart 8) 1 cart1 (VDict []) kw0 = Ok m /\ clean (VModel 1 m) /\
    model_init Ecart (conv_at Ecart 8) 1 cart2 (VDict []) kw0 = Ok m' /\
    snd (model_validate Ecart (conv_at Ecart 8) 1 m kwv) = None /\
    model_export_top Ecart (export_at Ecart 8) 1 m' xprim =
      Ok [(k "buyer", VDict [(k "name", VStr (u "Bo"))]); (k "prices", VDict [(k "b", VInt 2); (k "a", VInt 1)]);
          (k "extra", VList [VDict [(k "y", VInt 3); (k "x", VNone)]]); (k "n", VInt 2)].
Proof.
  split; [exact cart_blind|]. split; [apply cart_export; discriminate|]. split; [exact carts_alike|]. split; [discriminate|].
  split; [intros l [<-|[<-|[<-|[]]]]; constructor|]. split; [exact str_keeps_apart|].
  eexists. eexists. split; [vm_compute; reflexivity|]. split; [apply (cleanb_ok 9); reflexivity|].
  split; [vm_compute; reflexivity|]. split; vm_compute; reflexivity.
Qed.

(** The statement is not true of a point given as a dictionary: GeoPointType takes the entries in the order in which they
    are given, so one order is valid and the other is not; *)
Theorem C88_points_refuted : exists v w, alike text_key v w /\ lf_native geo_type v = Ok v /\ lf_native geo_type w = Ok w /\
  geo_range v = None /\ geo_range w <> None.
Proof. exact geo_order. Qed.
Print Assumptions C88_points_refuted.
(** nor of keys that [coerce_key] makes equal, as [str] does with 1 and "1": the last one wins. *)
Theorem C88_colliding_keys_refuted : exists d e m n, alike (fun _ => True) (VDict d) (VDict e) /\
  model_init Ebag (conv_at Ebag 5) 0 (VDict d) (VDict []) kw0 = Ok m /\
  model_init Ebag (conv_at Ebag 5) 0 (VDict e) (VDict []) kw0 = Ok n /\ ~ alike_data (fun _ => True) m n.
Proof. exact colliding_keys. Qed.
Print Assumptions C88_colliding_keys_refuted.
