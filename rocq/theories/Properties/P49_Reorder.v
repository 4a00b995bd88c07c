(** C102: the order in which the fields of a class are declared does not matter. *)
From Coq Require Import Permutation.
From Verif.Model Require Import Py Core Export Api.
From Verif.Spec Require Import ImportSpec ValidateSpec ExportSpec DeepSpec PrimitiveSpec OrderSpec ReorderSpec.
From Verif.Proofs Require Import DictLemmas OrderFacts OrderMain OrderExport PrimitiveFacts ReorderMain ReorderFit ReorderExport
  ExportWitness PrimitiveWitness OrderWitness ReorderWitness.
From Verif.Conformance Require Import Sample TypeSample.
Open Scope string_scope.
Open Scope list_scope.

(** [E] and [E'] are two programs that differ in the order of the fields of their classes ([reordered]).
    Model(data) with plain data, with or without validation: both give instances with the same data, or raise the same errors. *)
Theorem C102_plain_data : forall K E E', blind_env K E -> reordered E E' -> steady_env E -> apart_env E ->
  forall j c d w, sound_value K (VDict d) -> instance_free (VDict d) -> kw_mapping w = no_mapping -> kw_convert w = true ->
  alike_res K (alike_data K) (model_init E (conv_at E j) c (VDict d) (VDict []) w) (model_init E' (conv_at E' j) c (VDict d) (VDict []) w).
Proof. exact plain_construct. Qed.
Print Assumptions C102_plain_data.
(** The data may contain instances, except where a list is asked for ([fit_input]). *)
Theorem C102_construction : forall K E E', blind_env K E -> reordered E E' -> steady_env E -> apart_env E ->
  forall j c raw raw' w, alike K raw raw' -> fit_input E c raw -> kw_mapping w = no_mapping -> kw_convert w = true ->
  alike_res K (alike_data K) (model_init E (conv_at E j) c raw (VDict []) w) (model_init E' (conv_at E' j) c raw' (VDict []) w).
Proof. exact construct_same. Qed.
Print Assumptions C102_construction.
(** The same with trusted data and with convert=False, and for fields that share keys or have a polymorphic type. *)
Theorem C102_construction_trusted : forall K E E', blind_env K E -> reordered E E' -> steady_env E ->
  forall j c raw raw' td td' w, alike K raw raw' -> alike K td td' -> kw_mapping w = no_mapping -> kw_validate w = false ->
  fit_input E c raw -> fit_input E c td ->
  alike_res K (alike_data K) (model_init E (conv_at E j) c raw td w) (model_init E' (conv_at E' j) c raw' td' w).
Proof. exact (fun K E E' HE HR HS j => init_same K E E' HE HR HS (conv_at E j) (conv_at E' j) (conv_at_same K E E' HE HR HS j)). Qed.
Print Assumptions C102_construction_trusted.
(** import_data: the same effect on the instance and the same outcome; *)
Theorem C102_import_data : forall K E E', blind_env K E -> reordered E E' -> steady_env E ->
  forall j c m n raw raw' w, alike_data K m n -> alike K raw raw' -> kw_mapping w = no_mapping -> kw_validate w = false ->
  fit_data E c m -> fit_input E c raw ->
  let r := model_import_data E (conv_at E j) c m raw w in let s := model_import_data E' (conv_at E' j) c n raw' w in
  alike_data K (fst r) (fst s) /\ both (alike_exn K) (snd r) (snd s).
Proof. exact (fun K E E' HE HR HS j => import_data_same K E E' HE HR HS (conv_at E j) (conv_at E' j) (conv_at_same K E E' HE HR HS j)). Qed.
Print Assumptions C102_import_data.
(** so has validate(), *)
Theorem C102_validate : forall K E E', blind_env K E -> reordered E E' -> steady_env E ->
  forall j c m n w, alike_data K m n -> kw_mapping w = no_mapping -> fit_data E c m ->
  let r := model_validate E (conv_at E j) c m w in let s := model_validate E' (conv_at E' j) c n w in
  alike_data K (fst r) (fst s) /\ both (alike_exn K) (snd r) (snd s).
Proof. exact (fun K E E' HE HR HS j => validate_same K E E' HE HR HS (conv_at E j) (conv_at E' j) (conv_at_same K E E' HE HR HS j)). Qed.
Print Assumptions C102_validate.
(** and assignment. *)
Theorem C102_assignment : forall K E E', blind_env K E -> reordered E E' -> steady_env E ->
  forall j c m n x v w, alike_data K m n -> alike K v w -> K x ->
  (forall f, dget x (mc_fields (e_class E c)) = Some f -> fit E (fd_spec f) v) ->
  let r := model_setitem E (conv_at E j) c m x v in let s := model_setitem E' (conv_at E' j) c n x w in
  alike_data K (fst r) (fst s) /\ both (alike_exn K) (snd r) (snd s).
Proof. exact (fun K E E' HE HR HS j => setitem_same K E E' HE HR HS (conv_at E j) (conv_at E' j) (conv_at_same K E E' HE HR HS j)). Qed.
Print Assumptions C102_assignment.
(** Instances made by Model(data) are as the theorem on validate() asks. *)
Theorem C102_made_fit : forall K E, blind_env K E -> steady_env E -> apart_env E -> forall j c raw w m,
  fit_input E c raw -> kw_mapping w = no_mapping -> kw_convert w = true -> kw_validate w = false ->
  model_init E (conv_at E j) c raw (VDict []) w = Ok m -> fit_data E c m.
Proof. exact (fun K E HE HS HA j c raw w m => init_fit K E HE HS HA (conv_at E j) c raw w m (conv_at_fit K E HE HS HA j)). Qed.
Print Assumptions C102_made_fit.
(** Model(data).validate() *)
Theorem C102_import_then_validate : forall K E E', blind_env K E -> reordered E E' -> steady_env E -> apart_env E ->
  forall j c d w w2 m, sound_value K (VDict d) -> instance_free (VDict d) ->
  kw_mapping w = no_mapping -> kw_convert w = true -> kw_validate w = false -> kw_mapping w2 = no_mapping ->
  model_init E (conv_at E j) c (VDict d) (VDict []) w = Ok m ->
  exists m', model_init E' (conv_at E' j) c (VDict d) (VDict []) w = Ok m' /\
    let r := model_validate E (conv_at E j) c m w2 in let s := model_validate E' (conv_at E' j) c m' w2 in
    alike_data K (fst r) (fst s) /\ both (alike_exn K) (snd r) (snd s).
Proof. exact reorder_import_validate. Qed.
Print Assumptions C102_import_then_validate.
(** to_primitive() and to_native(): both succeed, with the same data, or both fail. *)
Theorem C102_export : forall K E E' x, blind_env K E -> reordered E E' -> steady_env E -> blind_export K E x -> forall n c m m',
  alike_data K m m' -> typed_instance E c (VModel c m) ->
  agree (keyed K (alike K)) (model_export_top E (export_at E n) c m x) (model_export_top E' (export_at E' n) c m' x).
Proof. exact (fun K E E' x HE HR HS HX => export_top_same K E E' HE HR HS x HX). Qed.
Print Assumptions C102_export.
(** Model(data).to_primitive() *)
Theorem C102_import_then_export : forall K E E' x, blind_env K E -> reordered E E' -> steady_env E -> blind_export K E x -> tidy_env E ->
  (forall c, e_issub E c c = true) -> (forall c n f, In (n, f) (fields_of E c) -> monomorphic (fd_spec f)) ->
  forall j n c d w m, kw_validate w = false -> kw_mapping w = no_mapping -> kw_convert w = true ->
  sound_value K (VDict d) -> instance_free (VDict d) ->
  model_init E (conv_at E j) c (VDict d) (VDict []) w = Ok m -> clean (VModel c m) ->
  exists m', model_init E' (conv_at E' j) c (VDict d) (VDict []) w = Ok m' /\
    agree (keyed K (alike K)) (model_export_top E (export_at E n) c m x) (model_export_top E' (export_at E' n) c m' x).
Proof. exact reorder_import_export. Qed.
Print Assumptions C102_import_then_export.

Example C102_case : blind_env text_key Ecart /\ blind_export text_key Ecart xprim /\ reordered Ecart (reversed Ecart) /\
  steady_env Ecart /\ apart_env Ecart /\ sound_value text_key cart1 /\ instance_free cart1 /\
  exists m m', model_init Ecart (conv_at Ecart 8) 1 cart1 (VDict []) kw0 = Ok m /\ clean (VModel 1 m) /\
    model_init (reversed Ecart) (conv_at (reversed Ecart) 8) 1 cart1 (VDict []) kw0 = Ok m' /\ m <> m' /\
    snd (model_validate (reversed Ecart) (conv_at (reversed Ecart) 8) 1 m' kwv) = None /\
    model_export_top Ecart (export_at Ecart 8) 1 m xprim =
      Ok [(k "buyer", VDict [(k "name", VStr (u "Bo"))]); (k "prices", VDict [(k "a", VInt 1); (k "b", VInt 2)]);
          (k "extra", VList [VDict [(k "x", VNone); (k "y", VInt 3)]]); (k "n", VInt 2)] /\
    model_export_top (reversed Ecart) (export_at (reversed Ecart) 8) 1 m' xprim =
      Ok [(k "n", VInt 2); (k "extra", VList [VDict [(k "x", VNone); (k "y", VInt 3)]]);
          (k "prices", VDict [(k "a", VInt 1); (k "b", VInt 2)]); (k "buyer", VDict [(k "name", VStr (u "Bo"))])].
Proof.
  split; [exact cart_blind|]. split; [apply cart_export; discriminate|]. split; [apply reversed_reordered|]. split; [exact cart_steady|].
  split; [exact cart_apart|]. split; [exact cart1_sound|]. split; [exact cart1_free|].
  eexists. eexists. split; [vm_compute; reflexivity|]. split; [apply (cleanb_ok 9); reflexivity|].
  split; [vm_compute; reflexivity|]. split; [discriminate|]. split; [vm_compute; reflexivity|]. split; vm_compute; reflexivity.
Qed.

(** The statement is not true of an instance given for a list: it becomes the list of the names of its fields, in the order in
    which they are declared; *)
Theorem C102_lists_refuted : exists E E', blind_env text_key E /\ reordered E E' /\ steady_env E /\
  exists raw, sound_value text_key raw /\ exists m m',
    model_init E (conv_at E 6) 1 raw (VDict []) kw0 = Ok m /\ model_init E' (conv_at E' 6) 1 raw (VDict []) kw0 = Ok m' /\
    ~ alike_data text_key m m'.
Proof.
  exact (ex_intro _ Ebox (ex_intro _ (reversed Ebox) (conj box_blind (conj (reversed_reordered Ebox) (conj box_steady
    (ex_intro _ _ (conj note_sound list_of_names))))))).
Qed.
Print Assumptions C102_lists_refuted.
(** nor of two fields with one public name: what is exported under it is the one declared last. *)
Theorem C102_same_names_refuted : exists E E', reordered E E' /\ exists raw m m',
    model_init E (conv_at E 5) 0 raw (VDict []) kw0 = Ok m /\ model_init E' (conv_at E' 5) 0 raw (VDict []) kw0 = Ok m' /\
    model_export_top E (export_at E 5) 0 m xprim = Ok [(k "x", VInt 2)] /\
    model_export_top E' (export_at E' 5) 0 m' xprim = Ok [(k "x", VInt 1)].
Proof. exact (ex_intro _ Etwice (ex_intro _ (reversed Etwice) (conj (reversed_reordered Etwice) (ex_intro _ _ twice_exports)))). Qed.
Print Assumptions C102_same_names_refuted.
