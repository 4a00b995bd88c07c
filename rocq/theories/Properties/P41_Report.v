(** C94: data from outside can only cause a DataError. *)
From Verif.Model Require Import Py Core Export Api Num Types DateTime Enum Net.
From Verif.Spec Require Import ImportSpec FuelSpec ReportSpec.
From Verif.Proofs Require Import ReportFacts ReportTypes ReportWitness.
From Verif.Conformance Require Import Sample TypeSample.
Open Scope string_scope.
Open Scope list_scope.

(** [built A v]: [v] is made of [None], the values [A], lists, mappings and instances, at any depth.  [reporting_env A cl E vb]:
    the types, validators, getters and validate_<field> methods of the program [E], taken one by one, raise nothing but the
    library's errors when given such data; with [cl] what they give back is such data again.  Then the whole does not raise
    anything else: DataError, or RecursionError if the stack is exhausted. *)
Theorem C94_construction : forall A cl E vb, reporting_env A cl E vb -> forall n c raw td w,
  kw_convert w = true -> (kw_validate w = true -> vb = true /\ cl = true) ->
  built A raw -> (truthy raw = true -> a_mapping raw) -> all_built A td ->
  match model_init E (conv_at E n) c raw (VDict td) w with
  | Ok m => cl = true -> built_data A m
  | Raise e => data_error e
  end.
Proof. exact init_reports. Qed.
Print Assumptions C94_construction.
Theorem C94_validate : forall A cl E vb, reporting_env A cl E vb -> forall n c m w,
  kw_convert w = true -> vb = true -> built_data A m ->
  let '(m1, oe) := model_validate E (conv_at E n) c m w in
  match oe with None => True | Some e => data_error e end /\ (cl = true -> built_data A m1).
Proof. exact validate_reports. Qed.
Print Assumptions C94_validate.
Theorem C94_import_data : forall A cl E vb, reporting_env A cl E vb -> forall n c m raw w,
  kw_convert w = true -> kw_validate w = false -> built_data A m -> built A raw -> (truthy raw = true -> a_mapping raw) ->
  let '(m1, oe) := model_import_data E (conv_at E n) c m raw w in
  match oe with None => True | Some e => data_error e end /\ (cl = true -> built_data A m1).
Proof. exact import_reports. Qed.
Print Assumptions C94_import_data.
(** Assigning to a field may raise ConversionError as well. *)
Theorem C94_assignment : forall A cl E vb, reporting_env A cl E vb -> forall n c m y f v,
  In (y, f) (fields_of E c) -> fd_get f = None -> built A v -> built_data A m ->
  let '(m1, oe) := model_setitem E (conv_at E n) c m y v in
  match oe with None => True | Some e => (exists ms, e = XConv ms) \/ data_error e end /\ (cl = true -> built_data A m1).
Proof. exact setitem_reports. Qed.
Print Assumptions C94_assignment.
(** With a stack four times as deep as the data are nested there is no RecursionError (C46) and DataError is all that remains. *)
Theorem C94_only_data_error : forall A cl E vb, reporting_env A cl E vb -> calm_env E -> forall n c raw td w,
  kw_convert w = true -> kw_validate w = false -> built A raw -> (truthy raw = true -> a_mapping raw) -> all_built A td ->
  4 * vdepth raw + 4 <= n -> 4 * vdepth (VDict td) + 8 <= n ->
  match model_init E (conv_at E n) c raw (VDict td) w with Ok _ => True | Raise e => exists errs d, e = XData errs d end.
Proof. exact init_only_data_error. Qed.
Print Assumptions C94_only_data_error.
Theorem C94_validate_only_data_error : forall A cl E, reporting_env A cl E true -> calm_env E -> forall n c m w,
  kw_convert w = true -> built_data A m -> 4 * vdepth (VModel c m) + 4 <= n ->
  match snd (model_validate E (conv_at E n) c m w) with None => True | Some e => exists errs d, e = XData errs d end.
Proof. exact validate_only_data_error. Qed.
Print Assumptions C94_validate_only_data_error.

(** The library's types keep the rules for JSON without infinite numbers and with integers that fit into a float, *)
Theorem C94_types_for_json : forall R l v, plain_leaf R l \/ l = float_type R -> built json_atom v -> v <> VNone ->
  keeps json_atom false (lf_native l v).
Proof. exact json_types. Qed.
Print Assumptions C94_types_for_json.
(** all but FloatType also for any data without infinite numbers, and they make no infinite numbers; *)
Theorem C94_types_for_any_data : forall R l v, plain_leaf R l -> built no_infinity v -> v <> VNone -> keeps no_infinity true (lf_native l v).
Proof. exact closed_types. Qed.
Print Assumptions C94_types_for_any_data.
(** and so do the library's validators on the types they are for. *)
Theorem C94_library_validators : forall R A cl E o l, (forall g, In g (fo_validators o) -> own_check R E l g) ->
  sound_validators A cl E (FS o (TLeaf l)).
Proof. exact library_checks. Qed.
Print Assumptions C94_library_validators.

(** Other exceptions: a top level value that is neither a mapping nor an instance; *)
Theorem C94_top_level_refuted : exists E c v, reporting_env json_atom false E true /\ json_atom v /\
  forall n w, model_init E (conv_at E n) c v (VDict []) w = Raise (XPy ETypeError).
Proof. exact not_a_mapping_witness. Qed.
Print Assumptions C94_top_level_refuted.
(** import_data(..., validate=True) on an instance with a nested instance, which validates with convert=False; *)
Theorem C94_import_and_validate_refuted : exists E c m raw w e,
  reporting_env json_atom false E true /\ reporting_env no_infinity true E true /\ calm_env E /\
  built_data json_atom m /\ kw_convert w = true /\ kw_validate w = true /\ built json_atom (VDict raw) /\
  snd (model_import_data E (conv_at E 9) c m (VDict raw) w) = Some e /\ e = XPy EAttributeError.
Proof. exact import_validate_witness. Qed.
Print Assumptions C94_import_and_validate_refuted.
(** a number for a UUID, infinity for an integer, an integer of 2^1024 for a float, and a text that writes a huge number for
    an instant; and, only when validating, a value that is no mapping for a PolyModelType. *)
Theorem C94_types_refuted :
  model_init (Eone (TLeaf (uuid_type rt0))) (conv_at (Eone (TLeaf (uuid_type rt0))) 9) 0 (VDict [(k "x", VInt 5)]) (VDict []) kw1 = Raise (XPy EAttributeError) /\
  model_init (Eone (TLeaf (int_type rt0 false))) (conv_at (Eone (TLeaf (int_type rt0 false))) 9) 0 (VDict [(k "x", VFloat (S754_infinity false))]) (VDict []) kw1 = Raise (XPy EOverflowError) /\
  model_init (Eone (TLeaf (float_type rt0))) (conv_at (Eone (TLeaf (float_type rt0))) 9) 0 (VDict [(k "x", VInt (2 ^ 1024))]) (VDict []) kw1 = Raise (XPy EOverflowError) /\
  model_init (Eone (TLeaf (utc_type rt0))) (conv_at (Eone (TLeaf (utc_type rt0))) 9) 0 (VDict [(k "x", VStr (u "1e300"))]) (VDict []) kw1 = Raise (XPy EOverflowError) /\
  let p := Poly [1%N] false None in
  model_init (Eone (TPoly p)) (conv_at (Eone (TPoly p)) 9) 0 (VDict [(k "x", VInt 5)]) (VDict []) kw1 = Raise (XData [(k "x", NConv [u "Please use a mapping for this field or an instance"])] []) /\
  model_init (Eone (TPoly p)) (conv_at (Eone (TPoly p)) 9) 0 (VDict [(k "x", VInt 5)]) (VDict []) kwv = Raise (XPy ETypeError).
Proof. exact types_witness. Qed.
Print Assumptions C94_types_refuted.

(** A program with every kind of field (an order with its customer), which meets all conditions, *)
Example C94_case : reporting_env json_atom false Eorder true /\ reporting_env no_infinity true Eorder true /\ calm_env Eorder.
Proof. exact (conj order_json (conj order_any order_calm)). Qed.
(** given data that is wrong everywhere. *)
Definition wrong : list (key * pyval) :=
  [(k "name", VList []); (k "qty", VStr (u "many")); (k "labels", VInt 3); (k "prices", VDict [(k "EUR", VStr (u "x")); (k "USD", VInt 7)]);
   (k "customer", VDict [(k "mail", VBool true)]); (k "code", VDict [])].
Example C94_case_wrong : built json_atom (VDict wrong) /\
  model_init Eorder (conv_at Eorder 20) 0 (VDict wrong) (VDict []) kw1 = Raise (XData
    [(k "name", NConv [u "convert"]); (k "qty", NConv [u "number_coerce"]); (k "labels", NConv [u "Could not interpret the value as a list"]);
     (k "prices", NDict [(k "EUR", NConv [u "number_coerce"])]); (k "customer", NDict [(k "mail", NConv [u "convert"])]);
     (k "code", NConv [u "convert"])]
    [(k "customer", VDict [])]).
Proof.
  assert (St : forall s, built json_atom (VStr s)) by (intros s; apply bu_atom; [reflexivity|discriminate|exact I|discriminate]).
  assert (In : forall z, json_atom (VInt z) -> built json_atom (VInt z)) by (intros z H; apply bu_atom; [reflexivity|discriminate|exact H|discriminate]).
  split; [|vm_compute; reflexivity].
  apply bu_dict. intros n v Hi. cbn in Hi. each.
  - apply bu_list. intros v [].
  - apply St.
  - apply In. cbn. eexists. vm_compute. reflexivity.
  - apply bu_dict. intros n v Hi. cbn in Hi. each; [apply St|]. apply In. cbn. eexists. vm_compute. reflexivity.
  - apply bu_dict. intros n v Hi. cbn in Hi. each. apply bu_atom; [reflexivity|discriminate|exact I|discriminate].
  - apply bu_dict. intros n v Hi. destruct Hi.
Qed.
(** The library's types and validators of the sample. *)
Example C94_case_types : plain_leaf rt0 (int_type rt0 false) /\ own_check rt0 Eorder string_leaf (validate_length None (Some 5%Z)).
Proof. split; constructor. Qed.
