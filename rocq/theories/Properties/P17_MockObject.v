(** C69, C70: mock values and mock objects.

    [R] makes the random choices, [fields] gives the fields of each class, [make] is its constructor.  [mock_object R
    fields make n overrides c w]: [c.get_mock_object(context, overrides)] with at most [n] nested calls, where [w] holds
    the classes already visited and the random state. *)
From Verif.Model Require Import Py Core Num Types Mock Calendar DateTime LeafMock MockObject.
From Verif.Spec Require Import EnumSpec TypeSpec DateSpec MockSpec.
From Verif.Proofs Require Import DateMore LeafMockFacts MockObjectFacts MockWitness TypeWitness.
From Verif.Conformance Require Import TypeSample.
From Coq Require Import QArith SpecFloat.
Open Scope string_scope.
Local Open Scope Z_scope.

(** C69: the mock value of a type is accepted, unchanged, by the same type and its validators. *)
Theorem C69_hashes : forall R pick len, (forall i, hexdigit (pick i)) -> (0 < len)%nat ->
  lf_native (hash_type R len) (hash_mock pick len) = Ok (hash_mock pick len).
Proof. exact hash_mock_ok. Qed.
Print Assumptions C69_hashes.
Theorem C69_dates : forall R fmts y m d, 0 <= y < 600 -> 0 <= m < 12 -> 0 <= d < 28 ->
  calendar_date (mock_date y m d) /\ lf_native (date_type R fmts) (date_mock y m d) = Ok (date_mock y m d).
Proof. exact date_mock_fine. Qed.
Print Assumptions C69_dates.
(** Whatever the options for time zones. *)
Theorem C69_datetimes : forall R o e y m d t naive h mi,
  lf_native (dt_type R o e) (dt_mock o y m d t naive h mi) = Ok (dt_mock o y m d t naive h mi) /\
  validate_tz o (dt_mock o y m d t naive h mi) = None.
Proof. exact dt_mock_ok. Qed.
Print Assumptions C69_datetimes.
Theorem C69_geo_points : forall lat lon, -90 <= lat < 90 -> -180 <= lon < 180 ->
  lf_native geo_type (geo_mock lat lon) = Ok (geo_mock lat lon) /\ geo_range (geo_mock lat lon) = None.
Proof. exact geo_mock_ok. Qed.
Print Assumptions C69_geo_points.
Theorem C69_floats : forall R uniform lo hi v,
  (forall a b, a <= b -> exists q, value_of (VFloat (uniform a b)) q /\ (inject_Z a <= q)%Q /\ (q <= inject_Z b)%Q) ->
  float_mock uniform lo hi = Some v ->
  lf_native (float_type R) v = Ok v /\ validate_range (option_map VInt lo) (option_map VInt hi) v = None.
Proof. exact float_mock_ok. Qed.
Print Assumptions C69_floats.
Theorem C69_decimals : forall R uniform lo hi v,
  (forall a b, a <= b -> exists q, value_of (VDecimal (fst (uniform a b)) (snd (uniform a b))) q /\
     (inject_Z a <= q)%Q /\ (q <= inject_Z b)%Q) ->
  decimal_mock uniform lo hi = Some v ->
  lf_native (decimal_type R) v = Ok v /\ validate_range (option_map VInt lo) (option_map VInt hi) v = None.
Proof. exact decimal_mock_ok. Qed.
Print Assumptions C69_decimals.
Theorem C69_uuids_booleans_and_timedeltas : forall R p n b us,
  lf_native (uuid_type R) (uuid_mock n) = Ok (uuid_mock n) /\ lf_native bool_type (bool_mock b) = Ok (bool_mock b) /\
  lf_native (delta_type R p) (delta_mock us) = Ok (delta_mock us).
Proof. exact simple_mocks_ok. Qed.
Print Assumptions C69_uuids_booleans_and_timedeltas.
(** MultilingualStringType: every mock value is refused by the type itself. *)
Theorem C69_multilingual_texts_refuted : forall ctx dflt draw pick lo hi v, multi_mock draw pick lo hi = Some v ->
  exists e, lf_native (multi_type ctx dflt) v = Raise e /\ field_error e.
Proof. exact multi_mock_refused. Qed.
Print Assumptions C69_multilingual_texts_refuted.
(** ListType: the elements of a mocked list need not be among the choices of the element type. *)
Theorem C69_choices_of_list_elements_refuted : exists ch t w l v,
  fst (type_mock counting (fun _ w => (inr VNone, w)) (MList None None (Some ch) t) w) = inr (VList l) /\
  In v l /\ ~ In v ch.
Proof. exact element_choices_ignored. Qed.
Print Assumptions C69_choices_of_list_elements_refuted.

Example C69_case :
  hexdigit 102 /\ lf_native (hash_type rt0 4) (VStr (u "0fFa")) = Ok (VStr (u "0fFa")) /\
  dt_mock utc_opts 99 1 27 (PyTime 23 59 59 999999) false 3 30 = VDateTime (PyDate 1999 2 28) (PyTime 23 59 59 999999) None /\
  dt_mock (DtOpts Allow_tz false false PBuiltin) 0 0 0 (PyTime 0 0 0 0) false (-12) 45 =
    VDateTime (PyDate 1900 1 1) (PyTime 0 0 0 0) (Some (-40500)) /\
  float_mock (fun a b => S754_finite false 1 (-1)) None (Some 3) = Some (VFloat (S754_finite false 1 (-1))) /\
  multi_mock (fun a b => a) (fun _ => 97%N) (Some 2) None = Some (VStr (u "aa")).
Proof. split; [unfold hexdigit; lia|]. repeat split. Qed.

(** C70: a mock object exists also for recursive models: the depth of nested calls is at most the number of classes. *)
Theorem C70_depth_is_bounded : forall St (R : rng St) fields make U c overrides n w,
  closed fields U -> In c U -> (length U <= n)%nat ->
  (forall c x f d s s', In (x, f) (fields c) -> draws (mf_type f) d -> d s <> (inl (Other XFuel), s')) ->
  (forall c args, make c args <> Raise XFuel) ->
  fst (mock_object R fields make n overrides c w) <> inl (Other XFuel).
Proof. exact (@never_too_deep). Qed.
Print Assumptions C70_depth_is_bounded.
Theorem C70_more_depth_changes_nothing : forall St (R : rng St) fields make U c overrides n w,
  closed fields U -> In c U -> (length U <= n)%nat ->
  mock_object R fields make n overrides c w = mock_object R fields make (length U) overrides c w.
Proof. exact (@enough_depth). Qed.
Print Assumptions C70_more_depth_changes_nothing.

(** It is made from the overrides and, for other fields, from the default of an optional field, one of the choices, or
    mock data of the type of the field. *)
Theorem C70_what_a_mock_object_is_made_of : forall St (R : rng St) fields make, fair_rng R ->
  forall n overrides c w v w', mock_object R fields make n overrides c w = (inr v, w') -> NoDup (dkeys overrides) ->
  exists args, make c args = Ok v /\ (forall x u, dget x overrides = Some u -> dget x args = Some u) /\
    forall x u, dget x args = Some u -> dget x overrides = None ->
    exists f, In (x, f) (fields c) /\ field_gives fields make f u.
Proof. exact (@object_ok). Qed.
Print Assumptions C70_what_a_mock_object_is_made_of.

(** A field gets a value unless its model class is this class, or has been used for an earlier field. *)
Theorem C70_fields_with_a_value : forall St (R : rng St) fields make n overrides c w v w' pre x f post,
  mock_object R fields make n overrides c w = (inr v, w') ->
  fields c = (pre ++ (x, f) :: post)%list -> dget x overrides = None ->
  (forall d, model_class_of (mf_type f) = Some d ->
     d <> c /\ ~ In d (fst w) /\ forall y g, In (y, g) pre -> ~ reached fields g d) ->
  exists args, make c args = Ok v /\ dget x args <> None.
Proof. exact (@field_filled). Qed.
Print Assumptions C70_fields_with_a_value.

Theorem C70_fields_without_a_value : forall St (R : rng St) fields make n overrides c w v w' x,
  mock_object R fields make n overrides c w = (inr v, w') -> NoDup (dkeys overrides) -> dget x overrides = None ->
  (forall f, In (x, f) (fields c) -> exists d, model_class_of (mf_type f) = Some d /\ (d = c \/ In d (fst w))) ->
  exists args, make c args = Ok v /\ dget x args = None.
Proof. exact (@field_skipped). Qed.
Print Assumptions C70_fields_without_a_value.

(** The second of two required fields with the same model class gets none. *)
Theorem C70_required_fields_have_values_refuted : exists (fields : cid -> list (key * mfield nat)) c x f,
  In (x, f) (fields c) /\ mf_required f = true /\
  forall R s, exists args, fst (mock_object R fields keep 2 [] c ([], s)) = inr (VDict args) /\ dget x args = None.
Proof. exact second_field_skipped. Qed.
Print Assumptions C70_required_fields_have_values_refuted.
(** Of the models in a mocked list only the first has nested models. *)
Theorem C70_list_elements_are_alike_refuted : forall R, fair_rng R -> forall s,
  fst (mock_object R kennel keep 3 [] 1%N ([], s)) =
  inr (VDict [(k "dogs", VList [VDict [(k "owner", VDict [])]; VDict []])]).
Proof. exact elements_differ. Qed.
Print Assumptions C70_list_elements_are_alike_refuted.
(** MockCreationError is never raised; AttributeError takes its place. *)
Theorem C70_creation_errors_do_not_escape : forall St (R : rng St) fields make n overrides c w,
  fst (mock_object R fields make n overrides c w) <> inl MockCreation.
Proof. exact (@no_creation_error). Qed.
Print Assumptions C70_creation_errors_do_not_escape.
Theorem C70_creation_errors_are_reported_refuted : exists (fields : cid -> list (key * mfield nat)) c s,
  fst (field_mock counting (fun _ w => (inr VNone, w)) (req (MDraw no_draw)) ([], s)) = inl MockCreation /\
  fields c = [(k "name", req (MDraw no_draw))] /\
  fst (mock_object counting fields keep 1 [] c ([], s)) = inl (Other (XPy EAttributeError)).
Proof. exact creation_error_lost. Qed.
Print Assumptions C70_creation_errors_are_reported_refuted.

Example C70_case : fair_rng counting /\ closed people [1%N; 2%N] /\ NoDup (dkeys [(k "name", VStr (u "Ann"))]) /\
  fst (mock_object counting people keep 2 [(k "name", VStr (u "Ann"))] 1%N ([], 1%nat)) =
    inr (VDict [(k "pet", VDict [(k "kind", VStr (u "dog"))]); (k "notes", VNone); (k "name", VStr (u "Ann"))]).
Proof.
  split; [exact counting_fair|]. split; [exact people_closed|]. split; [|reflexivity].
  constructor; [intros []|constructor].
Qed.
