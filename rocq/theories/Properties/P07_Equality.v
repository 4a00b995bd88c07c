(** C21: equality of model instances; C56: the choices validator.

    [eq_at E n a b] is [a == b] for two distinct objects with recursion depth [n]; [model_eq E n same a b] adds the
    identity shortcut.  [held m x] is what [m.get(x)] gives. *)
From Verif.Model Require Import Py Core Num Calendar Api Equality.
From Verif.Spec Require Import ImportSpec FuelSpec EqSpec.
From Verif.Proofs Require Import EqLemmas EqWitness EqParts Tight.
From Verif.Conformance Require Import Sample.
Open Scope string_scope.
Open Scope list_scope.

(** ** C21 *)
Theorem C21_an_instance_equals_itself : forall E n a b, model_eq E n true a b = Ok true.
Proof. exact same_object. Qed.
Print Assumptions C21_an_instance_equals_itself.

Theorem C21_copies_are_equal :
  forall E, (forall c, plain_fields (fields_of E c)) ->
    forall n v, no_nan v -> vdepth v < n -> eq_at E n v v = Ok true.
Proof. exact copy_equal. Qed.
Print Assumptions C21_copies_are_equal.

(** [m1 == m2] iff they are of the same class and [m2] reads the same at every field that [m1] holds. *)
Theorem C21_meaning_of_equality :
  forall E, (forall c, plain_fields (fields_of E c)) ->
    forall n c a b, eq_at E (S n) (VModel c a) (VModel c b) = Ok true <->
      forall x f, In (x, f) (fields_of E c) -> chain_mem a x = true -> eq_at E n (held a x) (held b x) = Ok true.
Proof. exact model_eq_iff. Qed.
Print Assumptions C21_meaning_of_equality.

(** Lists (and tuples) are equal iff they have the same length and equal elements; dictionaries iff they have the same
    keys and equal values under each; texts and integers iff they are the same. *)
Theorem C21_meaning_for_lists :
  forall E n a b,
    (eq_at E (S n) (VList a) (VList b) = Ok true <-> Forall2 (fun x y => eq_at E n x y = Ok true) a b) /\
    (eq_at E (S n) (VTuple a) (VTuple b) = Ok true <-> Forall2 (fun x y => eq_at E n x y = Ok true) a b).
Proof. exact (fun E n a b => conj (lists_equal E n a b) (tuples_equal E n a b)). Qed.
Print Assumptions C21_meaning_for_lists.

Theorem C21_meaning_for_dicts :
  forall E n a b, NoDup (dkeys a) -> NoDup (dkeys b) ->
    (eq_at E (S n) (VDict a) (VDict b) = Ok true <->
     (forall x, In x (dkeys a) <-> In x (dkeys b)) /\
     (forall x v w, dget x a = Some v -> dget x b = Some w -> eq_at E n v w = Ok true)).
Proof. exact dicts_equal. Qed.
Print Assumptions C21_meaning_for_dicts.

Theorem C21_meaning_for_texts_and_integers :
  forall E n,
    (forall s t, eq_at E (S n) (VStr s) (VStr t) = Ok true <-> s = t) /\
    (forall a b, eq_at E (S n) (VInt a) (VInt b) = Ok true <-> a = b).
Proof. exact (fun E n => conj (texts_equal E n) (ints_equal E n)). Qed.
Print Assumptions C21_meaning_for_texts_and_integers.

(** Values without parts are equal iff they are the same number, text, day, moment, duration or object. *)
Theorem C21_meaning_for_simple_values :
  forall E n a b, ~ same_container a b -> (forall c c' m m', a = VModel c m -> b <> VModel c' m') ->
    (eq_at E (S n) a b = Ok true <-> equal_atoms a b).
Proof. exact simple_equal. Qed.
Print Assumptions C21_meaning_for_simple_values.

Example C21_case_simple :
  eq_at Esample 1 (VDate (PyDate 2024 2 29)) (VDate (PyDate 2024 2 28)) = Ok false /\
  eq_at Esample 1 (VDateTime (PyDate 2024 2 29) (PyTime 23 30 0 0) (Some 0%Z)) (VDateTime (PyDate 2024 3 1) (PyTime 0 30 0 0) (Some 3600%Z)) = Ok true /\
  eq_at Esample 1 (VBool true) (VDecimal 10 (-1)) = Ok true /\ eq_at Esample 1 (VStr (u "1")) (VInt 1) = Ok false /\
  ~ same_container (VBool true) (VDecimal 10 (-1)).
Proof. repeat split. intros []. Qed.

Example C21_case_containers :
  eq_at Esample 3 (VDict [(k "a", VInt 1); (k "b", VList [])]) (VDict [(k "b", VList []); (k "a", VInt 1)]) = Ok true /\
  eq_at Esample 3 (VList [VInt 1]) (VList [VInt 1; VInt 2]) = Ok false /\
  eq_at Esample 3 (VDict [(k "a", VInt 1)]) (VDict [(k "b", VInt 1)]) = Ok false.
Proof. repeat split. Qed.

Theorem C21_different_classes_are_unequal :
  forall E n c d a b, c <> d -> eq_at E (S n) (VModel c a) (VModel d b) = Ok false.
Proof. exact classes_differ. Qed.
Print Assumptions C21_different_classes_are_unequal.

(** Comparison always gives an answer. *)
Theorem C21_comparison_succeeds :
  forall E, (forall c, plain_fields (fields_of E c)) ->
    forall n a b, vdepth a < n -> exists t, eq_at E n a b = Ok t.
Proof. exact eq_total. Qed.
Print Assumptions C21_comparison_succeeds.

Theorem C21_symmetric_on_the_same_fields :
  forall E, (forall c, plain_fields (fields_of E c)) ->
    forall n a b, same_fields E a b -> vdepth a < n -> vdepth b < n -> eq_at E n a b = eq_at E n b a.
Proof. exact eq_symmetric. Qed.
Print Assumptions C21_symmetric_on_the_same_fields.

Theorem C21_unequal_is_the_negation :
  forall E n same a b t, model_eq E n same a b = Ok t <-> model_ne E n same a b = Ok (negb t).
Proof. exact ne_is_not_eq. Qed.
Print Assumptions C21_unequal_is_the_negation.

Example C21_case : (forall c, plain_fields (fields_of Esample c)) /\
  same_fields Esample (pers [(k "name", VInt 1); (k "home", home1)]) (pers [(k "home", home2); (k "name", VStr (u "x"))]) /\
  eq_at Esample 9 (pers [(k "name", VInt 1); (k "home", home1)]) (pers [(k "home", home1); (k "name", VFloat (S754_finite false 1 0))]) = Ok true /\
  no_nan home1.
Proof.
  split; [exact sample_plain|]. split; [exact same_fields_sample|]. split; [reflexivity|].
  apply nn_model. intros x v. cbn. destruct (key_eqb x (k "street")); [|discriminate]. intros [= <-]. constructor.
Qed.

(** Without that proviso equality is not symmetric: a Person without name equals any Person, not conversely. *)
Theorem C21_symmetric_refuted :
  exists a b, eq_at Esample 5 a b = Ok true /\ eq_at Esample 5 b a = Ok false.
Proof. exact asymmetric. Qed.
Print Assumptions C21_symmetric_refuted.

Theorem C21_transitive_refuted :
  exists a b c, eq_at Esample 5 a b = Ok true /\ eq_at Esample 5 b c = Ok true /\ eq_at Esample 5 a c = Ok false.
Proof. exact not_transitive. Qed.
Print Assumptions C21_transitive_refuted.

(** An instance holding NaN is not equal to its own copy. *)
Theorem C21_copies_with_nan_refuted : exists a, eq_at Esample 5 a a = Ok false.
Proof. exact nan_copy. Qed.
Print Assumptions C21_copies_with_nan_refuted.

(** ** C56 *)
Theorem C56_accepts_exactly_the_choices :
  forall E n l v, (forall w, In w l -> exists t, eq_at E n w v = Ok t) ->
    (validate_choices E n (Some l) v = None <-> exists w, In w l /\ eq_at E n w v = Ok true) /\
    (validate_choices E n (Some l) v = Some (XValid false [m_choices]) <-> forall w, In w l -> eq_at E n w v = Ok false).
Proof. exact choices_accept. Qed.
Print Assumptions C56_accepts_exactly_the_choices.

Theorem C56_without_choices_everything_passes : forall E n v, validate_choices E n None v = None.
Proof. exact no_choices. Qed.
Print Assumptions C56_without_choices_everything_passes.

Example C56_case : validate_choices Esample 3 (Some [VInt 1; VStr (u "x")]) (VBool true) = None /\
  validate_choices Esample 3 (Some [VInt 1; VStr (u "x")]) (VStr (u "y")) = Some (XValid false [m_choices]).
Proof. split; reflexivity. Qed.
