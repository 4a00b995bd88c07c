(** C67, C68: type classes. *)
From Verif.Model Require Import Py Core TypeClass.
From Verif.Spec Require Import TypeClassSpec.
From Verif.Proofs Require Import TypeClassFacts TypeClassWitness.

(** C67: the validators of a type class are the functions named [validate_...] that it or a type class among its
    ancestors defines, each once. *)
Theorem C67_which_validators : forall A (P : list (tcls A)), types P -> forall c x,
  (In x (validator_names P c) <->
   validator_name x /\ exists d, In d (mro P c) /\ type_class P d /\ has_own P d x).
Proof. exact (@which_validators). Qed.
Print Assumptions C67_which_validators.

Theorem C67_each_validator_once : forall A (P : list (tcls A)) c, types P -> NoDup (validator_names P c).
Proof. exact (@validators_once). Qed.
Print Assumptions C67_each_validator_once.

(** The ancestors of a class are its bases and their ancestors, each once. *)
Theorem C67_ancestors : forall A (P : list (tcls A)) meta bases messages body P',
  types P -> (forall b, In b bases -> b < length P) ->
  define_type P meta bases messages body = Ok P' ->
  NoDup (mro P' (length P)) /\
  forall d, In d (mro P' (length P)) <-> d = length P \/ exists b, In b bases /\ In d (mro P b).
Proof. exact (@ancestors). Qed.
Print Assumptions C67_ancestors.

(** They run in this order: those of the last base first, and the class's own last, as they are written. *)
Theorem C67_order_of_validators : forall A (P : list (tcls A)) meta bases messages body P',
  types P -> (forall b, In b bases -> b < length P) -> NoDup (map fst body) ->
  (forall d, messages = Some d -> NoDup (map fst d)) ->
  define_type P meta bases messages body = Ok P' -> type_class P' (length P) ->
  validator_names P' (length P) =
  firsts (concat (map (validator_names P) (rev bases)) ++ filter is_validate (map fst body)).
Proof. exact (@order_of_validators). Qed.
Print Assumptions C67_order_of_validators.

(** With one base: its validators, in its order, then the new ones. *)
Theorem C67_validators_of_a_subclass : forall A (P : list (tcls A)) meta b messages body P',
  types P -> b < length P -> NoDup (map fst body) ->
  (forall d, messages = Some d -> NoDup (map fst d)) ->
  define_type P meta [b] messages body = Ok P' -> type_class P' (length P) ->
  validator_names P' (length P) =
  validator_names P b ++ filter (fun x => is_validate x && negb (kmem x (validator_names P b))) (map fst body).
Proof. exact (@validators_of_a_subclass). Qed.
Print Assumptions C67_validators_of_a_subclass.

(** What a class defines itself is what runs; what it does not define is what its base runs. *)
Theorem C67_own_validator : forall A (P : list (tcls A)) meta bases messages body P',
  types P -> (forall b, In b bases -> b < length P) -> NoDup (map fst body) ->
  (forall d, messages = Some d -> NoDup (map fst d)) ->
  define_type P meta bases messages body = Ok P' ->
  forall x f self, type_class P' (length P) -> validator_name x -> dget x body = Some (TFun f) ->
  method P' (length P) self x = bind self (prepare 3 f).
Proof. exact (@own_validator). Qed.
Print Assumptions C67_own_validator.

Theorem C67_inherited_validator : forall A (P : list (tcls A)) meta b messages body P',
  types P -> b < length P -> NoDup (map fst body) ->
  (forall d, messages = Some d -> NoDup (map fst d)) ->
  define_type P meta [b] messages body = Ok P' ->
  forall x self, dget x body = None -> method P' (length P) self x = method P b self x.
Proof. exact (@inherited_validator). Qed.
Print Assumptions C67_inherited_validator.

(** A validator may leave out the context: methods [(self, value)] and [(self, value, context)], functions [(value)] and
    [(value, context)], get just these arguments. *)
Theorem C67_context_is_optional : forall A (body : list A -> option exn) self v ctx,
  call (prepare 2 (PF 1 false 0 false body)) [v; ctx] = body [v] /\
  call (prepare 2 (PF 2 false 0 false body)) [v; ctx] = body [v; ctx] /\
  call (bind self (prepare 3 (PF 2 false 0 false body))) [v; ctx] = body [self; v] /\
  call (bind self (prepare 3 (PF 3 false 0 false body))) [v; ctx] = body [self; v; ctx] /\
  call (bind self (prepare 3 (PF 3 false 1 false body))) [v; ctx] = body [self; v; ctx].
Proof. exact (@context_is_optional). Qed.
Print Assumptions C67_context_is_optional.

(** A value passes if and only if every validator of the class and every one given to the field passes it. *)
Theorem C67_what_passes : forall A (P : list (tcls A)) c self given (val : pyval -> A) ctx v w,
  validators_result (map (as_vldr val ctx) (field_validators P c self given)) v = Ok w <->
  w = v /\ (forall x, In x (validator_names P c) -> call (method P c self x) [val v; ctx] = None) /\
  (forall f, In f given -> call (prepare 2 f) [val v; ctx] = None).
Proof. exact (@field_passes). Qed.
Print Assumptions C67_what_passes.

(** A class with an attribute validate_... that is no function cannot be defined. *)
Theorem C67_validators_are_functions : forall A (P : list (tcls A)) meta bases messages body x,
  (meta = true \/ exists b, In b bases /\ type_class P b) -> validator_name x -> In (x, TOther) body ->
  define_type P meta bases messages body = Raise (XPy ETypeError).
Proof. exact odd_validator. Qed.
Print Assumptions C67_validators_are_functions.
(** Whatever makes a class statement fail, such as bases in an order that contradicts theirs, it fails with a TypeError. *)
Theorem C67_failing_class_statement : forall A (P : list (tcls A)) meta bases messages body e,
  define_type P meta bases messages body = Raise e -> e = XPy ETypeError.
Proof. exact failing_class. Qed.
Print Assumptions C67_failing_class_statement.
Example C67_failing_case : define_type lib false [0; 1] None [] = Raise (XPy ETypeError).
Proof. vm_compute. reflexivity. Qed.
Example C67_functions_case : validator_name (k "validate_x") /\ In (k "validate_x", TOther (A := nat)) [(k "y", TOther); (k "validate_x", TOther)].
Proof. split; [now exists (u "x")|]. right. now left. Qed.

(** False of the code: an ancestor that is no type class contributes validators; *)
Theorem C67_mixin_validators_refuted : exists (P : list (tcls pyval)) c d x,
  types P /\ type_class P c /\ In d (mro P c) /\ has_own P d x /\ validator_name x /\ ~ In x (validator_names P c).
Proof. exact mixin_validators_lost. Qed.
Print Assumptions C67_mixin_validators_refuted.

(** such an ancestor may override a validator with a method without context; *)
Theorem C67_mixin_override_refuted : exists (P : list (tcls pyval)) c self x,
  types P /\ type_class P c /\ In x (validator_names P c) /\
  forall v ctx, call (method P c self x) [v; ctx] = Some (XPy ETypeError).
Proof. exact mixin_override_fails. Qed.
Print Assumptions C67_mixin_override_refuted.

(** a bound method that takes a value serves as a validator. *)
Theorem C67_bound_methods_refuted : exists (f : pyfun pyval) self, (forall v, call (bind self f) [v] = None) /\
  forall v ctx, call (prepare 2 (bind self f)) [v; ctx] = Some (XPy ETypeError).
Proof. exact bound_method_refused. Qed.
Print Assumptions C67_bound_methods_refuted.

(** a validator without context can be taken from the class or field it is in and used again in the body of another class, or in the
    validators of another field: it fails on every value there; one with context works. *)
Theorem C67_used_again_refuted : forall A (body : list A -> option exn) self v ctx,
  call (bind self (prepare 3 (prepare 3 (PF 2 false 0 false body)))) [v; ctx] = Some (XPy ETypeError) /\
  call (prepare 2 (prepare 2 (PF 1 false 0 false body))) [v; ctx] = Some (XPy ETypeError) /\
  call (bind self (prepare 3 (prepare 3 (PF 3 false 0 false body)))) [v; ctx] = body [self; v; ctx] /\
  call (prepare 2 (prepare 2 (PF 2 false 0 false body))) [v; ctx] = body [v; ctx].
Proof. exact prepared_again. Qed.
Print Assumptions C67_used_again_refuted.

(** The types of the library, and a class of a user with two validators, one of which overrides StringType's. *)
Example C67_case :
  types lib /\
  validator_names lib 3 = [s "validate_choices"; s "validate_length"; s "validate_regex"; s "validate_"] /\
  validator_names lib 5 = [s "validate_choices"; s "validate_length"; s "validate_regex"; s "validate_email"] /\
  validator_names lib 7 = [s "validate_choices"; s "validate_range"].
Proof. split; [exact lib_ok|]. split; [vm_compute; reflexivity|]. split; vm_compute; reflexivity. Qed.

Example C67_case_user :
  define_type lib false [1] (Some name_messages) name_body = Ok user /\ type_class user (length lib) /\
  validator_names user (length lib) =
    [s "validate_choices"; s "validate_length"; s "validate_regex"; s "validate_case"] /\
  validators_result (map (as_vldr id (VInt 9)) (field_validators user (length lib) VNone [PF 1 false 0 false positive])) (VInt 4)
    = Ok (VInt 4) /\
  validators_result (map (as_vldr id (VInt 9)) (field_validators user (length lib) VNone [PF 1 false 0 false positive])) (VInt 11)
    = Raise (XValid false [u "odd"; u "big"]).
Proof.
  split; [exact user_def|]. split; [exact user_type|]. split; [vm_compute; reflexivity|]. split; vm_compute; reflexivity.
Qed.

(** C68: the message for a key is the one given to the field; else that of the class; else that of the leftmost base that
    has one. *)
Theorem C68_which_message : forall A (P : list (tcls A)) meta bases messages body P',
  types P -> (forall b, In b bases -> b < length P) -> NoDup (map fst body) ->
  (forall d, messages = Some d -> NoDup (map fst d)) ->
  define_type P meta bases messages body = Ok P' ->
  forall k given, type_class P' (length P) -> NoDup (map fst given) ->
  dget k (field_messages P' (length P) given) =
  match dget k given with
  | Some m => Some m
  | None => match (match messages with Some d => dget k d | None => None end) with
            | Some m => Some m
            | None => leftmost (fun b => message P b k) bases
            end
  end.
Proof. exact (@which_message). Qed.
Print Assumptions C68_which_message.

(** A key that a type class has is a key of all type classes below. *)
Theorem C68_no_message_is_lost : forall A (P : list (tcls A)), types P -> forall c d k,
  type_class P c -> In d (mro P c) -> type_class P d -> message P d k <> None -> message P c k <> None.
Proof. exact (@no_message_lost). Qed.
Print Assumptions C68_no_message_is_lost.

(** Later class statements change neither the messages nor the validators of a class. *)
Theorem C68_classes_are_not_changed : forall A (P : list (tcls A)) meta bases messages body P',
  types P -> define_type P meta bases messages body = Ok P' ->
  forall c given self, c < length P ->
  field_messages P' c given = field_messages P c given /\ validator_names P' c = validator_names P c /\
  field_validators P' c self = field_validators P c self.
Proof. exact (@classes_unchanged). Qed.
Print Assumptions C68_classes_are_not_changed.

(** False of the code: the message is that of the first class in method resolution order which defines one. *)
Theorem C68_message_of_the_nearest_class_refuted : exists (P1 P2 P3 P4 : list (tcls pyval)) k m0 m2,
  define_type [] true [] (Some [(k, m0)]) [] = Ok P1 /\
  define_type P1 false [0] None [] = Ok P2 /\
  define_type P2 false [0] (Some [(k, m2)]) [] = Ok P3 /\
  define_type P3 false [1; 2] None [] = Ok P4 /\
  mro P4 3 = [3; 1; 2; 0] /\ m0 <> m2 /\ message P4 3 k = Some m0.
Proof. exact diamond. Qed.
Print Assumptions C68_message_of_the_nearest_class_refuted.

Example C68_case :
  define_type lib false [1] (Some name_messages) name_body = Ok user /\ type_class user (length lib) /\
  message user (length lib) (s "regex") = Some (u "No.") /\
  message user 1 (s "regex") = Some (u "String value did not match validation regex.") /\
  message user (length lib) (s "convert") = Some (u "Couldn't interpret '{0}' as string.") /\
  message user (length lib) (s "required") = Some (u "This field is required.") /\
  dget (s "required") (field_messages user (length lib) [(s "required", u "!")]) = Some (u "!") /\
  message user 0 (s "regex") = None.
Proof.
  split; [exact user_def|]. split; [exact user_type|]. repeat split; vm_compute; reflexivity.
Qed.
