(** Sample type classes. *)
From Verif.Model Require Import Py Core Meta TypeClass.
From Verif.Spec Require Import ValidateSpec TypeClassSpec.
From Verif.Proofs Require Import ValidateLemmas TypeClassFacts.
From Coq Require Import Lia.
Local Open Scope nat_scope.

(** A validator method [def f(self, value, context=None)] of the library; what it decides does not matter here. *)
Definition vmeth (f : list pyval -> option exn) : tattr pyval := TFun (PF 3 false 1 false f).
(** A class statement that is known to succeed. *)
Definition then_class (P : list (tcls pyval)) meta bases messages body : list (tcls pyval) :=
  match define_type P meta bases messages body with Ok P' => P' | Raise _ => P end.

Definition s (x : string) : key := KStr (u x).
Definition fine (_ : list pyval) : option exn := None.

(** BaseType 0, StringType 1, IPAddressType 2, IPv4Type 3, URLType 4, EmailType 5, NumberType 6, IntType 7, GeoPointType 8. *)
Definition lib0 := then_class [] true [] (Some [(s "required", u "This field is required."); (s "choices", u "Value must be one of {0}.")])
  [(s "__init__", TOther); (s "validate", TOther); (s "validate_choices", TFun (PF 3 false 0 false fine))].
Definition lib1 := then_class lib0 false [0] (Some [(s "convert", u "Couldn't interpret '{0}' as string."); (s "regex", u "String value did not match validation regex.")])
  [(s "validate_length", vmeth fine); (s "validate_regex", vmeth fine)].
Definition lib2 := then_class lib1 false [1] None [(s "validate_", vmeth fine)].
Definition lib3 := then_class lib2 false [2] None [(s "VERSION", TOther)].
Definition lib4 := then_class lib3 false [1] (Some [(s "not_found", u "URL could not be retrieved.")]) [(s "validate_", vmeth fine)].
Definition lib5 := then_class lib4 false [1] (Some [(s "email", u "Not a well-formed email address.")]) [(s "validate_email", vmeth fine)].
Definition lib6 := then_class lib5 false [0] (Some [(s "number_min", u "{0} value should be greater than or equal to {1}.")]) [(s "validate_range", vmeth fine)].
Definition lib7 := then_class lib6 false [6] None [].
Definition lib := lib7.

Ltac nodup := repeat (constructor; [intros K; repeat (destruct K as [K|K]; [discriminate K|]); exact K|]); constructor.
Lemma then_class_ok P meta bases messages body : types P -> (forall b, In b bases -> b < length P) -> NoDup (map fst body) ->
  (forall d, messages = Some d -> NoDup (map fst d)) ->
  match define_type P meta bases messages body with Ok _ => True | Raise _ => False end ->
  types (then_class P meta bases messages body).
Proof.
  intros T B N M D. unfold then_class. destruct (define_type P meta bases messages body) as [P'|] eqn:E; [|contradiction].
  exact (types_class P meta bases messages body P' T B N M E).
Qed.
Ltac class_ok H :=
  apply then_class_ok;
  [ exact H
  | intros b K; repeat (destruct K as [<-|K]; [vm_compute; lia|]); contradiction
  | nodup
  | intros d K; try discriminate K; injection K as <-; nodup
  | vm_compute; exact I ].

Lemma lib0_ok : types lib0. Proof. class_ok (@types_none pyval). Qed.
Lemma lib1_ok : types lib1. Proof. class_ok lib0_ok. Qed.
Lemma lib2_ok : types lib2. Proof. class_ok lib1_ok. Qed.
Lemma lib3_ok : types lib3. Proof. class_ok lib2_ok. Qed.
Lemma lib4_ok : types lib4. Proof. class_ok lib3_ok. Qed.
Lemma lib5_ok : types lib5. Proof. class_ok lib4_ok. Qed.
Lemma lib6_ok : types lib6. Proof. class_ok lib5_ok. Qed.
Lemma lib_ok : types lib. Proof. class_ok lib6_ok. Qed.

(** A user's class: [class Name(StringType)] with [def validate_length(self, value)] and [def validate_case(self, value, context)],
    and one message of its own. *)
Definition complain (m : string) : option exn := Some (XValid false [u m]).
Definition even_length (args : list pyval) : option exn :=
  match args with [_; VInt n] => if Z.even n then None else complain "odd" | _ => Some (XPy ETypeError) end.
Definition small (args : list pyval) : option exn :=
  match args with [_; VInt n; VInt c] => if (n <? c)%Z then None else complain "big" | _ => Some (XPy ETypeError) end.
Definition positive (args : list pyval) : option exn :=
  match args with [VInt n] => if (0 <? n)%Z then None else complain "negative" | _ => Some (XPy ETypeError) end.
Definition name_body : list (key * tattr pyval) :=
  [(s "validate_case", TFun (PF 3 false 0 false small)); (s "validate_length", TFun (PF 2 false 0 false even_length))].
Definition name_messages : list (key * emsg) := [(s "regex", u "No.")].
Definition user := then_class lib false [1] (Some name_messages) name_body.
Lemma user_def : define_type lib false [1] (Some name_messages) name_body = Ok user.
Proof. vm_compute. reflexivity. Qed.
Lemma user_ok : types user. Proof. class_ok lib_ok. Qed.
Lemma user_type : type_class user (length lib).
Proof. eexists. split; [vm_compute; reflexivity|reflexivity]. Qed.

(** A mixin that is no type class. *)
Definition mixed0 := then_class lib false [] None
  [(s "validate_even", TFun (PF 2 false 0 false even_length)); (s "validate_length", TFun (PF 2 false 0 false even_length))].
Definition mixed := then_class mixed0 false [length lib; 1] None [].
Lemma mixed0_ok : types mixed0. Proof. class_ok lib_ok. Qed.
Lemma mixed_ok : types mixed. Proof. class_ok mixed0_ok. Qed.
Definition mixin : tid := length lib.
Definition with_mixin : tid := S (length lib).

Lemma mixin_validators_lost : exists (P : list (tcls pyval)) c d x, types P /\ type_class P c /\ In d (mro P c) /\ has_own P d x /\
  validator_name x /\ ~ In x (validator_names P c).
Proof.
  exists mixed, with_mixin, mixin, (s "validate_even"). split; [exact mixed_ok|].
  split; [eexists; split; [vm_compute; reflexivity|reflexivity]|]. split; [vm_compute; auto|].
  split; [eexists; split; [vm_compute; reflexivity|vm_compute; auto]|].
  split; [exists (u "even"); reflexivity|].
  replace (validator_names mixed with_mixin) with [s "validate_choices"; s "validate_length"; s "validate_regex"] by (vm_compute; reflexivity).
  intros K. repeat (destruct K as [K|K]; [discriminate K|]). exact K.
Qed.
Lemma mixin_override_fails : exists (P : list (tcls pyval)) c self x, types P /\ type_class P c /\ In x (validator_names P c) /\
  forall v ctx, call (method P c self x) [v; ctx] = Some (XPy ETypeError).
Proof.
  exists mixed, with_mixin, VNone, (s "validate_length"). split; [exact mixed_ok|].
  split; [eexists; split; [vm_compute; reflexivity|reflexivity]|]. split; [vm_compute; auto|].
  intros v ctx. replace (method mixed with_mixin VNone (s "validate_length")) with (bind VNone (PF 2 false 0 false even_length)); [reflexivity|].
  unfold method. replace (attr_of (fun k => dget (s "validate_length") (tc_attrs k)) mixed with_mixin) with
    (Some (TFun (PF 2 false 0 false even_length))) by (vm_compute; reflexivity). reflexivity.
Qed.
Lemma bound_method_refused : exists (f : pyfun pyval) self, (forall v, call (bind self f) [v] = None) /\
  forall v ctx, call (prepare 2 (bind self f)) [v; ctx] = Some (XPy ETypeError).
Proof. exists (PF 2 false 0 false fine), VNone. split; intros; reflexivity. Qed.

(** A diamond. *)
Definition msg_key : key := s "convert".
Definition top (m : option (list (key * emsg))) : list (tcls pyval) := then_class [] true [] m [].
Lemma diamond : exists (P1 P2 P3 P4 : list (tcls pyval)) k m0 m2,
  define_type [] true [] (Some [(k, m0)]) [] = Ok P1 /\
  define_type P1 false [0] None [] = Ok P2 /\
  define_type P2 false [0] (Some [(k, m2)]) [] = Ok P3 /\
  define_type P3 false [1; 2] None [] = Ok P4 /\
  mro P4 3 = [3; 1; 2; 0] /\ m0 <> m2 /\ message P4 3 k = Some m0.
Proof.
  do 4 eexists. exists msg_key, (u "a"), (u "b").
  split; [vm_compute; reflexivity|]. split; [vm_compute; reflexivity|]. split; [vm_compute; reflexivity|].
  split; [vm_compute; reflexivity|]. split; [reflexivity|]. split; [discriminate|reflexivity].
Qed.

(** What a field of a type class checks. *)
Lemma field_passes {A} (P : list (tcls A)) c self given (val : pyval -> A) ctx v w :
  validators_result (map (as_vldr val ctx) (field_validators P c self given)) v = Ok w <->
  w = v /\ (forall x, In x (validator_names P c) -> call (method P c self x) [val v; ctx] = None) /\
  (forall f, In f given -> call (prepare 2 f) [val v; ctx] = None).
Proof.
  rewrite validators_success. unfold field_validators, passes, as_vldr. split.
  - intros (-> & H). split; [reflexivity|]. split; intros x Hx.
    + apply (H (fun v => call (method P c self x) [val v; ctx])). apply in_map_iff. exists (method P c self x).
      split; [reflexivity|]. apply in_or_app. left. now apply in_map.
    + apply (H (fun v => call (prepare 2 x) [val v; ctx])). apply in_map_iff. exists (prepare 2 x).
      split; [reflexivity|]. apply in_or_app. right. now apply in_map.
  - intros (-> & H1 & H2). split; [reflexivity|]. intros g Hg. apply in_map_iff in Hg as (f & <- & Hf).
    apply in_app_iff in Hf as [Hf|Hf]; apply in_map_iff in Hf as (x & <- & Hx); auto.
Qed.
