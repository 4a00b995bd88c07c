(** C11-C14, C27: validation.

    [model_validate E r c m w] is [m.validate] called with settings [w], for an instance [m] of class [c]: the new state and the
    exception raised, if any.  [vinput E c m] is the data validate() looks at (the readable values over the
    stored ones), [vctx m w] its settings. *)
From Verif.Model Require Import Py Core Export Api.
From Verif.Spec Require Import CompoundSpec ImportSpec ValidateSpec IdemSpec.
From Verif.Proofs Require Import DictLemmas ImportLemmas ApiLemmas ImportApi ValidateLemmas ValidateMore Idem Sound ValidateWitness ValidateDeep Decide Tight.
From Verif.Conformance Require Import Sample.

(** ** C11 *)
(** After success every readable value is None or has passed all validators of its field. *)
Theorem C11_readable_values_passed_their_validators :
  forall E j c m w m' n f v,
    NoDup (dkeys (fields_of E c)) -> plain_fields (fields_of E c) -> defined_layers m ->
    NoDup (dkeys (md_converted m)) -> (md_converted m <> [] \/ kw_partial w = false) ->
    readonly_validators (mc_validators (e_class E c)) -> kw_convert w = true ->
    model_validate E (conv_at E (S (S j))) c m w = (m', None) ->
    In (n, f) (fields_of E c) -> not_union (fd_spec f) -> chain_get m' n = Some v ->
    v = VNone \/ forall g, In g (fo_validators (fs_opts (fd_spec f))) -> passes g v.
Proof. exact validate_all_passed. Qed.
Print Assumptions C11_readable_values_passed_their_validators.

(** ... and so has every value inside it: list and dict elements, fields of nested models (whose model level
    validators do not object), the accepting member of a union; required values are there. *)
Theorem C11_validated_at_every_depth :
  forall E j c m w m', tidy_env E -> (forall c, e_issub E c c = true) ->
    kw_mapping w = no_mapping -> kw_convert w = true ->
    defined_layers m -> NoDup (dkeys (md_converted m)) -> (md_converted m <> [] \/ kw_partial w = false) ->
    model_validate E (conv_at E j) c m w = (m', None) ->
    (forall n f, In (n, f) (fields_of E c) ->
       sound E (kw_partial w) true (fd_spec f) (match chain_get m' n with Some v => v | None => VUndef end)).
Proof. exact validate_sound. Qed.
Print Assumptions C11_validated_at_every_depth.

(** The value read afterwards is the conversion of the value read before. *)
Theorem C11_reads_the_conversion_of_what_was_readable :
  forall E r c m w,
    NoDup (dkeys (fields_of E c)) -> plain_fields (fields_of E c) -> defined_layers m ->
    NoDup (dkeys (md_converted m)) -> (md_converted m <> [] \/ kw_partial w = false) ->
    readonly_validators (mc_validators (e_class E c)) ->
    forall m' n f v, md_unsafe m = [] -> model_validate E r c m w = (m', None) -> In (n, f) (fields_of E c) ->
    chain_get m n = Some v ->
    exists v', cv_field r (fd_spec f) v (field_ctx E (vctx m w) n (fd_spec f)) = Ok v' /\
      chain_get m' n = if is_undef v' then None else Some v'.
Proof. exact validate_ok_visible. Qed.
Print Assumptions C11_reads_the_conversion_of_what_was_readable.

(** Nothing unvalidated is left, no model level validator objects to the result. *)
Theorem C11_no_unvalidated_data_is_left :
  forall E r c m w,
    NoDup (dkeys (fields_of E c)) -> plain_fields (fields_of E c) -> defined_layers m ->
    NoDup (dkeys (md_converted m)) -> (md_converted m <> [] \/ kw_partial w = false) ->
    readonly_validators (mc_validators (e_class E c)) ->
    forall m', model_validate E r c m w = (m', None) ->
    md_unsafe m' = [] /\ md_converted m' = [] /\
    (forall y, ~ In y (dkeys (fields_of E c)) -> chain_get m' y = None) /\
    (forall n f e, In (n, f) (fields_of E c) ->
       ~ objects (mc_validators (e_class E c)) (vmut E c m) (md_valid m') n e).
Proof. exact validate_ok_clean. Qed.
Print Assumptions C11_no_unvalidated_data_is_left.

(** Model(data, validate=True): every value of the new instance has been validated, at every depth. *)
Theorem C11_construction_with_validation :
  forall E j c d w m, tidy_env E -> (forall c, e_issub E c c = true) -> defined_dict d ->
    kw_validate w = true -> kw_convert w = true -> model_init E (conv_at E j) c (VDict d) (VDict []) w = Ok m ->
    md_unsafe m = [] /\
    forall n f, In (n, f) (fields_of E c) ->
      chain_get m n = None /\ kw_partial w = true \/
      sound E (kw_partial w) true (fd_spec f) (match chain_get m n with Some v => v | None => VUndef end).
Proof. exact init_validated. Qed.
Print Assumptions C11_construction_with_validation.
(** With convert=False the values need not even have the field's type. *)
Theorem C11_construction_without_conversion_refuted :
  exists E c d w m n f v, tidy_env E /\ (forall c, e_issub E c c = true) /\ defined_dict d /\
    kw_validate w = true /\ model_init E (conv_at E 9) c (VDict d) (VDict []) w = Ok m /\
    In (n, f) (fields_of E c) /\ chain_get m n = Some v /\ ~ sound E (kw_partial w) true (fd_spec f) v.
Proof. exact unconverted_witness. Qed.
Print Assumptions C11_construction_without_conversion_refuted.

(** An error of a setter run by validate() fails the validation and is reported under the field's name.  (The first
    settable field; the getters raise no DataError themselves.) *)
Theorem C11_errors_of_setters_are_reported :
  forall E r c m w fs1 n f fs2 s v v1 v2 mut1 e, quiet_getters E ->
    fields_of E c = fs1 ++ (n, f) :: fs2 -> (forall p, In p fs1 -> fd_set (snd p) = None) -> fd_set f = Some s ->
    md_unsafe m = [] -> dget n (md_converted m) = Some v -> v <> VUndef ->
    cv_field r (fd_spec f) v (vctx m w) = Ok v1 -> cv_pre r (fd_spec f) v1 = Ok v2 ->
    s (VModel c m) v2 = (mut1, Some e) -> collectable e = true ->
    exists m' e', model_validate E r c m w = (m', Some e') /\
      forall errs pd, e' = XData errs pd -> In (public_name n f) (dkeys errs).
Proof. exact setter_errors. Qed.
Print Assumptions C11_errors_of_setters_are_reported.

(** class Even: half = settable; its setter refuses odd numbers. *)
Definition set_half (m v : pyval) : pyval * option exn :=
  match v with VInt z => (m, if Z.even z then None else Some (XValid false [u "odd"])) | _ => (m, None) end.
Definition Eeven : env := Env (fun _ => MC [ fld "tag" (o0 0) (TLeaf int_leaf);
  (k "half", Fld (FS (o_sname "Half" (o0 0)) (TLeaf int_leaf)) (Some (fun _ => Ok (VInt 1))) (Some set_half)) ] [] [] DEFAULT None)
  N.eqb (fun _ => []).
Example C11_case_setter :
  quiet_getters Eeven /\
  exists m1 pd, model_validate Eeven (lib 5) 0 (MD [] [(k "half", VInt 3)] [] None) kwv
    = (m1, Some (XData [(k "Half", NValid [u "odd"])] pd)).
Proof.
  split; [|do 2 eexists; reflexivity]. intros c n f g v errs pd H G.
  cbn in H. destruct H as [[= <- <-]|[[= <- <-]|[]]]; cbn in G; [discriminate|]. injection G as <-. discriminate.
Qed.

(** A lazily created instance validated with partial=True is not validated at all. *)
Theorem C11_lazy_partial_is_not_validated_refuted :
  exists E c m w m' n f v,
    NoDup (dkeys (fields_of E c)) /\ plain_fields (fields_of E c) /\ kw_convert w = true /\
    model_validate E (conv_at E 5) c m w = (m', None) /\
    In (n, f) (fields_of E c) /\ chain_get m' n = Some v /\ v <> VNone /\
    exists g, In g (fo_validators (fs_opts (fd_spec f))) /\ ~ passes g v.
Proof. exact lazy_partial_witness. Qed.
Print Assumptions C11_lazy_partial_is_not_validated_refuted.

Definition kw_partial_v : kwargs := KW no_mapping true false false false true true false.
(** An instance whose fields have been set; the nested dict is converted and validated as well. *)
Definition bob : mdata pyval :=
  MD [] [(k "name", VStr (u "Bob")); (k "age", VInt 40); (k "tags", VList [VInt 1; VBool true]);
         (k "home", VModel 0 (MD [] [(k "street", VStr (u "Main")); (k "zip", VInt 1)] [] None))] [] None.
Lemma tidy_sample : tidy_env Esample.
Proof.
  constructor.
  - intros c. apply nodupb_ok. destruct c as [|[[]|[]|]]; reflexivity.
  - intros c. apply plainb_ok. destruct c as [|[[]|[]|]]; reflexivity.
  - intros c n vf H. destruct c as [|[[]|[[]|[]|]|]]; cbn in H; try contradiction.
    destruct H as [[= <- <-]|[]]. reflexivity.
Qed.
Example C11_case :
  tidy_env Esample /\ (forall c, e_issub Esample c c = true) /\
  defined_layers bob /\ NoDup (dkeys (md_converted bob)) /\ md_converted bob <> [] /\
  exists h, model_validate Esample (lib 10) 1 bob kwv =
  (MD [] [] [(k "name", VStr (u "Bob")); (k "age", VInt 40); (k "tags", VList [VInt 1; VInt 1]);
         (k "home", VModel 0 (MD [] [(k "street", VStr (u "Main")); (k "zip", VInt 1)] [] None))] h, None).
Proof.
  split; [exact tidy_sample|]. split; [intros c; apply N.eqb_refl|].
  split; [repeat split; apply definedb_ok; reflexivity|]. split; [now apply nodupb_ok|].
  split; [discriminate|]. eexists; reflexivity.
Qed.

Example C11_construction_case :
  let w := KW no_mapping false true true true true true false in
  (exists m, model_init Esample (lib 10) 2 (VDict [(k "pin", VInt 7); (k "pin2", VInt 7); (k "code", VInt 1)]) (VDict []) w = Ok m /\
     chain_get m (k "pin2") = Some (VInt 7)) /\
  model_init Esample (lib 10) 2 (VDict [(k "pin", VInt 7); (k "pin2", VInt 8); (k "code", VInt 1)]) (VDict []) w
  = Raise (XData [(k "pin2", NMsgs [u "pins differ"])] [(k "name", VNone); (k "pin", VInt 7); (k "code", VInt 1)]).
Proof. split; [eexists; split|]; reflexivity. Qed.

(** ** C12 *)
(** A failed validation: partial data is stored over the earlier validated data, nothing else remains. *)
Theorem C12_failure_keeps_earlier_valid_data :
  forall E r c m w,
    NoDup (dkeys (fields_of E c)) -> plain_fields (fields_of E c) -> defined_layers m ->
    NoDup (dkeys (md_converted m)) -> (md_converted m <> [] \/ kw_partial w = false) ->
    readonly_validators (mc_validators (e_class E c)) ->
    forall m' errs pd y, model_validate E r c m w = (m', Some (XData errs pd)) ->
    md_unsafe m' = [] /\ md_converted m' = [] /\
    chain_get m' y = match dget y pd with Some v => Some v | None => dget y (md_valid m) end.
Proof. exact validate_fail_reads. Qed.
Print Assumptions C12_failure_keeps_earlier_valid_data.

Theorem C12_failing_field_reads_its_last_valid_value :
  forall E r c m w,
    NoDup (dkeys (fields_of E c)) -> plain_fields (fields_of E c) -> defined_layers m ->
    NoDup (dkeys (md_converted m)) -> (md_converted m <> [] \/ kw_partial w = false) ->
    readonly_validators (mc_validators (e_class E c)) ->
    forall m' errs pd n f e, model_validate E r c m w = (m', Some (XData errs pd)) ->
    In (n, f) (fields_of E c) -> fails E (cv_field r) (vctx m w) (vinput E c m) [] n f e ->
    (forall er p, e <> XData er p) -> (kw_apply_defaults w = false \/ fo_default (fs_opts (fd_spec f)) = VUndef) ->
    chain_get m' n = dget n (md_valid m) /\ In (public_name n f) (dkeys errs).
Proof. exact validate_fail_field. Qed.
Print Assumptions C12_failing_field_reads_its_last_valid_value.

(** Exactly what is reported, and what every field reads afterwards. *)
Theorem C12_failure_report_is_exact :
  forall E r c m w m' errs pd,
    NoDup (dkeys (fields_of E c)) -> plain_fields (fields_of E c) -> defined_layers m ->
    NoDup (dkeys (md_converted m)) -> (md_converted m <> [] \/ kw_partial w = false) ->
    readonly_validators (mc_validators (e_class E c)) ->
    model_validate E r c m w = (m', Some (XData errs pd)) ->
    exists data0,
      (forall n f, In (n, f) (fields_of E c) -> dget n data0 =
         value_after (vctx m w) (fd_spec f) (field_outcome E (cv_field r) (vctx m w) (vinput E c m) [] n (fd_spec f)) None) /\
      (forall s, In s (dkeys errs) <->
         (kw_strict w = true /\ rogue_key (fields_of E c) (kw_mapping w) (vinput E c m) s) \/
         (exists n f e, In (n, f) (fields_of E c) /\ fails E (cv_field r) (vctx m w) (vinput E c m) [] n f e /\ s = public_name n f) \/
         (exists n f e, In (n, f) (fields_of E c) /\ objects (mc_validators (e_class E c)) (vmut E c m) data0 n e /\ s = public_name n f)) /\
      (forall n f, In (n, f) (fields_of E c) ->
         (exists e, objects (mc_validators (e_class E c)) (vmut E c m) data0 n e) /\ chain_get m' n = dget n (md_valid m) \/
         (forall e, ~ objects (mc_validators (e_class E c)) (vmut E c m) data0 n e) /\
           chain_get m' n = match dget n data0 with Some v => Some v | None => dget n (md_valid m) end).
Proof. exact validate_fail_exact. Qed.
Print Assumptions C12_failure_report_is_exact.

(** An exception that is not a validation error: only the earlier validated data is left. *)
Theorem C12_other_exception_drops_unvalidated_data :
  forall E r c m w,
    NoDup (dkeys (fields_of E c)) -> plain_fields (fields_of E c) -> defined_layers m ->
    NoDup (dkeys (md_converted m)) -> (md_converted m <> [] \/ kw_partial w = false) ->
    readonly_validators (mc_validators (e_class E c)) ->
    forall m' e y, model_validate E r c m w = (m', Some e) -> (forall er p, e <> XData er p) ->
    chain_get m' y = dget y (md_valid m).
Proof. exact validate_crash_ro. Qed.
Print Assumptions C12_other_exception_drops_unvalidated_data.

(** A validated instance with a bad new pin and a mismatching second pin. *)
Definition carol : mdata pyval :=
  MD [] [(k "pin", VInt (-5)); (k "name", VStr (u "Carol"))]
     [(k "name", VStr (u "carol")); (k "pin", VInt 7); (k "pin2", VInt 7)] None.
Example C12_case :
  defined_layers carol /\ NoDup (dkeys (md_converted carol)) /\
  exists h, model_validate Esample (lib 10) 2 carol kwv =
    (MD [] [] [(k "name", VStr (u "Carol")); (k "pin", VInt 7); (k "pin2", VInt 7)] h,
     Some (XData [(k "pin", NValid [u "negative"]); (k "pin2", NMsgs [u "no pin"])] [(k "name", VStr (u "Carol"))])) /\
  fails Esample (cv_field (lib 10)) (vctx carol kwv) (vinput Esample 2 carol) [] (k "pin")
    (snd (fld "pin" (o_val [non_negative] (o0 2)) (TLeaf int_leaf))) (XValid false [u "negative"]).
Proof.
  split; [repeat split; apply definedb_ok; reflexivity|]. split; [now apply nodupb_ok|].
  eexists; split; reflexivity.
Qed.

(** ** C13 *)
Theorem C13_validation_is_idempotent :
  forall E, tidy_env E -> forall j c w, kw_mapping w = no_mapping -> kw_convert w = true ->
    steady_env E -> data_validators (mc_validators (e_class E c)) ->
    forall m m', defined_layers m -> NoDup (dkeys (md_converted m)) ->
    model_validate E (conv_at E j) c m w = (m', None) -> model_validate E (conv_at E j) c m' w = (m', None).
Proof. exact validate_idem. Qed.
Print Assumptions C13_validation_is_idempotent.

(** Converting a converted value of any steady type, at any depth, changes nothing. *)
Theorem C13_conversion_is_idempotent :
  forall E, steady_env E -> forall x, plain_ctx x -> forall j f, steady E f ->
    forall v w, cv_field (conv_at E j) f v x = Ok w -> cv_field (conv_at E j) f w x = Ok w.
Proof. exact conversion_idem. Qed.
Print Assumptions C13_conversion_is_idempotent.

Theorem C13_any_number_of_repetitions :
  forall E, tidy_env E -> forall j c w, kw_mapping w = no_mapping -> kw_convert w = true ->
    steady_env E -> data_validators (mc_validators (e_class E c)) ->
    forall m m' n, defined_layers m -> NoDup (dkeys (md_converted m)) ->
    model_validate E (conv_at E j) c m w = (m', None) ->
    Nat.iter n (fun s => fst (model_validate E (conv_at E j) c s w)) m' = m' /\
    snd (model_validate E (conv_at E j) c (Nat.iter n (fun s => fst (model_validate E (conv_at E j) c s w)) m') w) = None.
Proof. exact validate_iter. Qed.
Print Assumptions C13_any_number_of_repetitions.

(** When an input name of one field is the name of another field, a second validation can change values. *)
Theorem C13_shared_input_names_refuted :
  exists E c m w m' m'', tidy_env E /\ (forall c n f, In (n, f) (fields_of E c) -> steady E (fd_spec f)) /\
    kw_mapping w = no_mapping /\ kw_convert w = true /\ defined_layers m /\ NoDup (dkeys (md_converted m)) /\
    model_validate E (conv_at E 5) c m w = (m', None) /\ model_validate E (conv_at E 5) c m' w = (m'', None) /\
    exists n, chain_get m' n <> chain_get m'' n.
Proof. exact shared_names_witness. Qed.
Print Assumptions C13_shared_input_names_refuted.

Lemma steady_sample : steady_env Esample.
Proof.
  assert (A : steady_leaf any_leaf) by (intros v w Nv [= <-]; auto).
  assert (I : steady_leaf int_leaf).
  { intros v w Nv. cbn. destruct v as [| |b|z|f|s|s|l|l|d|c m|d|d t off|us|n|co ex|c n v|n]; intros [= <-]; split; reflexivity. }
  constructor.
  - intros c; apply N.eqb_refl.
  - apply (ti_nodup _ tidy_sample).
  - apply (ti_plain _ tidy_sample).
  - intros c. apply separate_ok. destruct c as [|[[]|[]|]]; reflexivity.
  - intros c n f. destruct c as [|[[]|[[]|[]|]|]]; cbn [fields_of mc_fields e_class Esample Address Person Signup Nothing In];
      intros H; repeat (destruct H as [[= <- <-]|H]; [try exact A; try exact I; try exact Logic.I|]); try destruct H.
    split; [|repeat (split; try exact A; try exact I)]. intros j x v m w _ Nv. destruct j as [|j]; [discriminate|].
    destruct v as [| |b|z|f|s|s|l|l|d|c m0|d|d t off|us|n|co ex|c n v|n]; cbn; intros [= <- <-]; split; reflexivity || discriminate.
  - apply (ti_readonly _ tidy_sample).
Qed.
Example C13_case : steady_env Esample /\ tidy_env Esample /\ data_validators (mc_validators (e_class Esample 2)) /\
  exists m',
    model_validate Esample (lib 10) 2
    (MD [] [(k "pin", VInt 7); (k "pin2", VInt 7); (k "code", VBool false)] [] None) kwv = (m', None) /\
    chain_get m' (k "code") = Some (VInt 0).
Proof.
  split; [exact steady_sample|]. split; [exact tidy_sample|]. split.
  - intros n vf [[= <- <-]|[]]; reflexivity.
  - eexists. split; reflexivity.
Qed.

(** ** C14 *)
(** Which validators are called, on what, and what becomes of the data and the errors. *)
Theorem C14_calls_of_model_level_validators :
  forall vfs mut fs data d' errs,
    validate_model vfs mut fs data = Ok (d', errs) ->
    exists d1 o, call_seq vfs mut fs data d1 o /\
      (NoDup (dkeys d1) -> forall y, dget y d' = if kmem y (map (fun '(n, _, _) => n) o) then None else dget y d1) /\
      (forall s, In s (dkeys errs) <-> exists n f nd, In (n, f, nd) o /\ s = public_name n f) /\
      (forall s nd, dget s errs = Some nd -> exists n f, In (n, f, nd) o /\ s = public_name n f).
Proof. exact model_validators_calls. Qed.
Print Assumptions C14_calls_of_model_level_validators.

Theorem C14_calls_determine_the_outcome :
  forall vfs mut fs data d1 o, NoDup (dkeys fs) -> call_seq vfs mut fs data d1 o ->
    NoDup (dkeys d1) -> (forall n f nd, In (n, f, nd) o -> In n (dkeys d1)) ->
    exists d' errs, validate_model vfs mut fs data = Ok (d', errs).
Proof. exact model_validators_run. Qed.
Print Assumptions C14_calls_determine_the_outcome.

(** Validators that only look: the objecting fields are removed, all others keep their values. *)
Theorem C14_readonly_validators_only_remove :
  forall vfs mut data, readonly_validators vfs ->
    forall fs d' e', NoDup (dkeys fs) -> NoDup (dkeys data) ->
    validate_model vfs mut fs data = Ok (d', e') ->
    NoDup (dkeys d') /\
    (forall n f ex, In (n, f) fs -> objects vfs mut data n ex -> dget n d' = None /\ mv_caught ex <> None) /\
    (forall y, (forall f ex, In (y, f) fs -> ~ objects vfs mut data y ex) -> dget y d' = dget y data) /\
    (forall s, In s (dkeys e') <-> exists n f ex, In (n, f) fs /\ objects vfs mut data n ex /\ s = public_name n f) /\
    (forall s nd, dget s e' = Some nd ->
        exists n f ex, In (n, f) fs /\ objects vfs mut data n ex /\ s = public_name n f /\ mv_caught ex = Some nd).
Proof. exact validate_model_ok. Qed.
Print Assumptions C14_readonly_validators_only_remove.

(** Any other exception of a validator is not caught. *)
Theorem C14_other_exceptions_propagate :
  forall vfs mut data, readonly_validators vfs ->
    forall fs e, NoDup (dkeys fs) -> NoDup (dkeys data) ->
    validate_model vfs mut fs data = Raise e ->
    exists n f, In (n, f) fs /\ objects vfs mut data n e /\ mv_caught e = None.
Proof. exact validate_model_raise. Qed.
Print Assumptions C14_other_exceptions_propagate.

(** A validator that writes: the second one sees what the first one wrote. *)
Definition bump : mvalidator := fun _ data v =>
  match v with VInt z => (dset (k "pin2") (VInt (z + 1)) data, None) | _ => (data, None) end.
Example C14_case :
  readonly_validators (mc_validators (e_class Esample 2)) /\
  validate_model [(k "pin", bump); (k "pin2", same_pin)] VNone (fields_of Esample 2)
    [(k "pin", VInt 7); (k "pin2", VInt 7)]
  = Ok ([(k "pin", VInt 7)], [(k "pin2", NMsgs [u "pins differ"])]) /\
  validate_model [(k "pin2", same_pin)] VNone (fields_of Esample 2)
    [(k "pin", VInt 7); (k "pin2", VInt 8)]
  = Ok ([(k "pin", VInt 7)], [(k "pin2", NMsgs [u "pins differ"])]).
Proof. split; [apply tidy_sample|split; reflexivity]. Qed.

(** ** C27 *)
Theorem C27_success_iff_all_pass :
  forall vs v w, validators_result vs v = Ok w <-> w = v /\ forall g, In g vs -> passes g v.
Proof. exact validators_success. Qed.
Print Assumptions C27_success_iff_all_pass.

Theorem C27_all_validators_run :
  forall vs v ms, collected v vs ms -> (exists g, In g vs /\ ~ passes g v) ->
    validators_result vs v = Raise (XValid false ms).
Proof. exact validators_all_run. Qed.
Print Assumptions C27_all_validators_run.

Theorem C27_stop_validation :
  forall pre g post v ms m, collected v pre ms -> complains g v true m ->
    validators_result (pre ++ g :: post) v = Raise (XValid false (ms ++ m)).
Proof. exact validators_stop. Qed.
Print Assumptions C27_stop_validation.

Theorem C27_other_exceptions_propagate :
  forall pre g post v ms e, collected v pre ms -> crashes g v e ->
    validators_result (pre ++ g :: post) v = Raise e.
Proof. exact validators_crash. Qed.
Print Assumptions C27_other_exceptions_propagate.

(** These are all the cases. *)
Theorem C27_cases :
  forall vs v,
    (exists ms, collected v vs ms) \/
    (exists pre g post ms m, vs = pre ++ g :: post /\ collected v pre ms /\ complains g v true m) \/
    (exists pre g post ms e, vs = pre ++ g :: post /\ collected v pre ms /\ crashes g v e).
Proof. exact validators_cases. Qed.
Print Assumptions C27_cases.

Theorem C27_field_validation :
  forall E j f v x w, not_union f -> cx_convert x = true ->
    (cv_validate (conv_at E (S j)) f v x = Ok w <->
     cv_convert (conv_at E j) f v x = Ok w /\ forall g, In g (fo_validators (fs_opts f)) -> passes g w).
Proof. exact field_validate_success. Qed.
Print Assumptions C27_field_validation.

(** Without conversion the value stays as it is; compound values are checked by converting them. *)
Theorem C27_field_validation_without_conversion :
  forall E j f v x w, not_union f -> cx_convert x = false ->
    (cv_validate (conv_at E (S j)) f v x = Ok w <->
     w = v /\ (is_compound f = true -> exists u, cv_convert (conv_at E j) f v x = Ok u) /\
     forall g, In g (fo_validators (fs_opts f)) -> passes g v).
Proof. exact field_validate_unconverted. Qed.
Print Assumptions C27_field_validation_without_conversion.

Theorem C27_union_validation_without_conversion :
  forall E j o ms v x w, cx_convert x = false ->
    (cv_validate (conv_at E (S j)) (FS o (TUnion ms)) v x = Ok w <->
     w = v /\ exists m u, first_open (fun m u => cv_convert (conv_at E j) m u x) ms v m /\
       cv_convert (conv_at E j) m v x = Ok u /\ cv_validate (conv_at E j) m v x = Ok v).
Proof. exact union_validate_unconverted. Qed.
Print Assumptions C27_union_validation_without_conversion.

(** A union's value is what the first member that accepts it converts to, and has passed that member's validators. *)
Theorem C27_union_validation :
  forall E j o ms v x w, cx_validate x = true -> cx_convert x = true ->
    cv_field (conv_at E (S (S j))) (FS o (TUnion ms)) v x = Ok w ->
    is_nil v = true /\ w = v \/
    exists m, first_open (fun m u => cv_convert (conv_at E j) m u x) ms v m /\ cv_convert (conv_at E j) m v x = Ok w /\
      cv_validate (conv_at E j) m v x = Ok w /\ (not_union m -> forall g, In g (fo_validators (fs_opts m)) -> passes g w).
Proof. exact union_validated. Qed.
Print Assumptions C27_union_validation.

Definition odd_stop : vldr := fun v => match v with VInt z => if Z.odd z then Some (XValid true [u "odd"]) else None | _ => None end.
Example C27_case :
  validators_result [non_negative; odd_stop; non_negative] (VInt (-3)) = Raise (XValid false [u "negative"; u "odd"]) /\
  validators_result [non_negative; odd_stop; non_negative] (VInt (-4)) = Raise (XValid false [u "negative"; u "negative"]) /\
  collected (VInt (-3)) [non_negative] [u "negative"] /\ complains odd_stop (VInt (-3)) true [u "odd"].
Proof.
  do 2 (split; [reflexivity|]). split; [|reflexivity].
  change [u "negative"] with ([u "negative"] ++ []). apply col_fail; [reflexivity|constructor].
Qed.
Example C27_unconverted_case :
  let x := kw_ctx (KW no_mapping false false false false false true false) (VDict []) in
  let f := FS (o0 1) (TList (FS (o_inner (o_val [non_negative] (o0 1))) (TLeaf int_leaf))) in
  cv_validate (lib 10) f (VTuple [VBool true]) x = Ok (VTuple [VBool true]) /\
  cv_validate (lib 10) f (VTuple [VInt (-1)]) x = Raise (XCompound [(KInt 0, NValid [u "negative"])]).
Proof. split; reflexivity. Qed.
