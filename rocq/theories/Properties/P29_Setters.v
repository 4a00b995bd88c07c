(** C82: settable computed fields (a property with a setter, declared with a type).

    An import stores what is given for them; validate() runs the setters.  [settles r c x fs m errs m1 errs1]: run one after
    the other in field order, each on the instance as the previous ones left it, the setters turn the instance [m] into [m1],
    with the errors [errs1]; [settled_data m1 items] is what validation then looks at, [items] being the readable values. *)
From Verif.Model Require Import Py Core Export Api.
From Verif.Spec Require Import CallSpec ImportSpec CompoundSpec ValidateSpec SetterSpec.
From Verif.Proofs Require Import DictLemmas Decide SetterFacts.
From Verif.Conformance Require Import Sample.

(** The setters run to the end, or one raises an exception that is neither collected nor an AttributeError. *)
Theorem C82_setters_run_to_the_end_or_raise :
  forall E r c x, proper_setters E c -> forall m errs,
    (exists m1 errs1, settles r c x (fields_of E c) m errs m1 errs1) \/ (exists e, breaks r c x (fields_of E c) m e).
Proof. exact (fun E r c x H => settles_or_breaks E r c x (fields_of E c) (fun n f I => I) H). Qed.
Print Assumptions C82_setters_run_to_the_end_or_raise.

(** Successful validation: no setter failed, and every field reads the conversion of the value it has once the setters have run. *)
Theorem C82_values_are_validated_as_the_setters_leave_them :
  forall E r c m w, NoDup (dkeys (fields_of E c)) -> md_unsafe m = [] -> NoDup (dkeys (md_converted m)) ->
    md_converted m <> [] \/ kw_partial w = false ->
    forall m1 errs1 items, settles r c (vctx m w) (fields_of E c) m [] m1 errs1 -> well_kept (fields_of E c) m1 ->
    py_dict E (VModel c m1) = Ok items -> separate_names (fields_of E c) (kw_mapping w) ->
    readonly_validators (mc_validators (e_class E c)) ->
    forall m', model_validate E r c m w = (m', None) ->
    errs1 = [] /\ (kw_strict w = true -> forall y, ~ rogue_key (fields_of E c) (kw_mapping w) (settled_data m1 items) y) /\
    (forall n f, In (n, f) (fields_of E c) -> exists v',
       cv_field r (fd_spec f) (candidate (vctx m w) (fd_spec f) (supplied (settled_data m1 items) n (fd_spec f) (kw_mapping w)))
         (field_ctx E (vctx m w) n (fd_spec f)) = Ok v' /\
       chain_get m' n = if is_undef v' then None else Some v') /\
    (forall n f e, In (n, f) (fields_of E c) ->
       ~ objects (mc_validators (e_class E c))
           (VModel c (MD [] (dupdate (md_converted m1) items) (md_valid m1) (md_hidden m1))) (md_valid m') n e).
Proof. exact settled_ok. Qed.
Print Assumptions C82_values_are_validated_as_the_setters_leave_them.

(** Failed validation: the errors reported are those of the setters, and those of the values the setters leave. *)
Theorem C82_errors_of_setters_are_reported_with_all_others :
  forall E r c m w, NoDup (dkeys (fields_of E c)) -> md_unsafe m = [] -> NoDup (dkeys (md_converted m)) ->
    md_converted m <> [] \/ kw_partial w = false ->
    forall m1 errs1 items, settles r c (vctx m w) (fields_of E c) m [] m1 errs1 -> well_kept (fields_of E c) m1 ->
    py_dict E (VModel c m1) = Ok items -> separate_names (fields_of E c) (kw_mapping w) ->
    readonly_validators (mc_validators (e_class E c)) ->
    forall m' errs pd, model_validate E r c m w = (m', Some (XData errs pd)) ->
    exists data, (forall n f, In (n, f) (fields_of E c) ->
        dget n data = value_after (vctx m w) (fd_spec f)
          (field_outcome E (cv_field r) (vctx m w) (settled_data m1 items) [] n (fd_spec f)) None) /\
      forall s, In s (dkeys errs) <->
        In s (dkeys errs1) \/ (kw_strict w = true /\ rogue_key (fields_of E c) (kw_mapping w) (settled_data m1 items) s) \/
        (exists n f e, In (n, f) (fields_of E c) /\
           fails E (cv_field r) (vctx m w) (settled_data m1 items) [] n f e /\ s = public_name n f) \/
        (exists n f e, In (n, f) (fields_of E c) /\
           objects (mc_validators (e_class E c))
             (VModel c (MD [] (dupdate (md_converted m1) items) (md_valid m1) (md_hidden m1))) data n e /\ s = public_name n f).
Proof. exact settled_fail. Qed.
Print Assumptions C82_errors_of_setters_are_reported_with_all_others.

(** An exception of a setter that is neither collected nor an AttributeError is raised by validate(). *)
Theorem C82_other_exceptions_of_setters_are_raised :
  forall E r c m w, md_unsafe m = [] -> NoDup (dkeys (md_converted m)) -> md_converted m <> [] \/ kw_partial w = false ->
    forall e, breaks r c (vctx m w) (fields_of E c) m e -> (forall errs pd, e <> XData errs pd) ->
    exists m1, model_validate E r c m w = (m1, Some e).
Proof. exact breaks_validate. Qed.
Print Assumptions C82_other_exceptions_of_setters_are_raised.

(** Any other exception comes from a field's conversion or from a model level validator. *)
Theorem C82_where_other_exceptions_come_from :
  forall E r c m w, NoDup (dkeys (fields_of E c)) -> md_unsafe m = [] -> NoDup (dkeys (md_converted m)) ->
    md_converted m <> [] \/ kw_partial w = false ->
    forall m1 errs1 items, settles r c (vctx m w) (fields_of E c) m [] m1 errs1 -> well_kept (fields_of E c) m1 ->
    py_dict E (VModel c m1) = Ok items -> separate_names (fields_of E c) (kw_mapping w) ->
    readonly_validators (mc_validators (e_class E c)) ->
    forall m' e, model_validate E r c m w = (m', Some e) -> (forall errs pd, e <> XData errs pd) ->
    exists n f, In (n, f) (fields_of E c) /\
      ((fails E (cv_field r) (vctx m w) (settled_data m1 items) [] n f e /\ collectable e = false) \/
       exists data, objects (mc_validators (e_class E c))
         (VModel c (MD [] (dupdate (md_converted m1) items) (md_valid m1) (md_hidden m1))) data n e /\ mv_caught e = None).
Proof. exact settled_other. Qed.
Print Assumptions C82_where_other_exceptions_come_from.

(** Without validation the value given under the field's name is stored unconverted; nothing given, Undefined is. *)
Theorem C82_import_stores_what_is_given_for_a_setter :
  forall E r c d td w m n f, defined_dict d -> NoDup (dkeys (fields_of E c)) -> kw_validate w = false ->
    model_init E r c (VDict d) (VDict td) w = Ok m -> In (n, f) (fields_of E c) -> has_setter f = true ->
    dget n (md_converted m) = Some (match dget n d with Some v => v | None => VUndef end).
Proof. exact import_settable. Qed.
Print Assumptions C82_import_stores_what_is_given_for_a_setter.

(** class Span: length = IntType(); half = settable IntType (named Half in input), sets length = 2 * half;
    third = settable IntType, refuses unless it divides length, then sets length = length / third. *)
Definition read_length (m : pyval) : option Z :=
  match m with VModel _ d => match chain_get d (k "length") with Some (VInt z) => Some z | _ => None end | _ => None end.
Definition write_length (m : pyval) (z : Z) : pyval :=
  match m with
  | VModel c d => VModel c (MD (md_unsafe d) (dset (k "length") (VInt z) (md_converted d)) (md_valid d) (md_hidden d))
  | _ => m
  end.
Definition set_half (m v : pyval) : pyval * option exn :=
  match v with VInt z => (write_length m (2 * z), None) | _ => (m, None) end.
Definition set_third (m v : pyval) : pyval * option exn :=
  match v, read_length m with
  | VInt z, Some l => if (l mod z =? 0)%Z then (write_length m (l / z), None) else (m, Some (XValid false [u "third"]))
  | _, _ => (m, Some (XPy EAttributeError))
  end.
Definition Espan : env := Env (fun _ => MC [ fld "length" (o0 0) (TLeaf int_leaf);
  (k "half", Fld (FS (o_sname "Half" (o0 0)) (TLeaf int_leaf)) (Some (fun _ => Ok (VInt 1))) (Some set_half));
  (k "third", Fld (FS (o0 0) (TLeaf int_leaf)) (Some (fun _ => Ok (VInt 1))) (Some set_third)) ] [] [] DEFAULT None)
  N.eqb (fun _ => []).
Definition span (l h t : pyval) : mdata pyval := MD [] [(k "length", l); (k "half", h); (k "third", t)] [] None.

(** Both setters run, the second on what the first has left: length 100, half 6, third 3 give length 4. *)
Example C82_case_success : exists m1 items m',
  settles (lib 5) 0 (vctx (span (VInt 100) (VInt 6) (VInt 3)) kwv) (fields_of Espan 0) (span (VInt 100) (VInt 6) (VInt 3)) [] m1 [] /\
  well_kept (fields_of Espan 0) m1 /\ py_dict Espan (VModel 0 m1) = Ok items /\ separate_names (fields_of Espan 0) no_mapping /\
  model_validate Espan (lib 5) 0 (span (VInt 100) (VInt 6) (VInt 3)) kwv = (m', None) /\ chain_get m' (k "length") = Some (VInt 4).
Proof.
  do 3 eexists. split; [|split; [|split; [|split; [|split]]]].
  - apply se_skip; [now left|].
    eapply se_done; [reflexivity|split; [reflexivity|discriminate]|eapply tr_run; reflexivity|now left|].
    eapply se_done; [reflexivity|split; [reflexivity|discriminate]|eapply tr_run; reflexivity|now left|]. apply se_end.
  - split; [reflexivity|split; [apply nodupb_ok; reflexivity|]]. intros y H. apply dget_In in H. cbn in H.
    destruct H as [H|[H|[H|[]]]]; discriminate H.
  - reflexivity.
  - intros n f n' f' H H' I. cbn in H, H'.
    destruct H as [[= <- <-]|[[= <- <-]|[[= <- <-]|[]]]]; destruct H' as [[= <- <-]|[[= <- <-]|[[= <- <-]|[]]]]; try reflexivity;
      cbn in I; repeat (destruct I as [I|I]; [discriminate I|]); destruct I.
  - reflexivity.
  - reflexivity.
Qed.
(** third does not divide 12: its error is reported, under its public name. *)
Example C82_case_failure :
  (exists m1 errs, settles (lib 5) 0 (vctx (span (VInt 100) (VInt 6) (VInt 5)) kwv) (fields_of Espan 0)
     (span (VInt 100) (VInt 6) (VInt 5)) [] m1 errs /\ dkeys errs = [k "third"]) /\
  (exists m' errs pd, model_validate Espan (lib 5) 0 (span (VInt 100) (VInt 6) (VInt 5)) kwv = (m', Some (XData errs pd)) /\
     dkeys errs = [k "third"]).
Proof.
  split.
  - do 2 eexists. split; [|shelve]. apply se_skip; [now left|].
    eapply se_done; [reflexivity|split; [reflexivity|discriminate]|eapply tr_run; reflexivity|now left|].
    eapply se_refused; [reflexivity|split; [reflexivity|discriminate]|eapply tr_run; reflexivity|reflexivity|]. apply se_end.
    Unshelve. reflexivity.
  - do 3 eexists. split; reflexivity.
Qed.
(** An AttributeError of a setter is ignored (length is missing); proper_setters holds. *)
Example C82_case_ignored : proper_setters Espan 0 /\
  exists m', model_validate Espan (lib 5) 0 (span VNone VUndef (VInt 5)) kwv = (m', None).
Proof.
  split; [|eexists; reflexivity]. intros n f s H Hs m v.
  cbn in H. destruct H as [[= <- <-]|[[= <- <-]|[[= <- <-]|[]]]]; cbn in Hs; [discriminate| |]; injection Hs as <-.
  - destruct v; eexists; reflexivity.
  - destruct v; cbn [set_third]; try (eexists; reflexivity). destruct (read_length (VModel 0 m)); [|eexists; reflexivity].
    destruct (_ =? 0)%Z; eexists; reflexivity.
Qed.

(** A value given for a settable field under another of its names is ignored without a word, even in strict mode. *)
Theorem C82_value_under_the_serialized_name_is_kept_refuted :
  exists E c w d m m', kw_validate w = false /\ kw_strict w = true /\ dget (k "Half") d = Some (VInt 6) /\
    (exists f s, In (k "half", f) (fields_of E c) /\ fd_set f = Some s /\ public_name (k "half") f = k "Half") /\
    model_init E (conv_at E 5) c (VDict d) (VDict []) w = Ok m /\ dget (k "half") (md_converted m) = Some VUndef /\
    model_validate E (conv_at E 5) c m kwv = (m', None) /\ chain_get m' (k "length") = Some (VInt 1).
Proof.
  exists Espan, 0%N, (KW no_mapping false true false false true false false), [(k "length", VInt 1); (k "Half", VInt 6)].
  do 2 eexists. split; [reflexivity|]. split; [reflexivity|]. split; [reflexivity|]. split.
  - do 2 eexists. split; [right; left; reflexivity|]. split; reflexivity.
  - split; [reflexivity|]. split; [reflexivity|]. split; reflexivity.
Qed.
Print Assumptions C82_value_under_the_serialized_name_is_kept_refuted.
