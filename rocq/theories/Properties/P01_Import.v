(** C01-C10: importing data (Model(...), import_data(...)).

    [model_init E r c (VDict d) (VDict td) w] is [M(d, trusted_data=td, **w)] for the class [c] of the
    program [E]; [r] is any set of field converters, the library's being [conv_at E n].
    [model_import_data E r c m (VDict d) w] is [m.import_data(d, **w)]; it returns the new state of the
    instance and the exception raised, if any. *)
From Verif.Model Require Import Py Core Export Api.
From Verif.Spec Require Import CallSpec ImportSpec.
From Verif.Proofs Require Import DictLemmas ImportLemmas ApiLemmas ImportApi Decide.
From Verif.Conformance Require Import Sample.

(** ** C01 *)
Theorem C01_strict_rejects_undeclared_keys :
  forall E r c d td w,
    defined_dict d -> NoDup (dkeys (fields_of E c)) -> kw_validate w = false ->
    forall y, kw_strict w = true -> rogue_key (fields_of E c) (kw_mapping w) d y ->
    (forall m, model_init E r c (VDict d) (VDict td) w <> Ok m) /\
    (forall errs pd, model_init E r c (VDict d) (VDict td) w = Raise (XData errs pd) ->
       dget y errs = Some (NText m_rogue)).
Proof. exact init_rogue_rejected. Qed.
Print Assumptions C01_strict_rejects_undeclared_keys.

Theorem C01_rogue_error_only_for_undeclared_keys :
  forall E r c d td w,
    defined_dict d -> NoDup (dkeys (fields_of E c)) -> kw_validate w = false ->
    forall errs pd y, model_init E r c (VDict d) (VDict td) w = Raise (XData errs pd) ->
    dget y errs = Some (NText m_rogue) ->
    kw_strict w = true /\ rogue_key (fields_of E c) (kw_mapping w) d y.
Proof. exact init_rogue_only. Qed.
Print Assumptions C01_rogue_error_only_for_undeclared_keys.

Definition bad_alice := (k "shoe", VInt 42) :: alice.
Example C01_case :
  defined_dict bad_alice /\ NoDup (dkeys (fields_of Esample 1)) /\
  rogue_key (fields_of Esample 1) (kw_mapping kw0) bad_alice (k "shoe") /\
  kw_strict kw0 = true /\ kw_validate kw0 = false /\
  exists pd, model_init Esample (lib 10) 1 (VDict bad_alice) (VDict []) kw0
             = Raise (XData [(k "shoe", NText m_rogue)] pd).
Proof.
  split; [now apply definedb_ok|]. split; [now apply nodupb_ok|]. split; [now apply rogueb_ok|].
  do 2 (split; [reflexivity|]). eexists; reflexivity.
Qed.

(** ** C02 *)
Theorem C02_undeclared_keys_have_no_influence :
  forall E r c d1 d2 td w,
    defined_dict d1 -> defined_dict d2 -> NoDup (dkeys (fields_of E c)) ->
    kw_validate w = false -> kw_strict w = false ->
    (forall y, acceptable (fields_of E c) (kw_mapping w) y -> dget y d1 = dget y d2) ->
    model_init E r c (VDict d1) (VDict td) w = model_init E r c (VDict d2) (VDict td) w.
Proof. exact init_noninterference. Qed.
Print Assumptions C02_undeclared_keys_have_no_influence.

Theorem C02_undeclared_keys_have_no_influence_import_data :
  forall E r c m d1 d2 td w,
    defined_dict d1 -> defined_dict d2 -> d1 <> [] -> d2 <> [] -> NoDup (dkeys (fields_of E c)) ->
    kw_validate w = false -> kw_strict w = false -> md_unsafe m = [] -> py_dict E (VModel c m) = Ok td ->
    (forall y, acceptable (fields_of E c) (kw_mapping w) y -> dget y d1 = dget y d2) ->
    model_import_data E r c m (VDict d1) w = model_import_data E r c m (VDict d2) w.
Proof. exact import_data_noninterference. Qed.
Print Assumptions C02_undeclared_keys_have_no_influence_import_data.

Definition kw_lax := KW no_mapping true false true true true false false.
Example C02_case :
  (forall y, acceptable (fields_of Esample 1) (kw_mapping kw_lax) y -> dget y alice = dget y bad_alice) /\
  exists m, model_init Esample (lib 10) 1 (VDict bad_alice) (VDict []) kw_lax = Ok m.
Proof.
  split.
  - intros y H. cbn [bad_alice dget]. destruct (key_eqb_spec y (k "shoe")) as [->|_]; [|reflexivity].
    exfalso. apply all_input_keys_acceptable in H. apply kmem_In in H. discriminate H.
  - eexists; reflexivity.
Qed.

(** ** C03 *)
(** What a failed import must report: the undeclared keys if strict, and the public name of every
    field whose own conversion fails ([init_reported] unfolds to exactly this). *)
Theorem C03_error_keys_are_exactly_the_failures :
  forall E r c d td w,
    defined_dict d -> NoDup (dkeys (fields_of E c)) -> kw_validate w = false ->
    forall errs pd y, model_init E r c (VDict d) (VDict td) w = Raise (XData errs pd) ->
    (In y (dkeys errs) <->
      (kw_strict w = true /\ rogue_key (fields_of E c) (kw_mapping w) d y) \/
      (exists n f e, In (n, f) (fields_of E c) /\ has_setter f = false /\
         fails E (cv_field r) (call_ctx w (VDict td)) d td n f e /\ y = public_name n f)).
Proof. exact init_error_keys. Qed.
Print Assumptions C03_error_keys_are_exactly_the_failures.

Theorem C03_error_payloads :
  forall E r c d td w,
    defined_dict d -> NoDup (dkeys (fields_of E c)) -> kw_validate w = false ->
    forall errs pd y nd, model_init E r c (VDict d) (VDict td) w = Raise (XData errs pd) ->
    dget y errs = Some nd ->
    (kw_strict w = true /\ rogue_key (fields_of E c) (kw_mapping w) d y /\ nd = NText m_rogue) \/
    (exists n f e, In (n, f) (fields_of E c) /\ has_setter f = false /\
       fails E (cv_field r) (call_ctx w (VDict td)) d td n f e /\ y = public_name n f /\ nd = shown_error e).
Proof. exact init_payload. Qed.
Print Assumptions C03_error_payloads.

Theorem C03_success_iff_nothing_to_report :
  forall E r c d td w,
    defined_dict d -> NoDup (dkeys (fields_of E c)) -> kw_validate w = false ->
    (forall n f e, In (n, f) (fields_of E c) -> has_setter f = false ->
       fails E (cv_field r) (call_ctx w (VDict td)) d td n f e -> collectable e = true) ->
    ((exists m, model_init E r c (VDict d) (VDict td) w = Ok m) <->
     (forall y, ~ ((kw_strict w = true /\ rogue_key (fields_of E c) (kw_mapping w) d y) \/
        (exists n f e, In (n, f) (fields_of E c) /\ has_setter f = false /\
           fails E (cv_field r) (call_ctx w (VDict td)) d td n f e /\ y = public_name n f)))).
Proof. exact init_success_iff. Qed.
Print Assumptions C03_success_iff_nothing_to_report.

(** Any other exception comes from a field and is one the library does not handle. *)
Theorem C03_other_exceptions_come_from_a_field :
  forall E r c d td w,
    defined_dict d -> NoDup (dkeys (fields_of E c)) -> kw_validate w = false ->
    forall e, model_init E r c (VDict d) (VDict td) w = Raise e -> (forall errs pd, e <> XData errs pd) ->
    exists n f, In (n, f) (fields_of E c) /\ has_setter f = false /\
      fails E (cv_field r) (call_ctx w (VDict td)) d td n f e /\ collectable e = false.
Proof. exact init_other_exception. Qed.
Print Assumptions C03_other_exceptions_come_from_a_field.

(** Two failing fields and a rogue key: all three are reported, under the public name. *)
Definition worse_alice :=
  [(k "shoe", VInt 42); (k "name", VStr (u "A")); (k "age", VStr (u "x"));
   (k "home", VDict [(k "street", VNone); (k "ZIP", VStr (u "y"))])].
Definition kw_full := KW no_mapping false true true true true false false.
Example C03_case :
  defined_dict worse_alice /\
  exists pd, model_init Esample (lib 10) 1 (VDict worse_alice) (VDict []) kw_full
  = Raise (XData [(k "shoe", NText m_rogue); (k "age", NConv [u "number_coerce"]);
                  (k "home", NDict [(k "street", NConv [m_required]); (k "ZIP", NConv [u "number_coerce"])])] pd).
Proof. split; [apply definedb_ok; reflexivity|]. eexists; reflexivity. Qed.

(** ** C04 *)
Theorem C04_supplied_field_is_stored_converted :
  forall E r c d td w,
    defined_dict d -> NoDup (dkeys (fields_of E c)) -> kw_validate w = false ->
    forall m n f v, model_init E r c (VDict d) (VDict td) w = Ok m ->
    In (n, f) (fields_of E c) -> has_setter f = false ->
    supplied d n (fd_spec f) (kw_mapping w) = Some v ->
    exists v', cv_field r (fd_spec f) v (field_ctx E (call_ctx w (VDict td)) n (fd_spec f)) = Ok v' /\
      (v' <> VUndef -> chain_get m n = Some v').
Proof. exact init_value_supplied. Qed.
Print Assumptions C04_supplied_field_is_stored_converted.

Theorem C04_missing_field_gets_default_or_none :
  forall E r c d td w,
    defined_dict d -> NoDup (dkeys (fields_of E c)) -> kw_validate w = false ->
    forall m n f, model_init E r c (VDict d) (VDict td) w = Ok m ->
    In (n, f) (fields_of E c) -> has_setter f = false ->
    supplied d n (fd_spec f) (kw_mapping w) = None -> dget n td = None ->
    exists v', cv_field r (fd_spec f) (candidate (call_ctx w (VDict td)) (fd_spec f) None)
                 (field_ctx E (call_ctx w (VDict td)) n (fd_spec f)) = Ok v' /\
      chain_get m n = if is_undef v' then None else Some v'.
Proof. exact init_value_missing. Qed.
Print Assumptions C04_missing_field_gets_default_or_none.

Theorem C04_nothing_else_is_stored :
  forall E r c d td w,
    defined_dict d -> NoDup (dkeys (fields_of E c)) -> kw_validate w = false ->
    forall m y, model_init E r c (VDict d) (VDict td) w = Ok m ->
    ~ In y (dkeys (fields_of E c)) -> chain_get m y = dget y td.
Proof. exact init_value_other. Qed.
Print Assumptions C04_nothing_else_is_stored.

Example C04_case :
  exists m f, model_init Esample (lib 10) 1 (VDict alice) (VDict []) kw0 = Ok m /\
    In (k "home", f) (fields_of Esample 1) /\ has_setter f = false /\
    supplied alice (k "home") (fd_spec f) (kw_mapping kw0)
      = Some (VDict [(k "street", VStr (u "Main")); (k "postcode", VInt 123)]) /\
    (exists g, In (k "age", g) (fields_of Esample 1) /\
       supplied alice (k "age") (fd_spec g) (kw_mapping kw0) = None /\ chain_get m (k "age") = Some (VInt 18)).
Proof.
  eexists; eexists. split; [reflexivity|]. split; [do 3 right; left; reflexivity|]. do 2 (split; [reflexivity|]).
  eexists. split; [right; left; reflexivity|]. split; reflexivity.
Qed.

(** ** C05 *)
(** The first accepted name that occurs in the input decides the value; [post] is irrelevant. *)
Theorem C05_first_present_input_key_wins :
  forall E r c d td w pre y post m n f v,
    defined_dict d -> NoDup (dkeys (fields_of E c)) -> kw_validate w = false ->
    model_init E r c (VDict d) (VDict td) w = Ok m ->
    In (n, f) (fields_of E c) -> has_setter f = false ->
    accepted_names n (fd_spec f) (kw_mapping w) = pre ++ y :: post ->
    (forall z, In z pre -> ~ In z (dkeys d)) -> dget y d = Some v ->
    exists v', cv_field r (fd_spec f) v (field_ctx E (call_ctx w (VDict td)) n (fd_spec f)) = Ok v' /\
      (v' <> VUndef -> chain_get m n = Some v').
Proof. exact init_precedence. Qed.
Print Assumptions C05_first_present_input_key_wins.

Example C05_case :
  let mp := Mapping [(k "zip", [k "plz"])] [] in
  let w := KW mp true true true true true false false in
  let d := [(k "postcode", VInt 3); (k "plz", VInt 2); (k "street", VStr (u "s"))] in
  accepted_names (k "zip") (fd_spec (snd (fld "zip" (o_from ["postcode"%string] (o_sname "ZIP" (o0 0))) (TLeaf int_leaf)))) mp
    = [k "zip"; k "ZIP"] ++ k "plz" :: [k "postcode"] /\
  (forall z, In z [k "zip"; k "ZIP"] -> ~ In z (dkeys d)) /\
  model_init Esample (lib 10) 0 (VDict d) (VDict []) w
    = Ok (MD [] [(k "street", VStr (u "s")); (k "zip", VInt 2)] [] None).
Proof.
  cbn zeta. split; [reflexivity|]. split; [|reflexivity].
  intros z [<-|[<-|[]]]; apply kmem_nIn; reflexivity.
Qed.

(** Serialized names, mapped names and deserialize_from names count unless they are empty (or the number 0). *)
Theorem C05_empty_names_are_ignored : forall n f mp y,
  In y (accepted_names n f mp) <->
  y = n \/ (y <> KStr [] /\ y <> KInt 0 /\
            (fo_sname (fs_opts f) = Some y \/ (exists l, dget n (given_names mp) = Some l /\ In y l) \/ In y (fo_dfrom (fs_opts f)))).
Proof. exact accepted_names_iff. Qed.
Print Assumptions C05_empty_names_are_ignored.

Theorem C05_empty_serialized_names_are_ignored : forall n f,
  (fo_sname (fs_opts (fd_spec f)) = None -> public_name n f = n) /\
  (forall s, fo_sname (fs_opts (fd_spec f)) = Some s ->
     ((s = KStr [] \/ s = KInt 0) -> public_name n f = n) /\ (s <> KStr [] -> s <> KInt 0 -> public_name n f = s)).
Proof. exact public_name_cases. Qed.
Print Assumptions C05_empty_serialized_names_are_ignored.

Example C05_empty_case :
  let f := fld "zip" (o_from [""; "postcode"]%string (o_sname "" (o0 0))) (TLeaf int_leaf) in
  public_name (k "zip") (snd f) = k "zip" /\
  accepted_names (k "zip") (fd_spec (snd f)) (Mapping [(k "zip", [KInt 0; KInt 7])] []) = [k "zip"; KInt 7; k "postcode"].
Proof. now split. Qed.

(** ** C06 *)
(** A required field given None, or nothing and without default, makes a non-partial import fail
    with an error for that field. *)
Theorem C06_required_field_must_be_given :
  forall E k0 c d td w m n f,
    defined_dict d -> NoDup (dkeys (fields_of E c)) -> kw_validate w = false ->
    In (n, f) (fields_of E c) -> has_setter f = false -> fo_required (fs_opts (fd_spec f)) = true ->
    kw_partial w = false ->
    (exists v, supplied d n (fd_spec f) (kw_mapping w) = Some v /\ v = VNone) \/
    (supplied d n (fd_spec f) (kw_mapping w) = None /\ dget n td = None /\
       is_nil (candidate (call_ctx w (VDict td)) (fd_spec f) None) = true) ->
    model_init E (conv_at E (S k0)) c (VDict d) (VDict td) w <> Ok m /\
    (forall errs pd, model_init E (conv_at E (S k0)) c (VDict d) (VDict td) w = Raise (XData errs pd) ->
       In (public_name n f) (dkeys errs)).
Proof. exact init_required. Qed.
Print Assumptions C06_required_field_must_be_given.

(** None or nothing is always accepted when the field is not required, or the import is partial and
    the field belongs directly to a model. *)
Theorem C06_none_is_accepted_otherwise :
  forall E k0 f v x, is_nil v = true ->
    (fo_required (fs_opts f) = false \/ fo_named (fs_opts f) = true /\ cx_partial x = true) ->
    cv_field (conv_at E (S k0)) f v x = Ok v.
Proof. exact nil_passes. Qed.
Print Assumptions C06_none_is_accepted_otherwise.

(** An inner element type (list or dict element) that is required rejects None even when partial. *)
Theorem C06_required_elements_reject_none :
  forall E k0 f v x, fo_required (fs_opts f) = true -> is_nil v = true ->
    (fo_named (fs_opts f) = false \/ cx_partial x = false) ->
    cv_field (conv_at E (S k0)) f v x = Raise (XConv [m_required]).
Proof. exact required_fails. Qed.
Print Assumptions C06_required_elements_reject_none.

Example C06_case :
  let d := [(k "zip", VInt 1)] in
  (exists pd, model_init Esample (lib 10) 0 (VDict d) (VDict []) kw_full
     = Raise (XData [(k "street", NConv [m_required])] pd)) /\
  (exists m, model_init Esample (lib 10) 0 (VDict d) (VDict []) kw0 = Ok m).
Proof. split; eexists; reflexivity. Qed.

(** ** C07 *)
Theorem C07_trusted_value_survives :
  forall E r c d td w,
    defined_dict d -> NoDup (dkeys (fields_of E c)) -> kw_validate w = false ->
    forall m n f t, model_init E r c (VDict d) (VDict td) w = Ok m ->
    In (n, f) (fields_of E c) -> has_setter f = false ->
    supplied d n (fd_spec f) (kw_mapping w) = None -> dget n td = Some t ->
    chain_get m n = Some t.
Proof. exact init_value_trusted. Qed.
Print Assumptions C07_trusted_value_survives.

(** The trusted value need not even be convertible. *)
Example C07_case :
  let td := [(k "age", VStr (u "not a number"))] in
  exists m, model_init Esample (lib 10) 1 (VDict [(k "name", VNone)]) (VDict td) kw0 = Ok m /\
    chain_get m (k "age") = Some (VStr (u "not a number")).
Proof. eexists; split; reflexivity. Qed.

(** ** C08 *)
Theorem C08_partial_data_of_a_failed_import :
  forall E r c d td w,
    defined_dict d -> NoDup (dkeys (fields_of E c)) -> kw_validate w = false ->
    forall errs pd n f, model_init E r c (VDict d) (VDict td) w = Raise (XData errs pd) ->
    In (n, f) (fields_of E c) -> has_setter f = false ->
    dget n pd = value_after (call_ctx w (VDict td)) (fd_spec f)
                  (field_outcome E (cv_field r) (call_ctx w (VDict td)) d td n (fd_spec f)) (dget n td).
Proof. exact init_partial. Qed.
Print Assumptions C08_partial_data_of_a_failed_import.

Theorem C08_partial_data_has_no_other_keys :
  forall E r c d td w,
    defined_dict d -> NoDup (dkeys (fields_of E c)) -> kw_validate w = false ->
    forall errs pd y, model_init E r c (VDict d) (VDict td) w = Raise (XData errs pd) ->
    ~ In y (dkeys (fields_of E c)) -> dget y pd = dget y td.
Proof. exact init_partial_other. Qed.
Print Assumptions C08_partial_data_has_no_other_keys.

Example C08_case :
  exists errs, model_init Esample (lib 10) 1 (VDict worse_alice) (VDict []) kw_full
  = Raise (XData errs [(k "name", VStr (u "A")); (k "age", VInt 18); (k "tags", VNone); (k "home", VDict [])]).
Proof. eexists; reflexivity. Qed.

(** ** C09 *)
Theorem C09_failed_import_data_changes_nothing :
  forall E r c m raw w m' e,
    kw_validate w = false -> md_unsafe m = [] ->
    model_import_data E r c m raw w = (m', Some e) -> m' = m.
Proof. exact import_data_atomic. Qed.
Print Assumptions C09_failed_import_data_changes_nothing.

Definition m_alice : mdata pyval :=
  MD [] [(k "name", VStr (u "Alice")); (k "age", VInt 18)] [(k "tags", VNone)] None.
Example C09_case :
  exists e, model_import_data Esample (lib 10) 1 m_alice (VDict [(k "age", VStr (u "x")); (k "name", VStr (u "B"))]) kw1
    = (m_alice, Some e).
Proof. eexists; reflexivity. Qed.

(** With lazily stored data the claim is false: a failing import_data loses all of it. *)
Theorem C09_lazy_data_is_lost_refuted :
  exists E r c m raw w m' e n v,
    kw_validate w = false /\ model_import_data E r c m raw w = (m', Some e) /\
    chain_get m n = Some v /\ chain_get m' n = None.
Proof.
  exists Esample, (lib 10), 1%N, (model_init_lazy [(k "name", VStr (u "A")); (k "age", VInt 1)] []),
    (VDict [(k "age", VStr (u "x"))]), kw1. do 2 eexists. exists (k "name"), (VStr (u "A")).
  repeat split; reflexivity.
Qed.
Print Assumptions C09_lazy_data_is_lost_refuted.

(** ** C10 *)
Theorem C10_supplied_fields_read_as_converted :
  forall E r c m d w,
    defined_dict d -> d <> [] -> NoDup (dkeys (fields_of E c)) -> kw_validate w = false ->
    md_unsafe m = [] -> plain_fields (fields_of E c) -> defined_data m ->
    forall m' n f v, model_import_data E r c m (VDict d) w = (m', None) -> In (n, f) (fields_of E c) ->
    supplied d n (fd_spec f) (kw_mapping w) = Some v ->
    exists v', cv_field r (fd_spec f) v
                 (field_ctx E (call_ctx w (VDict (model_items E c m))) n (fd_spec f)) = Ok v' /\
      (v' <> VUndef -> chain_get m' n = Some v').
Proof. exact idata_supplied. Qed.
Print Assumptions C10_supplied_fields_read_as_converted.

Theorem C10_other_fields_keep_their_value :
  forall E r c m d w,
    defined_dict d -> d <> [] -> NoDup (dkeys (fields_of E c)) -> kw_validate w = false ->
    md_unsafe m = [] -> plain_fields (fields_of E c) -> defined_data m ->
    forall m' n f v, model_import_data E r c m (VDict d) w = (m', None) -> In (n, f) (fields_of E c) ->
    supplied d n (fd_spec f) (kw_mapping w) = None -> chain_get m n = Some v -> chain_get m' n = Some v.
Proof. exact idata_unsupplied. Qed.
Print Assumptions C10_other_fields_keep_their_value.

Theorem C10_absent_fields_get_default_or_none :
  forall E r c m d w,
    defined_dict d -> d <> [] -> NoDup (dkeys (fields_of E c)) -> kw_validate w = false ->
    md_unsafe m = [] -> plain_fields (fields_of E c) -> defined_data m ->
    forall m' n f, model_import_data E r c m (VDict d) w = (m', None) -> In (n, f) (fields_of E c) ->
    supplied d n (fd_spec f) (kw_mapping w) = None -> chain_get m n = None ->
    exists v', cv_field r (fd_spec f) (candidate (call_ctx w (VDict (model_items E c m))) (fd_spec f) None)
                 (field_ctx E (call_ctx w (VDict (model_items E c m))) n (fd_spec f)) = Ok v' /\
      chain_get m' n = if is_undef v' then None else Some v'.
Proof. exact idata_absent. Qed.
Print Assumptions C10_absent_fields_get_default_or_none.

Theorem C10_nothing_else_changes :
  forall E r c m d w,
    defined_dict d -> d <> [] -> NoDup (dkeys (fields_of E c)) -> kw_validate w = false ->
    md_unsafe m = [] -> plain_fields (fields_of E c) -> defined_data m ->
    forall m' y, model_import_data E r c m (VDict d) w = (m', None) ->
    ~ In y (dkeys (fields_of E c)) -> chain_get m' y = chain_get m y.
Proof. exact idata_other. Qed.
Print Assumptions C10_nothing_else_changes.

Example C10_case :
  plain_fields (fields_of Esample 1) /\ defined_data m_alice /\ md_unsafe m_alice = [] /\
  NoDup (dkeys (fields_of Esample 1)) /\
  exists m', model_import_data Esample (lib 10) 1 m_alice (VDict [(k "age", VBool true)]) kw1 = (m', None) /\
    chain_get m' (k "age") = Some (VInt 1) /\ chain_get m' (k "name") = Some (VStr (u "Alice")).
Proof.
  split; [now apply plainb_ok|]. split; [now apply defined_data_ok|]. split; [reflexivity|].
  split; [now apply nodupb_ok|]. eexists; repeat split; reflexivity.
Qed.
