(** C22-C26: lists, dictionaries, unions, polymorphic model fields.
    [fc] is the conversion of one element ([cv_field (conv_at E n)] in the library). *)
From Verif.Model Require Import Py Core Export Api Compound.
From Verif.Spec Require Import ImportSpec ValidateSpec CompoundSpec ExportSpec DeepSpec SizeSpec.
From Verif.Proofs Require Import DictLemmas ValidateLemmas CompoundLemmas PolyLemmas CompoundWitness Tight SizeFacts.
From Verif.Conformance Require Import Sample.

(** ** C22 *)
Theorem C22_succeeds_iff_all_elements_convert :
  forall fc g x E v w, list_convert E fc g v x = Ok w <->
    exists l ws, elements E v = Some l /\ w = VList ws /\ all_convert fc g x l ws.
Proof. exact list_convert_ok. Qed.
Print Assumptions C22_succeeds_iff_all_elements_convert.

Theorem C22_same_length :
  forall fc g x l ws, all_convert fc g x l ws -> length ws = length l.
Proof. exact all_convert_length. Qed.
Print Assumptions C22_same_length.

Theorem C22_errors_are_exactly_the_failing_indices :
  forall fc g x E v errs, list_convert E fc g v x = Raise (XCompound errs) ->
    exists l, elements E v = Some l /\ errs <> [] /\
      (forall y, In y (dkeys errs) <-> exists j e, rejected_at fc g x l j e /\ y = KInt (Z.of_nat j)) /\
      (forall y nd, dget y errs = Some nd ->
         exists j e, rejected_at fc g x l j e /\ y = KInt (Z.of_nat j) /\ nd = shown_error e).
Proof. exact list_convert_errors. Qed.
Print Assumptions C22_errors_are_exactly_the_failing_indices.

Theorem C22_any_rejected_element_fails_the_list :
  forall fc g x E v l, elements E v = Some l -> no_crash fc g x l ->
    (exists j e, rejected_at fc g x l j e) -> exists errs, list_convert E fc g v x = Raise (XCompound errs).
Proof. exact list_convert_fails. Qed.
Print Assumptions C22_any_rejected_element_fails_the_list.

(** What is neither list nor tuple, bytes or model instance is refused. *)
Theorem C22_other_values_are_refused :
  forall E fc g v x, elements E v = None -> list_convert E fc g v x = Raise (XConv [m_list_input]).
Proof. exact list_refused. Qed.
Print Assumptions C22_other_values_are_refused.

Definition ints : fspec := FS (o_inner (o0 1)) (TLeaf int_leaf).
Definition ctx1 : ictx := kw_ctx kw1 (VDict []).
Example C22_case :
  list_convert Esample (cv_field (lib 5)) ints (VTuple [VInt 1; VStr (u "x"); VBool true; VStr (u "y")]) ctx1
  = Raise (XCompound [(KInt 1, NConv [u "number_coerce"]); (KInt 3, NConv [u "number_coerce"])]) /\
  list_convert Esample (cv_field (lib 5)) ints (VTuple [VInt 1; VBool true; VNone]) ctx1 = Ok (VList [VInt 1; VInt 1; VNone]) /\
  no_crash (cv_field (lib 5)) ints ctx1 [VInt 1; VStr (u "x")].
Proof.
  do 2 (split; [reflexivity|]). intros v e [<-|[<-|[]]]; vm_compute; intros [= <-]; reflexivity.
Qed.

(** ** C23 *)
Theorem C23_succeeds_iff_all_entries_convert :
  forall fc g x ck v w, dict_convert fc g ck v x = Ok w <->
    exists d ps, v = VDict d /\ w = VDict (dupdate [] ps) /\ Forall2 (entry_converts fc g ck x) d ps.
Proof. exact dict_convert_ok. Qed.
Print Assumptions C23_succeeds_iff_all_entries_convert.

Theorem C23_distinct_keys_keep_every_entry :
  forall fc g x ck d w, dict_convert fc g ck (VDict d) x = Ok w ->
    (forall y1 y2 z, In y1 (dkeys d) -> In y2 (dkeys d) -> ck y1 = Ok z -> ck y2 = Ok z -> y1 = y2) ->
    NoDup (dkeys d) ->
    exists ps, w = VDict ps /\ Forall2 (entry_converts fc g ck x) d ps /\ NoDup (dkeys ps).
Proof. exact dict_convert_distinct. Qed.
Print Assumptions C23_distinct_keys_keep_every_entry.

Theorem C23_errors_are_exactly_the_failing_keys :
  forall fc g x ck v errs, dict_convert fc g ck v x = Raise (XCompound errs) ->
    exists d, v = VDict d /\ errs <> [] /\
      (forall y, In y (dkeys errs) <-> exists v e, In (y, v) d /\ entry_rejected fc g ck x (y, v) e) /\
      (forall y nd, dget y errs = Some nd ->
         exists v e, In (y, v) d /\ entry_rejected fc g ck x (y, v) e /\ nd = shown_error e).
Proof. exact dict_convert_errors. Qed.
Print Assumptions C23_errors_are_exactly_the_failing_keys.

Theorem C23_any_rejected_entry_fails_the_dict :
  forall fc g x ck d,
    (forall y v e, In (y, v) d -> entry_rejected fc g ck x (y, v) e -> collectable e = true) ->
    (exists y v e, In (y, v) d /\ entry_rejected fc g ck x (y, v) e) ->
    exists errs, dict_convert fc g ck (VDict d) x = Raise (XCompound errs).
Proof. exact dict_convert_fails. Qed.
Print Assumptions C23_any_rejected_entry_fails_the_dict.

(** When two keys have the same text an entry is lost without an error. *)
Theorem C23_colliding_keys_lose_an_entry_refuted :
  exists fc g ck d x ps, NoDup (dkeys d) /\ length d = 2 /\
    dict_convert fc g ck (VDict d) x = Ok (VDict ps) /\ length ps = 1.
Proof. exact colliding_keys_witness. Qed.
Print Assumptions C23_colliding_keys_lose_an_entry_refuted.

Example C23_case :
  dict_convert (cv_field (lib 5)) ints (fun y => Ok y) (VDict [(k "a", VBool true); (k "b", VStr (u "x")); (KInt 3, VInt 3)]) ctx1
  = Raise (XCompound [(k "b", NConv [u "number_coerce"])]) /\
  dict_convert (cv_field (lib 5)) ints (fun y => Ok y) (VDict [(k "a", VBool true); (KInt 3, VInt 3)]) ctx1
  = Ok (VDict [(k "a", VInt 1); (KInt 3, VInt 3)]).
Proof. split; reflexivity. Qed.

(** ** C24 *)
Theorem C24_list_validation_checks_exactly_the_bounds :
  forall E j o g pre mn mx v x w, cx_convert x = true ->
    (cv_validate (conv_at E (S (S j))) (FS (list_opts pre mn mx o) (TList g)) v x = Ok w <->
     exists l ws, elements E v = Some l /\ w = VList ws /\ all_convert (cv_field (conv_at E j)) g x l ws /\
       within mn mx (Z.of_nat (length l)) /\ (forall h, In h pre \/ In h (fo_validators o) -> passes h w)).
Proof. exact list_validated. Qed.
Print Assumptions C24_list_validation_checks_exactly_the_bounds.

Theorem C24_the_check_alone :
  forall mn mx l, passes (check_length mn mx) (VList l) <-> within mn mx (Z.of_nat (length l)).
Proof. exact check_length_list. Qed.
Print Assumptions C24_the_check_alone.

Theorem C24_a_violation_is_a_validation_error :
  forall mn mx l, ~ within mn mx (Z.of_nat (length l)) ->
    exists t, size_message mn mx (Z.of_nat (length l)) t /\ complains (check_length mn mx) (VList l) false [t].
Proof. exact check_length_complains. Qed.
Print Assumptions C24_a_violation_is_a_validation_error.

(** Without conversion other values reach the check: of an instance it counts the keys that have a value, *)
Theorem C24_the_check_of_an_instance :
  forall mn mx c m l, NoDup l -> (forall y, In y l <-> chain_get m y <> None) ->
    (passes (check_length mn mx) (VModel c m) <-> within mn mx (Z.of_nat (length l))).
Proof. exact check_length_instance. Qed.
Print Assumptions C24_the_check_of_an_instance.
(** and values without a size raise TypeError. *)
Theorem C24_the_check_of_other_values :
  forall mn mx v, truthy v = true -> (forall l, v <> VList l) -> (forall l, v <> VTuple l) -> (forall d, v <> VDict d) ->
    (forall s, v <> VStr s) -> (forall s, v <> VBytes s) -> (forall c m, v <> VModel c m) ->
    check_length mn mx v = Some (XPy ETypeError).
Proof. exact check_length_none. Qed.
Print Assumptions C24_the_check_of_other_values.
Example C24_other_values_case :
  check_length (Some 2%Z) None (VModel 1 (MD [] [(k "name", VNone)] [(k "name", VInt 1)] None)) = Some (XValid false [m_too_few 2]) /\
  (forall y, In y [k "name"] <-> chain_get (MD [] [(k "name", VNone)] [(k "name", VInt 1)] None) y <> None) /\
  check_length None None (VInt 7) = Some (XPy ETypeError).
Proof.
  split; [reflexivity|]. split; [|reflexivity]. intros y. unfold chain_get. cbn [md_unsafe md_converted md_valid dget In].
  destruct (key_eqb y (k "name")) eqn:K; [apply key_eqb_eq in K as ->; split; [discriminate|auto]|].
  split; [intros [<-|[]]; rewrite key_eqb_refl in K; discriminate|congruence].
Qed.

Example C24_case :
  cv_validate (lib 5) (FS (list_opts [] (Some 1%Z) (Some 2%Z) (o0 1)) (TList ints)) (VList [VInt 1; VInt 2]) ctx1 = Ok (VList [VInt 1; VInt 2]) /\
  cv_validate (lib 5) (FS (list_opts [] (Some 1%Z) (Some 2%Z) (o0 1)) (TList ints)) (VList []) ctx1 = Raise (XValid false [m_too_few 1]) /\
  ~ within (Some 1%Z) (Some 2%Z) 3.
Proof. do 2 (split; [reflexivity|]). intros [_ H]. specialize (H _ eq_refl). lia. Qed.

(** ** C25 *)
Theorem C25_the_first_member_that_does_not_refuse_converts :
  forall E j o ms v x w, cv_convert (conv_at E (S j)) (FS o (TUnion ms)) v x = Ok w <->
    exists m, first_open (fun m u => cv_convert (conv_at E j) m u x) ms v m /\ cv_convert (conv_at E j) m v x = Ok w.
Proof. exact union_convert_first. Qed.
Print Assumptions C25_the_first_member_that_does_not_refuse_converts.

Theorem C25_conversion_error_iff_all_refuse :
  forall E j o ms v x, (exists es, cv_convert (conv_at E (S j)) (FS o (TUnion ms)) v x = Raise (XConv es)) <->
    Forall (fun m => refuses (fun m u => cv_convert (conv_at E j) m u x) m v) ms.
Proof. exact union_convert_refused. Qed.
Print Assumptions C25_conversion_error_iff_all_refuse.

Theorem C25_other_exceptions_of_the_first_open_member_propagate :
  forall E j o ms v x e, (forall es, e <> XConv es) ->
    (cv_convert (conv_at E (S j)) (FS o (TUnion ms)) v x = Raise e <->
     exists m, first_open (fun m u => cv_convert (conv_at E j) m u x) ms v m /\ cv_convert (conv_at E j) m v x = Raise e).
Proof. exact union_convert_crash. Qed.
Print Assumptions C25_other_exceptions_of_the_first_open_member_propagate.

(** A list member that fails on an element ends the search: later members are not tried. *)
Theorem C25_errors_inside_a_list_member_are_final :
  forall E j o pre o' g post v x l,
    Forall (fun m => refuses (fun m u => cv_convert (conv_at E (S j)) m u x) m v) pre ->
    elements E v = Some l -> no_crash (cv_field (conv_at E j)) g x l ->
    (exists i e, rejected_at (cv_field (conv_at E j)) g x l i e) ->
    exists errs, cv_convert (conv_at E (S (S j))) (FS o (TUnion (pre ++ FS o' (TList g) :: post))) v x = Raise (XCompound errs).
Proof. exact union_list_final. Qed.
Print Assumptions C25_errors_inside_a_list_member_are_final.

(** So a union does not accept everything one of its members accepts. *)
Theorem C25_accepts_what_a_member_accepts_refuted :
  exists E j o ms m v x w errs, In m ms /\ cv_convert (conv_at E j) m v x = Ok w /\
    cv_convert (conv_at E (S j)) (FS o (TUnion ms)) v x = Raise (XCompound errs).
Proof. exact hidden_member_witness. Qed.
Print Assumptions C25_accepts_what_a_member_accepts_refuted.

(** A model instance (or mapping) held by a union cannot be exported when a model member is reached. *)
Theorem C25_model_members_cannot_be_exported :
  forall E n o pre o' c post v x, Forall (declined E v) pre ->
    (exists d, v = VDict d) \/ (exists c' m, v = VModel c' m /\ e_issub E c' c = true) ->
    export_at E (S n) (FS o (TUnion (pre ++ FS o' (TModel c) :: post))) v x = Raise (XPy EAttributeError).
Proof. exact union_model_export. Qed.
Print Assumptions C25_model_members_cannot_be_exported.

(** What was imported cannot always be exported. *)
Theorem C25_imported_unions_can_be_exported_refuted :
  exists E c d m, model_init E (conv_at E 10) c (VDict d) (VDict []) kw0 = Ok m /\
    (forall n, exists e, model_export_top E (export_at E n) c m ((ECtx Primitive NoRole true None)) = Raise e /\
       (1 <= n -> e = XPy EAttributeError)).
Proof. exact union_model_witness. Qed.
Print Assumptions C25_imported_unions_can_be_exported_refuted.

(** Declared members of distinct classes are all kept, in order; of several of one class only the last. *)
Theorem C25_members_are_the_declared_ones :
  forall decl, NoDup (dkeys decl) -> union_members decl = map snd decl.
Proof. exact union_members_distinct. Qed.
Print Assumptions C25_members_are_the_declared_ones.

Theorem C25_same_class_members_are_dropped_refuted :
  exists decl v m, In m (map snd decl) /\ (exists w, leaf_convert m v = Ok w) /\
    exists es, union_resolve leaf_convert (union_members decl) v = Raise (XConv es).
Proof. exact dropped_member_witness. Qed.
Print Assumptions C25_same_class_members_are_dropped_refuted.

Theorem C25_custom_resolver :
  forall cvt resolver types v c m, resolver v = Ok (RClass c) -> dget c types = Some m ->
    (forall w, union_resolve_with cvt resolver types v = Ok (m, w) <-> cvt m v = Ok w) /\
    ((exists es, union_resolve_with cvt resolver types v = Raise (XConv es)) <-> refuses cvt m v).
Proof. exact union_with_class. Qed.
Print Assumptions C25_custom_resolver.

(** A resolver may also answer with a member and a value, which are used as they are, or with nothing, which is refused. *)
Theorem C25_custom_resolver_answers : forall cvt resolver types v,
  (forall m w, resolver v = Ok (RPair m w) -> union_resolve_with cvt resolver types v = Ok (m, w)) /\
  (resolver v = Ok RNothing -> exists es, union_resolve_with cvt resolver types v = Raise (XConv es)) /\
  (forall c, resolver v = Ok (RClass c) -> dget c types = None -> union_resolve_with cvt resolver types v = Raise (XPy EKeyError)) /\
  (forall e, resolver v = Raise e -> union_resolve_with cvt resolver types v = Raise e).
Proof. exact union_with_other. Qed.
Print Assumptions C25_custom_resolver_answers.

(** A resolver that knows lists and numbers. *)
Definition by_shape : pyval -> res resolution := fun v => match v with
  | VInt _ => Ok (RClass (k "IntType"))
  | VList _ => Ok (RPair (FS (o_inner (o0 1)) (TList ints)) v)
  | VStr _ => Ok (RClass (k "StringType"))
  | _ => Ok RNothing end.
Example C25_resolver_case :
  union_resolve_with leaf_convert by_shape [(k "IntType", member_of int_leaf [])] (VInt 3) = Ok (member_of int_leaf [], VInt 3) /\
  union_resolve_with leaf_convert by_shape [(k "IntType", member_of int_leaf [])] (VList []) = Ok (FS (o_inner (o0 1)) (TList ints), VList []) /\
  by_shape VNone = Ok RNothing /\ by_shape (VStr []) = Ok (RClass (k "StringType")) /\ dget (k "StringType") [(k "IntType", member_of int_leaf [])] = None.
Proof. repeat (split; [reflexivity|]). reflexivity. Qed.

Definition int_or_any : list fspec := [member_of int_leaf []; FS (o_inner (o0 1)) (TList ints); FS (o_inner (o0 1)) (TModel 0); member_of any_leaf []].
Example C25_case :
  cv_convert (lib 5) (FS (o0 1) (TUnion int_or_any)) (VStr (u "x")) ctx1 = Ok (VStr (u "x")) /\
  first_open (fun m u => cv_convert (lib 4) m u ctx1) int_or_any (VStr (u "x")) (member_of any_leaf []) /\
  cv_convert (lib 5) (FS (o0 1) (TUnion int_or_any)) (VList [VInt 1; VBool true]) ctx1 = Ok (VList [VInt 1; VInt 1]) /\
  (exists errs, cv_convert (lib 5) (FS (o0 1) (TUnion int_or_any)) (VList [VStr (u "x")]) ctx1 = Raise (XCompound errs)) /\
  (exists m, cv_convert (lib 5) (FS (o0 1) (TUnion int_or_any)) (VDict [(k "street", VStr (u "s"))]) ctx1 = Ok (VModel 0 m)) /\
  cv_convert (lib 5) (FS (o0 1) (TUnion [member_of int_leaf []])) (VStr (u "x")) ctx1 = Raise (XConv [m_union]) /\
  Forall (declined Esample (VModel 0 md_empty)) [member_of int_leaf []; FS (o_inner (o0 1)) (TDict ints (fun y => Ok y))].
Proof.
  split; [reflexivity|]. split.
  { exists [member_of int_leaf []; FS (o_inner (o0 1)) (TList ints); FS (o_inner (o0 1)) (TModel 0)], []. split; [reflexivity|]. split.
    - repeat constructor; eexists; reflexivity.
    - intros [es H]. discriminate. }
  split; [reflexivity|]. split; [eexists; reflexivity|]. split; [eexists; reflexivity|]. split; [reflexivity|].
  constructor; [eapply dc_leaf; reflexivity|]. constructor; [now apply dc_dict|constructor].
Qed.

(** ** C26 *)
Theorem C26_only_permitted_classes :
  forall E fc pre p v x w, (forall c, e_issub E c c = true) -> honest_subs E -> po_claim p = None ->
    (forall c, proper_setters E c) -> poly_convert E fc pre p v x = Ok w ->
    w = VNone /\ v = VNone \/ exists c m, w = VModel c m /\ permitted E p c.
Proof. exact poly_convert_class. Qed.
Print Assumptions C26_only_permitted_classes.

(** The class chosen is the only one that claims the data or, if none does, the first one without a claim hook. *)
Theorem C26_choice_of_the_class :
  forall E p v c cs, po_claim p = None -> considered E (po_allow_sub p) (po_classes p) cs ->
    (find_model E p v = Ok c <->
     exists l, claimants E v cs l /\ (l = [c] \/ l = [] /\ first_open_class E cs c)).
Proof. exact find_model_spec. Qed.
Print Assumptions C26_choice_of_the_class.

Theorem C26_ambiguity_and_no_match_are_errors :
  forall E p v cs l, po_claim p = None -> considered E (po_allow_sub p) (po_classes p) cs -> claimants E v cs l ->
    (find_model E p v = Raise (XPy EGenericException) <-> 2 <= length l \/ l = [] /\ forall c, In c cs -> ~ no_hook E c).
Proof. exact find_model_fails. Qed.
Print Assumptions C26_ambiguity_and_no_match_are_errors.

(** With a claim function the declared classes are not enforced. *)
Theorem C26_claim_function_is_trusted_refuted :
  exists E p v c m, (forall c, e_issub E c c = true) /\ honest_subs E /\ (forall c, proper_setters E c) /\
    cv_field (conv_at E 5) (FS (o0 0) (TPoly p)) v default_ctx = Ok (VModel c m) /\ ~ permitted E p c.
Proof. exact claim_function_witness. Qed.
Print Assumptions C26_claim_function_is_trusted_refuted.

(** A model field holds an instance of its class or of a subclass. *)
Theorem C26_model_fields_hold_instances_of_their_class :
  forall E fc pre c v x w, (forall c, e_issub E c c = true) -> (forall c, proper_setters E c) ->
    cx_convert x = true -> cx_oo x = true -> model_convert E fc pre c v x = Ok w ->
    exists c' m, w = VModel c' m /\ e_issub E c' c = true.
Proof. exact model_convert_class. Qed.
Print Assumptions C26_model_fields_hold_instances_of_their_class.

(** A mapping becomes an instance of the declared class; an instance of a subclass keeps its class; anything else is
    refused. *)
Theorem C26_class_of_the_converted_instance :
  forall E fc pre c v x w, (forall c, proper_setters E c) -> cx_convert x = true -> cx_oo x = true ->
    model_convert E fc pre c v x = Ok w ->
    (exists d m, v = VDict d /\ w = VModel c m) \/
    (exists c' m0 m, v = VModel c' m0 /\ e_issub E c' c = true /\ w = VModel c' m).
Proof. exact model_converts_to. Qed.
Print Assumptions C26_class_of_the_converted_instance.

Theorem C26_other_values_are_refused :
  forall E fc pre c v x, (forall d, v <> VDict d) -> (forall c' m, v = VModel c' m -> e_issub E c' c = false) ->
    model_convert E fc pre c v x = Raise (XConv [m_model_input]).
Proof. exact model_refuses. Qed.
Print Assumptions C26_other_values_are_refused.

Example C26_case_model_fields :
  model_convert Epoly (cv_field (conv_at Epoly 5)) (cv_pre (conv_at Epoly 5)) 0 (VModel 1 md_empty) default_ctx
    = Ok (VModel 1 (MD [] [(k "wheels", VNone)] [] None)) /\
  model_convert Epoly (cv_field (conv_at Epoly 5)) (cv_pre (conv_at Epoly 5)) 1 (VModel 0 md_empty) default_ctx
    = Raise (XConv [m_model_input]) /\
  elements Epoly (VStr (u "abc")) = None.
Proof. repeat split. Qed.

Example C26_case :
  honest_subs Epoly /\ (forall c, e_issub Epoly c c = true) /\ (forall c, proper_setters Epoly c) /\
  considered Epoly true [0%N] [0%N; 1%N; 2%N] /\
  claimants Epoly (VDict [(k "wheels", VInt 4)]) [0%N; 1%N; 2%N] [1%N] /\
  find_model Epoly (poly_init (OneClass 0) None None) (VDict [(k "wheels", VInt 4)]) = Ok 1%N /\
  find_model Epoly (poly_init (OneClass 0) None None) (VDict []) = Ok 0%N /\
  find_model Epoly (poly_init (OneClass 0) None None) (VDict [(k "wheels", VInt 4); (k "wings", VInt 2)]) = Raise (XPy EGenericException).
Proof.
  split; [exact poly_honest|]. split; [exact poly_refl|]. split; [exact poly_setters|].
  split; [apply (con_cons Epoly true 0%N [] []); constructor|].
  split; [|repeat split].
  apply cl_open; [reflexivity|]. apply cl_yes; [eexists; split; reflexivity|]. apply cl_no; [eexists; split; reflexivity|]. constructor.
Qed.
