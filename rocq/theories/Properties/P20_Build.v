(** C73: options of types that contain types. *)
From Verif.Model Require Import Py Core Export Compound Equality Build.
From Verif.Spec Require Import ImportSpec BuildSpec TruthSpec.
From Verif.Proofs Require Import BuildFacts BuildUse BuildWitness TruthFacts.
From Verif.Conformance Require Import Sample.

(** What the options are, whatever the class: a name, one source or several, an export level that goes before
    serialize_when_none. *)
Theorem C73_options_from_keywords : forall E d str n c kw f,
  own_params c -> new_type E d str n c kw = Ok f -> options_mean kw (fs_opts f).
Proof. exact new_type_means. Qed.
Print Assumptions C73_options_from_keywords.

Example C73_keywords_case :
  exists f, new_type Esample 5 Ok 3 CDict [(k "field", AClass (CLeaf int_class)); (k "required", AVal (VInt 1));
      (k "deserialize_from", AVal (VTuple [VStr (u "a"); VStr (u "b")])); (k "export_level", AVal (VInt 2));
      (k "serialize_when_none", AVal (VBool true))] = Ok f /\
    fo_required (fs_opts f) = true /\ fo_dfrom (fs_opts f) = [k "a"; k "b"] /\ fo_level (fs_opts f) = Some 2%Z.
Proof. eexists. repeat (split; [reflexivity|]). reflexivity. Qed.

(** Options given to a list of a type class are options of the list and of its elements; validators run for the
    list (after the check of its size) and for each element (after those of its class). *)
Theorem C73_options_of_a_list_reach_its_elements : forall E d str n kw c o i,
  own_params c -> new_type E d str n CList kw = Ok (FS o (TList i)) -> dget (k "field") kw = Some (AClass c) ->
  same_options o (fs_opts i) /\
  fo_validators o = validate_choices E d (given_choices kw)
    :: check_length (given_number (k "min_size") kw) (given_number (k "max_size") kw) :: given_validators kw /\
  exists own, fo_validators (fs_opts i) = validate_choices E d (given_choices kw) :: own ++ given_validators kw.
Proof. exact list_options_shared. Qed.
Print Assumptions C73_options_of_a_list_reach_its_elements.

(** The same for the values of a dictionary. *)
Theorem C73_options_of_a_dictionary_reach_its_values : forall E d str n kw c o i ck,
  own_params c -> new_type E d str n CDict kw = Ok (FS o (TDict i ck)) -> dget (k "field") kw = Some (AClass c) ->
  same_options o (fs_opts i) /\
  fo_validators o = validate_choices E d (given_choices kw) :: given_validators kw /\
  exists own, fo_validators (fs_opts i) = validate_choices E d (given_choices kw) :: own ++ given_validators kw.
Proof. exact dict_options_shared. Qed.
Print Assumptions C73_options_of_a_dictionary_reach_its_values.

(** A type instance given for the elements is used as it is. *)
Theorem C73_instances_keep_their_options : forall E d str n kw c g f,
  dget (k "field") kw = Some (AField c g) ->
  (new_type E d str n CList kw = Ok f -> exists o, f = FS o (TList g)) /\
  (new_type E d str n CDict kw = Ok f -> exists o ck, f = FS o (TDict g ck)).
Proof.
  intros E d str n kw c g f F. split; intros H; [exact (list_instance_kept E d str n kw c g f H F)|exact (dict_instance_kept E d str n kw c g f H F)].
Qed.
Print Assumptions C73_instances_keep_their_options.

(** An option that only the element class knows cannot be given to the list or dictionary. *)
Theorem C73_options_of_the_element_class_are_refused : forall E d str n kw x f,
  In x (dkeys kw) ->
  (~ In x ([k "field"; k "min_size"; k "max_size"; k "nested_field"; k "compound_field"] ++ field_options) ->
   new_type E d str n CList kw <> Ok f) /\
  (~ In x ([k "field"; k "coerce_key"; k "nested_field"; k "compound_field"] ++ field_options) ->
   new_type E d str n CDict kw <> Ok f).
Proof.
  intros E d str n kw x f H. split; intros K; [exact (list_unknown E d str n kw x H K f)|exact (dict_unknown E d str n kw x H K f)].
Qed.
Print Assumptions C73_options_of_the_element_class_are_refused.

(** Which options a list of a simple type class accepts: those its element class accepts and every type has; validators
    have to be given as a list. *)
Theorem C73_options_of_a_list : forall E d str n l kw,
  own_params (CLeaf l) ->
  (forall x, In x [k "field"; k "min_size"; k "max_size"; k "nested_field"; k "compound_field"] -> ~ In x (dkeys kw)) ->
  ((exists f, new_type E d str (S (S n)) CList ((k "field", AClass (CLeaf l)) :: kw) = Ok f) <->
   (exists f, new_type E d str (S n) (CLeaf l) kw = Ok f) /\ (forall x, In x (dkeys kw) -> In x field_options) /\
   (dget (k "validators") kw = None \/ (exists fs, dget (k "validators") kw = Some (AFuns fs)) \/
    dget (k "validators") kw = Some (AVal (VList [])))).
Proof. exact list_accepted. Qed.
Print Assumptions C73_options_of_a_list.

(** Validators in anything but a list are a TypeError there. *)
Theorem C73_validators_of_a_list_come_in_a_list : forall E d str n l kw f a,
  (forall x, In x [k "field"; k "min_size"; k "max_size"; k "nested_field"; k "compound_field"] -> ~ In x (dkeys kw)) ->
  new_type E d str (S n) (CLeaf l) kw = Ok f -> dget (k "validators") kw = Some a ->
  (forall fs, a <> AFuns fs) -> a <> AVal (VList []) ->
  new_type E d str (S (S n)) CList ((k "field", AClass (CLeaf l)) :: kw) = Raise (XPy ETypeError).
Proof. exact list_validators_kind. Qed.
Print Assumptions C73_validators_of_a_list_come_in_a_list.

Example C73_list_case :
  own_params (CLeaf int_class) /\
  (exists f, new_type Esample 5 Ok 3 CList [(k "field", AClass (CLeaf int_class)); (k "required", AVal (VBool true));
                                            (k "min_size", AVal (VInt 1)); (k "validators", AFuns [not_seven])] = Ok f /\
     fo_required (fs_opts f) = true /\
     cv_field (conv_at Esample 9) (set_up_field true 1 f) (VList [VInt 1; VNone]) ctx_partial
     = Raise (XCompound [(KInt 1, NConv [u "required"])]) /\
     cv_field (conv_at Esample 9) (set_up_field true 1 f) (VList [VInt 1; VInt 2]) ctx_partial = Ok (VList [VInt 1; VInt 2])) /\
  new_type Esample 5 Ok 3 CList [(k "field", AClass (CLeaf int_class)); (k "max_value", AVal (VInt 3))] = Raise (XPy ETypeError) /\
  (exists f, new_type Esample 5 Ok 3 (CLeaf int_class) [(k "max_value", AVal (VInt 3))] = Ok f) /\
  new_type Esample 5 Ok 3 CList [(k "field", AClass (CLeaf int_class)); (k "validators", AFunTuple [not_seven])] = Raise (XPy ETypeError) /\
  (exists f, new_type Esample 5 Ok 3 (CLeaf int_class) [(k "validators", AFunTuple [not_seven])] = Ok f) /\
  (exists o o1 o2 l, new_type Esample 5 Ok 4 CList [(k "field", AClass CList); (k "nested_field", AClass (CLeaf int_class));
                                                   (k "required", AVal (VBool true))]
     = Ok (FS o (TList (FS o1 (TList (FS o2 (TLeaf l)))))) /\ fo_required o2 = true).
Proof.
  split; [exact int_own|]. split; [|split; [reflexivity|]].
  { eexists. split; [reflexivity|]. repeat (split; [reflexivity|]). reflexivity. }
  split; [eexists; reflexivity|]. split; [reflexivity|]. split; [eexists; reflexivity|].
  do 4 eexists. split; reflexivity.
Qed.

(** A required list of a type class refuses None among its elements, even where fields may be missing. *)
Theorem C73_required_lists_refuse_none : forall E d str n kw c v f cl j l x w,
  own_params c -> new_type E d str n CList kw = Ok f -> dget (k "field") kw = Some (AClass c) ->
  dget (k "required") kw = Some (AVal v) -> truthy v = true ->
  cv_convert (conv_at E j) (set_up_field true cl f) (VList l) x = Ok w -> ~ In VNone l.
Proof. exact required_elements. Qed.
Print Assumptions C73_required_lists_refuse_none.

(** With serialize_when_none=False the elements that are None are left out of the exported list. *)
Theorem C73_none_is_left_out_of_lists : forall E d str n kw c f cl j v x ws,
  own_params c -> new_type E d str n CList kw = Ok f -> dget (k "field") kw = Some (AClass c) ->
  dget (k "serialize_when_none") kw = Some (AVal (VBool false)) -> dget (k "export_level") kw = None -> ec_level x = None ->
  export_at E j (set_up_field true cl f) v x = Ok (VList ws) -> ~ In VNone ws.
Proof. exact dropped_elements. Qed.
Print Assumptions C73_none_is_left_out_of_lists.

(** Choices given to a list are choices of the list: it has to be equal to one of them. *)
Theorem C73_choices_of_a_list : forall E d str n kw f cl j ch u x w,
  new_type E d str n CList kw = Ok f -> dget (k "choices") kw = Some (AVal (VList ch)) ->
  cv_validate (conv_at E j) (set_up_field true cl f) u x = Ok w -> exists y, In y ch /\ eq_at E d y w = Ok true.
Proof. exact list_choices. Qed.
Print Assumptions C73_choices_of_a_list.

Example C73_use_case :
  exists f g, new_type Esample 5 Ok 3 CList [(k "field", AClass (CLeaf int_class)); (k "serialize_when_none", AVal (VBool false))] = Ok f /\
    export_at Esample 5 (set_up_field true 1 f) (VList [VInt 1; VNone; VInt 2]) xprim0 = Ok (VList [VInt 1; VInt 2]) /\
    new_type Esample 5 Ok 3 CList [(k "field", AField (k "IntType") plain_int); (k "choices", AVal (VList [VList [VInt 1]]))] = Ok g /\
    cv_validate (conv_at Esample 9) (set_up_field true 1 g) (VList [VInt 1]) ctx_valid = Ok (VList [VInt 1]).
Proof. do 2 eexists. split; [reflexivity|]. split; [reflexivity|]. split; reflexivity. Qed.

(** So choices for the elements cannot be given to the list. *)
Theorem C73_choices_are_those_of_the_elements_refuted :
  exists E d str n f, new_type E d str n CList [(k "field", AClass (CLeaf int_class)); (k "choices", AVal (VList [VInt 1; VInt 2]))] = Ok f /\
    cv_validate (conv_at E 9) (set_up_field true 1 f) (VList [VInt 1; VInt 2]) ctx_valid = Raise (XValid false [u "choices"]).
Proof. exact choices_witness. Qed.
Print Assumptions C73_choices_are_those_of_the_elements_refuted.

(** The members of a union are the instances it was given, and one for each class, with the options of the union. *)
Theorem C73_options_of_a_union_reach_its_classes : forall E d str n nm own kw o ms l,
  new_type E d str n (CUnion nm own) kw = Ok (FS o (TUnion ms)) -> given_types own kw l ->
  (forall c, In (AClass c) l -> own_params c) ->
  forall f, In f ms -> (exists x, In (AField x f) l) \/
    same_options o (fs_opts f) /\
    exists pre, fo_validators (fs_opts f) = validate_choices E d (given_choices kw) :: pre ++ given_validators kw.
Proof. exact union_options_shared. Qed.
Print Assumptions C73_options_of_a_union_reach_its_classes.

(** Options that neither a member class nor BaseType knows are ignored by a union. *)
Theorem C73_unions_ignore_unknown_options : forall E d str n nm own kw y a l,
  given_types own kw l -> ~ In y ([k "types"; k "resolver"] ++ field_options) ->
  (forall c, In (AClass c) l -> ~ In y (known_options c)) ->
  new_type E d str n (CUnion nm own) ((y, a) :: kw) = new_type E d str n (CUnion nm own) kw.
Proof. exact union_ignores. Qed.
Print Assumptions C73_unions_ignore_unknown_options.

(** A union without types cannot be made. *)
Theorem C73_unions_need_types : forall E d str n nm own kw, (forall l, ~ given_types own kw l) ->
  new_type E d str (S n) (CUnion nm own) kw = Raise (XPy ETypeError).
Proof. exact union_without_types. Qed.
Print Assumptions C73_unions_need_types.
Example C73_need_types_case : forall l, ~ given_types None [(k "required", AVal (VBool true)); (k "types", ATypes [])] l.
Proof. intros l. discriminate. Qed.

(** Nor can one of something else than types. *)
Theorem C73_unions_are_made_of_types : forall E d str n nm own kw pre a post, given_types own kw (pre ++ a :: post) ->
  (forall b, In b pre -> exists c f, b = AField c f) -> (forall c, a <> AClass c) -> (forall c f, a <> AField c f) ->
  new_type E d str (S n) (CUnion nm own) kw = Raise (XPy ETypeError).
Proof. exact union_of_others. Qed.
Print Assumptions C73_unions_are_made_of_types.
Example C73_made_of_types_case : given_types None [(k "types", ATypes [AVal (VInt 3)])] ([] ++ AVal (VInt 3) :: []) /\ forall c, AVal (VInt 3) <> AClass c.
Proof. split; [reflexivity|discriminate]. Qed.

(** A list or dictionary needs the type of its elements, a model type its class; serializable() takes a type. *)
Theorem C73_compounds_need_fields : forall E d str n kw, dget (k "field") kw = None ->
  new_type E d str (S n) CList kw = Raise (XPy ETypeError) /\ new_type E d str (S n) CDict kw = Raise (XPy ETypeError).
Proof. exact compound_without_field. Qed.
Print Assumptions C73_compounds_need_fields.
(** What is given must be a type: a plain value cannot be called. *)
Theorem C73_elements_are_types : forall E d str n kw v, dget (k "field") kw = Some (AVal v) ->
  new_type E d str (S n) CList kw = Raise (XPy ETypeError) /\ new_type E d str (S n) CDict kw = Raise (XPy ETypeError).
Proof. exact elements_are_types. Qed.
Print Assumptions C73_elements_are_types.
Example C73_elements_case : dget (k "field") [(k "required", AVal (VBool true)); (k "field", AVal (VStr (u "StringType")))] = Some (AVal (VStr (u "StringType"))).
Proof. reflexivity. Qed.
Theorem C73_model_types_need_a_class : forall E d str n kw, (forall c, dget (k "model_spec") kw <> Some (AModels (OneClass c))) ->
  new_type E d str (S n) CModel kw = Raise (XPy ETypeError).
Proof. exact model_without_class. Qed.
Print Assumptions C73_model_types_need_a_class.
Theorem C73_computed_fields_need_a_type : forall E d str n a kw, (forall c, a <> AClass c) -> (forall c f, a <> AField c f) ->
  serializable_type E d str n a kw = Raise (XPy ETypeError).
Proof. exact serializable_argument. Qed.
Print Assumptions C73_computed_fields_need_a_type.
Example C73_needs_case : dget (k "field") [(k "required", AVal (VBool true))] = @None arg /\
  (forall c, dget (k "model_spec") [(k "model_spec", AVal (VInt 3))] <> Some (AModels (OneClass c))) /\
  (forall c, AVal (VInt 3) <> AClass c) /\ (forall c f, AVal (VInt 3) <> AField c f).
Proof. repeat split; try discriminate. Qed.

(** A parameter without a default has to be given, as EnumType(SomeEnum). *)
Theorem C73_missing_parameters : forall E d str n c kw x, In x (lc_needed c) -> ~ In x (dkeys kw) ->
  new_type E d str (S n) (CLeaf c) kw = Raise (XPy ETypeError).
Proof. exact missing_parameter. Qed.
Print Assumptions C73_missing_parameters.
Example C73_missing_case : In (k "enum") (lc_needed (LC (k "EnumType") [k "enum"] [k "enum"] [k "enum"] (fun _ => Raise XFuel))) /\
  ~ In (k "enum") (dkeys [(k "required", AVal (VBool true))]).
Proof. split; [now left|]. intros [H|[]]. discriminate. Qed.

(** An option that neither the class nor BaseType knows is refused with TypeError. *)
Theorem C73_unknown_options : forall E d str n c kw x p, (forall y, In y (lc_needed c) -> In y (dkeys kw)) ->
  lc_make c (map (fun q => (fst q, arg_val (Some (snd q)) VNone)) (only (lc_params c) kw)) = Ok p ->
  In x (dkeys kw) -> ~ In x (lc_params c) -> ~ In x field_options -> new_type E d str (S n) (CLeaf c) kw = Raise (XPy ETypeError).
Proof. exact unknown_option. Qed.
Print Assumptions C73_unknown_options.
Example C73_unknown_case : let c := LC (k "StringType") [k "max_length"] [k "max_length"] [] (fun _ => Ok (any_leaf, [])) in
  let kw := [(k "max_length", AVal (VInt 3)); (k "requierd", AVal (VBool true))] in
  (forall y, In y (lc_needed c) -> In y (dkeys kw)) /\ In (k "requierd") (dkeys kw) /\
  ~ In (k "requierd") (lc_params c) /\ ~ In (k "requierd") field_options.
Proof.
  repeat split; [intros y []|right; now left|intros [H|[]]; discriminate|].
  intros H. repeat (destruct H as [H|H]; [discriminate H|]). destruct H.
Qed.

Example C73_union_case :
  exists o m1 m2, new_type Esample 5 Ok 3 (CUnion (k "UnionType") None)
      [(k "max_lenght", AVal (VInt 3)); (k "types", ATypes [AClass (CLeaf int_class); AField (k "BooleanType") plain_int]);
       (k "required", AVal (VBool true)); (k "max_value", AVal (VInt 3))]
    = Ok (FS o (TUnion [m1; m2])) /\ m2 = plain_int /\ fo_required (fs_opts m1) = true /\ fo_required (fs_opts m2) = false /\
    cv_validate (conv_at Esample 9) m1 (VInt 4) ctx_valid = Raise (XValid false [u "number_max"]).
Proof. do 3 eexists. repeat (split; [reflexivity|]). reflexivity. Qed.

(** Validators of a union whose members are instances never run. *)
Theorem C73_validators_of_a_union_run_refuted :
  exists E d str n f, new_type E d str n (CUnion (k "UnionType") None)
      [(k "types", ATypes [AField (k "IntType") plain_int]); (k "validators", AFuns [not_seven])] = Ok f /\
    not_seven (VInt 7) <> None /\ cv_validate (conv_at E 9) (set_up_field true 1 f) (VInt 7) ctx_valid = Ok (VInt 7).
Proof. exact union_validators_witness. Qed.
Print Assumptions C73_validators_of_a_union_run_refuted.

(** A computed field made from a type instance keeps its options except those given; the export level is not kept.  A text given as
    deserialize_from is taken for the names that are its characters, and validators replace those of the type. *)
Theorem C73_types_of_computed_fields : forall E d str n c o t kw f,
  serializable_type E d str n (AField c (FS o t)) kw = Ok f ->
  exists o', f = FS o' t /\ fo_default o' = fo_default o /\
    (dget (k "deserialize_from") kw = None -> fo_dfrom o' = fo_dfrom o) /\
    (forall l, dget (k "deserialize_from") kw = Some (AVal (VList (map VStr l))) -> fo_dfrom o' = map KStr l) /\
    (forall s, dget (k "deserialize_from") kw = Some (AVal (VStr s)) -> fo_dfrom o' = map (fun c => KStr [c]) s) /\
    (dget (k "validators") kw = None -> fo_validators o' = fo_validators o) /\
    (forall l, dget (k "validators") kw = Some (AFuns l) -> fo_validators o' = l) /\
    (forall l, dget (k "validators") kw = Some (AFunTuple l) -> fo_validators o' = l) /\
    (dget (k "required") kw = None -> fo_required o' = fo_required o) /\
    (forall v, dget (k "required") kw = Some (AVal v) -> fo_required o' = truthy v) /\
    (dget (k "serialized_name") kw = None -> fo_sname o' = fo_sname o) /\
    (forall s, dget (k "serialized_name") kw = Some (AVal (VStr s)) -> fo_sname o' = Some (KStr s)) /\
    (dget (k "export_level") kw = None -> dget (k "serialize_when_none") kw = None -> fo_level o' = None) /\
    (forall z, dget (k "export_level") kw = Some (AVal (VInt z)) -> fo_level o' = Some z) /\
    (forall b, dget (k "export_level") kw = None -> dget (k "serialize_when_none") kw = Some (AVal (VBool b)) ->
         fo_level o' = Some (if b then DEFAULT else NONEMPTY)).
Proof. exact serializable_instance. Qed.
Print Assumptions C73_types_of_computed_fields.

Theorem C73_computed_fields_keep_the_export_level_refuted :
  exists E d str n f g, new_type E d str n (CLeaf int_class) [(k "serialize_when_none", AVal (VBool false))] = Ok f /\
    fo_level (fs_opts f) = Some NONEMPTY /\
    serializable_type E d str n (AField (k "IntType") f) [(k "serialized_name", AVal (VStr (u "n")))] = Ok g /\
    fo_level (fs_opts g) = None.
Proof. exact serializable_level_witness. Qed.
Print Assumptions C73_computed_fields_keep_the_export_level_refuted.
(** That the validators given to it are run besides those of the type is refuted, *)
Theorem C73_computed_fields_add_validators_refuted :
  exists E d str n f g, new_type E d str n (CLeaf int_class) [(k "choices", AVal (VList [VInt 1]))] = Ok f /\
    cv_validate (conv_at E 9) (set_up_field true 1 f) (VInt 7) ctx_valid = Raise (XValid false [u "choices"]) /\
    serializable_type E d str n (AField (k "IntType") f) [(k "validators", AFuns [])] = Ok g /\
    cv_validate (conv_at E 9) (set_up_field true 1 g) (VInt 7) ctx_valid = Ok (VInt 7).
Proof. exact serializable_validators_witness. Qed.
Print Assumptions C73_computed_fields_add_validators_refuted.
(** and that one option given to the class or to the instance means the same. *)
Theorem C73_computed_fields_of_classes_and_instances_refuted :
  exists E d str n kw f g h, new_type E d str n (CLeaf int_class) [] = Ok f /\
    serializable_type E d str n (AField (k "IntType") f) kw = Ok g /\ serializable_type E d str n (AClass (CLeaf int_class)) kw = Ok h /\
    fo_dfrom (fs_opts g) = [k "n"; k "o"] /\ fo_dfrom (fs_opts h) = [k "no"].
Proof. exact serializable_names_witness. Qed.
Print Assumptions C73_computed_fields_of_classes_and_instances_refuted.

(** Which values of [required] make a field required. *)
Theorem C73_required_values : forall E d str n c kw f v, own_params c -> new_type E d str n c kw = Ok f ->
  dget (k "required") kw = Some (AVal v) -> (fo_required (fs_opts f) = true <-> ~ false_value v).
Proof. exact required_iff. Qed.
Print Assumptions C73_required_values.
Example C73_required_values_case : exists f, own_params CDict /\
  new_type Esample 5 Ok 3 CDict [(k "field", AClass (CLeaf int_class)); (k "required", AVal (VStr (u "no")))] = Ok f /\
  fo_required (fs_opts f) = true.
Proof. eexists. split; [exact I|]. split; reflexivity. Qed.

(** Validators that are not functions. *)
Theorem C73_unfit_validators : forall E d str n c kw v p, own_params (CLeaf c) -> (forall y, In y (lc_needed c) -> In y (dkeys kw)) ->
  lc_make c (map (fun q => (fst q, arg_val (Some (snd q)) VNone)) (only (lc_params c) kw)) = Ok p ->
  dget (k "validators") kw = Some (AVal v) -> ~ false_value v -> new_type E d str (S n) (CLeaf c) kw = Raise (XPy ETypeError).
Proof. exact unfit_validators. Qed.
Print Assumptions C73_unfit_validators.
Example C73_unfit_case : let c := LC (k "StringType") [k "max_length"] [k "max_length"] [] (fun _ => Ok (any_leaf, [])) in
  let kw := [(k "max_length", AVal (VInt 3)); (k "validators", AVal (VStr (u "is_even")))] in
  own_params (CLeaf c) /\ (forall y, In y (lc_needed c) -> In y (dkeys kw)) /\ ~ false_value (VStr (u "is_even")).
Proof.
  split; [intros x [<-|[]] H; repeat (destruct H as [H|H]; [discriminate H|]); destruct H|].
  split; [intros y []|]. intros H. inversion H.
Qed.
