(** Calling type classes: the constructors of types/base.py (BaseType and the types that are not compound),
    types/compound.py and types/union.py, the handing on of options to element types and members, and
    types/serializable.py 20-58. *)
From Verif.Model Require Import Py Core Export Compound Equality.

(** ** Classes and arguments *)

(** A type class that is neither compound nor a union: BaseType or a subclass whose [__init__] has the named parameters
    [lc_params] besides those of BaseType and hands the others on as [**kwargs] (base.py 365, 400, 455, 511, 528, 614,
    651, 791, 951, 966, 1000, 1111; net.py 188; enum_type.py 36).
    [lc_needed]: parameters without a default (enum_type.py 36).
    [lc_listed]: what inspection of the constructors of all ancestors lists besides the parameters of BaseType
    (union.py 17-27); it may be more than [lc_params]: TimestampType takes no [tzd] (base.py 966), DateTimeType does.
    [lc_make]: conversion, export and the [validate_...] methods of the class (base.py 198, without validate_choices)
    as functions of these parameters; it may raise (base.py 796, 1006). *)
Record leafclass := LC {
  lc_name : key;
  lc_params : list key;
  lc_listed : list key;
  lc_needed : list key;
  lc_make : list (key * pyval) -> res (leaf * list vldr) }.

(** A type class, and what is given for a parameter: a value, a list or a tuple of validators (after
    [prepare_validator], base.py 200), a type class, a type instance with its class, several of these
    (union.py 43), models (compound.py 110, 342), a [coerce_key] (compound.py 286), a [claim_function]
    (compound.py 354).  [CUnion]: UnionType or a subclass, with its attribute [types] (union.py 35). *)
Inductive tclass :=
| CLeaf (c : leafclass)
| CUnion (name : key) (types : option (list arg))
| CList
| CDict
| CModel
| CPoly
with arg :=
| AVal (v : pyval)
| AFuns (l : list vldr)
| AFunTuple (l : list vldr)
| AClass (c : tclass)
| AField (c : key) (f : fspec)
| ATypes (l : list arg)
| AModels (a : poly_arg)
| AKeys (ck : key -> res key)
| AClaim (cf : pyval -> option cid).

(** Keyword arguments. (runtime) *)
Definition kwds := list (key * arg).

(** [type_.__class__] (union.py 55), as a name. *)
Definition class_name (c : tclass) : key :=
  match c with
  | CLeaf l => lc_name l
  | CUnion n _ => n
  | CList => k "ListType"
  | CDict => k "DictType"
  | CModel => k "ModelType"
  | CPoly => k "PolyModelType"
  end.

(** The keyword arguments with these names, and without them: Python's binding of named parameters and [**kwargs].
    (runtime) *)
Definition only (names : list key) (kw : kwds) : kwds := filter (fun p => kmem (fst p) names) kw.
(** See [only]. (runtime) *)
Definition without (names : list key) (kw : kwds) : kwds := filter (fun p => negb (kmem (fst p) names)) kw.

(** Truth value of an argument; functions, classes and instances are true. (runtime) *)
Definition arg_true (a : arg) : bool :=
  match a with
  | AVal v => truthy v
  | AFuns l | AFunTuple l => nonempty l
  | ATypes l => nonempty l
  | _ => true
  end.

(** ** BaseType.__init__ *)

(** The parameters of BaseType (base.py 184-187). *)
Definition base_params : list key :=
  [k "required"; k "default"; k "serialized_name"; k "choices"; k "validators"; k "deserialize_from"; k "export_level";
   k "serialize_when_none"; k "messages"; k "metadata"].

(** A text or number as a key of the input. (runtime) *)
Definition as_key (v : pyval) : option key :=
  match v with VStr s => Some (KStr s) | VInt z => Some (KInt z) | _ => None end.
(** The keys among these values; other values are no keys the model knows. (runtime) *)
Definition as_keys (l : list pyval) : list key :=
  flat_map (fun v => match as_key v with Some x => [x] | None => [] end) l.

(** [listify] (util.py 59-69), for keys. *)
Definition listify_keys (v : pyval) : list key :=
  match v with
  | VNone => []
  | VList l | VTuple l => as_keys l
  | v => as_keys [v]
  end.

(** The elements of a value that was not listified, as input keys (base.py 276-277): of a text its characters. *)
Definition raw_names (v : pyval) : list key :=
  match v with
  | VStr s => map (fun c => KStr [c]) s
  | VList l | VTuple l => as_keys l
  | VDict d => dkeys d
  | _ => []
  end.

(** The check of [choices] (base.py 193-195).  Simplifications: what is iterable here is a list, a tuple or a
    dictionary; a false value that is neither of these nor None offers no choices (in the code [in] fails
    when it is used). *)
Definition read_choices (v : pyval) : res (option (list pyval)) :=
  match v with
  | VNone => Ok None
  | VList l | VTuple l => Ok (Some l)
  | VDict d => Ok (Some (map key_val (dkeys d)))
  | _ => if truthy v then Raise (XPy ETypeError) else Ok (Some [])
  end.

(** [_set_export_level] (base.py 243-251). *)
Definition read_level (level when_none : option arg) : option Z :=
  match level with
  | Some (AVal (VInt z)) => Some z
  | _ => match when_none with
         | Some (AVal (VBool true)) => Some DEFAULT
         | Some (AVal (VBool false)) => Some NONEMPTY
         | _ => None
         end
  end.

(** [if validators: self.validators += ...] (base.py 199-200): a false value counts as none given, what cannot be
    iterated or called is a TypeError. *)
Definition read_validators (a : option arg) : res (list vldr) :=
  match a with
  | None => Ok []
  | Some (AFuns l) | Some (AFunTuple l) => Ok l
  | Some a => if arg_true a then Raise (XPy ETypeError) else Ok []
  end.

(** The value of an argument; one of another kind than the code expects there counts as not given (simplification). *)
Definition arg_val (a : option arg) (dflt : pyval) : pyval :=
  match a with Some (AVal v) => v | _ => dflt end.

Section Build.
  (** What equality of models needs to know (Equality.v), for [choices]. *)
  Context (E : env) (depth : nat).

  (** BaseType.__init__ (base.py 184-215): the options of the new object; [own] are the [validate_...] methods of its
      class after [validate_choices].  Before [_setup] it has neither name nor owner (base.py 208-209).
      [messages] and [metadata] have no part in the model. *)
  Definition base_init (own : list vldr) (kw : kwds) : res fopts :=
    if forallb (fun p => kmem (fst p) base_params) kw then
      rbind (read_choices (arg_val (dget (k "choices") kw) VNone)) (fun ch =>
      rbind (read_validators (dget (k "validators") kw)) (fun vs =>
        Ok (FO false
               (match dget (k "required") kw with Some a => arg_true a | None => false end)
               (arg_val (dget (k "default") kw) VUndef)
               (as_key (arg_val (dget (k "serialized_name") kw) VNone))
               (listify_keys (arg_val (dget (k "deserialize_from") kw) VNone))
               (validate_choices E depth ch :: own ++ vs)
               (read_level (dget (k "export_level") kw) (dget (k "serialize_when_none") kw))
               None)))
    else Raise (XPy ETypeError).

  (** A type that is not compound. *)
  Definition leaf_init (c : leafclass) (kw : kwds) : res fspec :=
    if forallb (fun x => dmem x kw) (lc_needed c) then
      rbind (lc_make c (map (fun p => (fst p, arg_val (Some (snd p)) VNone)) (only (lc_params c) kw))) (fun '(l, vs) =>
      rbind (base_init vs (without (lc_params c) kw)) (fun o => Ok (FS o (TLeaf l))))
    else Raise (XPy ETypeError).

  (** ** Compound types and unions *)

  (** CompoundType._init_field (compound.py 71-83): the element field, and the options as they are afterwards; [new] calls
      a class.  [options.pop('nested_field', None) or options.pop('compound_field', None)]: the second is popped only if
      the first is false.  Simplification: what is neither a type class nor a type instance is not called but a
      TypeError. *)
  Definition init_field (new : tclass -> kwds -> res fspec) (a : arg) (options : kwds) : res (fspec * kwds) :=
    match a with
    | AField _ f => Ok (f, options)
    | AClass c =>
        let nf := match dget (k "nested_field") options with Some a => arg_true a | None => false end in
        let options1 := without [k "nested_field"] options in
        let '(nested, options2) :=
          if nf then (dget (k "nested_field") options, options1)
          else (match dget (k "compound_field") options1 with
                | Some a => if arg_true a then Some a else None
                | None => None
                end, without [k "compound_field"] options1) in
        let kw := match nested with Some a => (k "field", a) :: options2 | None => options2 end in
        rbind (new c kw) (fun f => Ok (f, options2))
    | _ => Raise (XPy ETypeError)
    end.

  (** The bounds of ListType (compound.py 187, 191-192); None and what is no number are no bound. *)
  Definition read_bound (a : option arg) : option Z :=
    match a with Some (AVal (VInt z)) => Some z | _ => None end.

  (** [kwargs.pop("validators", [])], which is added to a list: a TypeError unless it is one (compound.py 194). *)
  Definition list_validators (a : option arg) : res (list vldr) :=
    match a with
    | None => Ok []
    | Some (AFuns l) => Ok l
    | Some (AVal (VList [])) => Ok []
    | Some _ => Raise (XPy ETypeError)
    end.

  (** ListType.__init__ (compound.py 185-196). *)
  Definition list_init (new : tclass -> kwds -> res fspec) (kw : kwds) : res fspec :=
    match dget (k "field") kw with
    | None => Raise (XPy ETypeError)
    | Some a =>
        rbind (init_field new a (without [k "field"; k "min_size"; k "max_size"] kw)) (fun '(f, rest) =>
        let check := check_length (read_bound (dget (k "min_size") kw)) (read_bound (dget (k "max_size") kw)) in
        rbind (list_validators (dget (k "validators") rest)) (fun vs =>
        rbind (base_init [] ((k "validators", AFuns (check :: vs)) :: without [k "validators"] rest)) (fun o =>
          Ok (FS o (TList f)))))
    end.

  (** [str] as [coerce_key]: texts stay, numbers become their decimal text. (runtime; the text of a number is an argument
      of [new_type]) *)
  Context (str : key -> res key).

  (** DictType.__init__ (compound.py 286-291). *)
  Definition dict_init (new : tclass -> kwds -> res fspec) (kw : kwds) : res fspec :=
    match dget (k "field") kw with
    | None => Raise (XPy ETypeError)
    | Some a =>
        rbind (init_field new a (without [k "field"; k "coerce_key"] kw)) (fun '(f, rest) =>
        rbind (base_init [] rest) (fun o =>
          Ok (FS o (TDict f (match dget (k "coerce_key") kw with Some (AKeys ck) => ck | _ => str end)))))
    end.

  (** ModelType.__init__ (compound.py 110-125), given a class. *)
  Definition modeltype_init (kw : kwds) : res fspec :=
    match dget (k "model_spec") kw with
    | Some (AModels (OneClass c)) =>
        rbind (base_init [] (without [k "model_spec"] kw)) (fun o => Ok (FS o (TModel c)))
    | _ => Raise (XPy ETypeError)
    end.

  (** PolyModelType.__init__ (compound.py 342-357), given classes; see [poly_init]. *)
  Definition polytype_init (kw : kwds) : res fspec :=
    match dget (k "model_spec") kw with
    | Some (AModels a) =>
        let claim := match dget (k "claim_function") kw with Some (AClaim f) => Some f | _ => None end in
        let allow := match dget (k "allow_subclasses") kw with Some x => Some (arg_true x) | None => None end in
        rbind (base_init [] (without [k "model_spec"; k "claim_function"; k "allow_subclasses"] kw)) (fun o =>
          Ok (FS o (TPoly (poly_init a claim allow))))
    | Some _ => Raise (XPy EGenericException)
    | None => Raise (XPy ETypeError)
    end.

  (** [_valid_init_args] (union.py 17-27). *)
  Definition valid_args (c : tclass) : list key :=
    match c with
    | CLeaf l => lc_listed l
    | CUnion _ _ => [k "types"; k "resolver"]
    | CList => [k "field"; k "min_size"; k "max_size"]
    | CDict => [k "field"; k "coerce_key"]
    | CModel | CPoly => [k "model_spec"]
    end ++ base_params.

  (** The loop of UnionType.__init__ (union.py 50-55), before the members are filed under their classes. *)
  Fixpoint union_loop (new : tclass -> kwds -> res fspec) (kw : kwds) (types : list arg) : res (list (key * fspec)) :=
    match types with
    | [] => Ok []
    | a :: r =>
        rbind (match a with
               | AClass c => rbind (new c (only (valid_args c) kw)) (fun f => Ok (class_name c, f))
               | AField c f => Ok (c, f)
               | _ => Raise (XPy ETypeError)
               end) (fun m =>
        rbind (union_loop new kw r) (fun l => Ok (m :: l)))
    end.

  (** UnionType.__init__ (union.py 43-58); [types or self.types] (line 46).  Simplification: the option [resolver] is
      ignored here; see [union_resolve_with]. *)
  Definition uniontype_init (new : tclass -> kwds -> res fspec) (own : option (list arg)) (kw : kwds) : res fspec :=
    match (match dget (k "types") kw with Some (ATypes (a :: l)) => Some (a :: l) | _ => own end) with
    | None => Raise (XPy ETypeError)
    | Some types =>
        let kw' := without [k "types"; k "resolver"] kw in
        rbind (union_loop new kw' types) (fun decl =>
        rbind (base_init [] (only base_params kw')) (fun o => Ok (FS o (TUnion (union_members decl)))))
    end.

  (** Calling a type class with keyword arguments; positional ones are given by their names here.  The first argument bounds
      the depth of nested calls (RecursionError beyond). *)
  Fixpoint new_type (n : nat) (c : tclass) (kw : kwds) : res fspec :=
    match n with
    | O => Raise XFuel
    | S m =>
        match c with
        | CLeaf l => leaf_init l kw
        | CUnion _ types => uniontype_init (new_type m) types kw
        | CList => list_init (new_type m) kw
        | CDict => dict_init (new_type m) kw
        | CModel => modeltype_init kw
        | CPoly => polytype_init kw
        end
    end.

  (** [serializable(arg, **kwargs)] (serializable.py 41-58): the type of a computed field.  Given an instance, the export level
      is set from the keywords and the other keywords become attributes as they are: names are not listified (base.py 276-277
      iterates over them), validators replace those the instance has.  Simplification: besides these the model knows
      [required], [serialized_name] and [default] (a property that cannot be set, base.py 280: AttributeError); what is no
      collection of names or functions counts as empty. *)
  Definition serializable_type (n : nat) (a : arg) (kw : kwds) : res fspec :=
    match a with
    | AClass c => new_type n c kw
    | AField _ (FS o t) =>
        if dmem (k "default") kw then Raise (XPy EAttributeError) else
        Ok (FS (FO (fo_named o)
                   (match dget (k "required") kw with Some a => arg_true a | None => fo_required o end)
                   (fo_default o)
                   (match dget (k "serialized_name") kw with Some a => as_key (arg_val (Some a) VNone) | None => fo_sname o end)
                   (match dget (k "deserialize_from") kw with Some a => raw_names (arg_val (Some a) VNone) | None => fo_dfrom o end)
                   (match dget (k "validators") kw with
                    | Some (AFuns l) | Some (AFunTuple l) => l
                    | Some _ => []
                    | None => fo_validators o
                    end)
                   (read_level (dget (k "export_level") kw) (dget (k "serialize_when_none") kw))
                   (fo_owner o)) t)
    | _ => Raise (XPy ETypeError)
    end.
End Build.

(** [_setup(field_name, owner_model)] (base.py 235-241, compound.py 43-47): the field gets its name and owner, element fields
    get the owner and no name. *)
Fixpoint set_up_field (named : bool) (c : cid) (f : fspec) : fspec :=
  match f with FS o t =>
    FS (FO named (fo_required o) (fo_default o) (fo_sname o) (fo_dfrom o) (fo_validators o) (fo_level o) (Some c))
       match t with
       | TList g => TList (set_up_field false c g)
       | TDict g ck => TDict (set_up_field false c g) ck
       | t => t
       end
  end.
