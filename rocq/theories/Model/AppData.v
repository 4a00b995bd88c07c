(** Which application data the converters and validators of a call see: the way a context takes through models.py,
    validate.py, transforms.py and the types.  [A] is the type of application data.
    Simplified: values are trees; model instances are the dictionaries of their data; fields have no setters, roles, mappings,
    trusted data or alternative names; polymorphic fields are left out; an error is only told apart from a result. *)
From Verif.Model Require Import Py Core.

(** Values. (runtime) *)
Inductive tree := Null | Atom (n : nat) | Items (l : list tree) | Entries (l : list (key * tree)).
(** Types: a leaf known by its converter, lists, dictionaries, models, and unions of leaves with their validators
    (types/base.py, compound.py, union.py; simplified: no compound members of unions). *)
Inductive ty := LeafT (i : nat) | ListT (f : afield) | DictT (f : afield) | ModelT (c : nat) | UnionT (l : list (nat * list nat))
(** A field: its type, validators, whether it is required and its default (base.py 183-213). *)
with afield := F (t : ty) (validators : list nat) (required : bool) (default : option tree).
(** Fields of a model and its own validators (schema.py 25-60). *)
Record mdl := Mdl { md_fields : list (key * afield); md_validators : list (key * nat) }.

(** Code of the user that is given a context. *)
Inductive callback := Native (i : nat) | Prim (i : nat) | Validator (i : nat) | ModelValidator (i : nat).

Section AppData.
  Context {A : Type} (empty : A).
  (** What the user's code answers, given [context.app_data] (None: the context has none): a value, or an error. *)
  Context (answer : callback -> option A -> tree -> option tree).
  Context (model : nat -> mdl).

  (** The attributes of contexts used here (transforms.py 73-88, 399-419, validate.py 107-117). *)
  Record actx := ACtx { a_init : bool; a_app : option A; a_validate : bool; a_convert : bool; a_oo : bool; a_partial : bool }.

  (** What was called, and with which application data. *)
  Definition event : Type := callback * option A.
  (** A computation that calls the user's code, and may fail. *)
  Definition traced (X : Type) : Type := list event * option X.
  (** Sequencing of the above. (runtime) *)
  Definition tbind {X Y} (m : traced X) (f : X -> traced Y) : traced Y :=
    match m with
    | (l, Some x) => let '(l', r) := f x in (l ++ l', r)
    | (l, None) => (l, None)
    end.
  (** A call of the user's code. (runtime) *)
  Definition call (b : callback) (x : actx) (v : tree) : traced tree := ([(b, a_app x)], answer b (a_app x) v).

  (** All elements, errors collected: ListType._convert (compound.py 221-232), the loops over fields. *)
  Fixpoint each {X Y} (f : X -> traced Y) (l : list X) : traced (list Y) :=
    match l with
    | [] => ([], Some [])
    | x :: r =>
        let '(e1, y) := f x in let '(e2, ys) := each f r in
        (e1 ++ e2, match y, ys with Some y, Some ys => Some (y :: ys) | _, _ => None end)
    end.
  (** The validators of a field, base.py 322-331 (without StopValidationError). *)
  Definition run_validators (vs : list nat) (v : tree) (x : actx) : traced tree :=
    let '(e, r) := each (fun i => call (Validator i) x v) vs in (e, match r with Some _ => Some v | None => None end).
  (** UnionType.resolve (union.py 60-68): the first member that converts. *)
  Fixpoint first_of {X Y} (f : X -> traced Y) (l : list X) : traced (X * Y) :=
    match l with
    | [] => ([], None)
    | t :: r => match f t with
                | (e, Some y) => (e, Some (t, y))
                | (e, None) => let '(e', q) := first_of f r in (e ++ e', q)
                end
    end.

  (** Context._make and the defaults of import_loop and export_loop (transforms.py 67-88, 232-245): a context that is not
      initialized gets the arguments in place; the caller's object is changed. *)
  Definition fill_context (x : actx) (app : option A) (oo : bool) : actx :=
    if a_init x then x
    else ACtx true (match a_app x with Some a => Some a | None => Some (match app with Some a => a | None => empty end) end)
           (a_validate x) (a_convert x) oo (a_partial x).
  (** [context._branch(trusted_data=.., mapping=..)] (transforms.py 149, datastructures.py 132-139): a copy. *)
  Definition field_context (x : actx) : actx :=
    ACtx (a_init x) (a_app x) (a_validate x) (a_convert x) (a_oo x) (a_partial x).
  (** get_validation_context (validate.py 107-117) as called by validate (53-54). *)
  Definition validation_context (partial convert : bool) : actx := ACtx false None true convert false partial.
  (** The empty context of [Context._make(None)] with the arguments of a conversion (models.py 299). *)
  Definition import_context (partial : bool) : actx := ACtx false None false true false partial.
  (** Whether a type is compound (compound.py 37). *)
  Definition compound (t : ty) : bool := match t with ListT _ | DictT _ | ModelT _ => true | _ => false end.

  (** The fields of a loop, given the converter of one field (transforms.py 120-167). *)
  Definition loop_fields (fc : afield -> tree -> actx -> traced tree) (c : nat) (d : list (key * tree)) (x : actx)
    : traced (list (key * tree)) :=
    let '(e, r) :=
      each (fun nf : key * afield => let '(n, f) := nf in
              let '(F t _ _ df) := f in
              let v := match dget n d with Some v => v | None => match df with Some v => v | None => Null end end in
              let '(e, w) := fc f v (if compound t then field_context x else x) in
              (e, match w with Some w => Some (n, w) | None => None end))
           (md_fields (model c)) in (e, r).

  (** import_loop (transforms.py 25-178); the second result is the caller's context afterwards. *)
  Definition import_model (fc : afield -> tree -> actx -> traced tree) (c : nat) (d : list (key * tree)) (x : actx)
      (app : option A) (oo : bool) : traced (list (key * tree)) * actx :=
    let x' := fill_context x app oo in (loop_fields fc c d x', x').
  (** _validate_model (validate.py 72-104) for the data left; Null fields too are given to validators. *)
  Definition model_validators (c : nat) (d : list (key * tree)) (x : actx) : traced (list (key * tree)) :=
    let '(e, r) := each (fun nv : key * nat => match dget (fst nv) d with
                                                | Some v => call (ModelValidator (snd nv)) x v
                                                | None => ([], Some Null) end) (md_validators (model c)) in
    (e, match r with Some _ => Some d | None => None end).
  (** validate (validate.py 18-69): the model's validators get the context that import_loop has filled in.  After a failed
      import they are called with the partial data; here with the input. *)
  Definition validate_model (fc : afield -> tree -> actx -> traced tree) (c : nat) (d : list (key * tree)) (ctx : option actx)
      (partial convert : bool) (app : option A) : traced (list (key * tree)) :=
    let x := match ctx with Some x => x | None => validation_context partial convert end in
    let '((e, r), x') := import_model fc c d x app true in
    let '(e', r') := model_validators c (match r with Some d' => d' | None => d end) x' in
    (e ++ e', match r, r' with Some _, Some d' => Some d' | _, _ => None end).
  (** Model._convert (models.py 281-299): validates or converts, as the context or else the argument says. *)
  Definition convert_model (fc : afield -> tree -> actx -> traced tree) (c : nat) (d : list (key * tree)) (ctx : option actx)
      (partial convert should_validate : bool) (app : option A) : traced (list (key * tree)) :=
    if match ctx with Some x => a_validate x | None => should_validate end
    then validate_model fc c d ctx partial convert app
    else fst (import_model fc c d (match ctx with Some x => x | None => import_context partial end) app true).

  (** UnionType._resolve (union.py 60-80) for members that are leaves. *)
  Definition resolve_union (ms : list (nat * list nat)) (v : tree) (x : actx) : traced (nat * list nat * tree) :=
    first_of (fun m => call (Native (fst m)) x v) ms.

  (** field.convert, types nested at most [n] deep: BaseType.convert (base.py 290-291), ListType, DictType, ModelType
      (compound.py 150-162, 221-232, 300-313), UnionType.convert (union.py 82-85). *)
  Fixpoint convert_ty (n : nat) (t : ty) (v : tree) (x : actx) {struct n} : traced tree :=
    match n with
    | 0 => ([], None)
    | S n =>
        match t with
        | LeafT i => call (Native i) x v
        | ListT f => match v with
                     | Items l => let '(e, r) := each (fun w => convert_field n f w x) l in (e, option_map Items r)
                     | _ => ([], None)
                     end
        | DictT f => match v with
                     | Entries l =>
                         let '(e, r) := each (fun kw : key * tree => let '(e, w) := convert_field n f (snd kw) x in
                                                 (e, option_map (pair (fst kw)) w)) l in
                         (e, option_map Entries r)
                     | _ => ([], None)
                     end
        | ModelT c => match v with
                      | Entries d =>
                          let '(e, r) := if a_convert x && a_oo x
                                         then convert_model (convert_field n) c d (Some x) false true false None
                                         else fst (import_model (convert_field n) c d x None true) in
                          (e, option_map Entries r)
                      | _ => ([], None)
                      end
        | UnionT ms => let '(e, r) := resolve_union ms v x in (e, option_map snd r)
        end
    end
  (** import_converter and validation_converter (transforms.py 378-391; simplified: elements too may be None in a partial
      import, base.py 335-338), with BaseType.validate (base.py 307-333) and
      UnionType.validate (union.py 87-89: the validators of the member that converts). *)
  with convert_field (n : nat) (f : afield) (v : tree) (x : actx) {struct n} : traced tree :=
    match n with
    | 0 => ([], None)
    | S n =>
        let '(F t vs required _) := f in
        match v with
        | Null => ([], if required && negb (a_partial x) then None else Some Null)
        | _ => if a_validate x then
                 match t with
                 | UnionT ms =>
                     tbind (resolve_union ms v x) (fun mv =>
                     tbind (if a_convert x then call (Native (fst (fst mv))) x v else ([], Some v))
                           (fun w => run_validators (snd (fst mv)) w x))
                 | _ => tbind (if a_convert x then convert_ty n t v x
                               else if compound t then tbind (convert_ty n t v x) (fun _ => ([], Some v)) else ([], Some v))
                              (fun w => run_validators vs w x)
                 end
               else convert_ty n t v x
        end
    end.

  (** The loop over fields of export_loop (transforms.py 265-292), without roles and levels. *)
  Definition export_fields (ft : ty -> tree -> actx -> traced tree) (c : nat) (d : list (key * tree)) (x : actx)
    : traced (list (key * tree)) :=
    each (fun nf : key * afield => let '(F t _ _ _) := snd nf in
            match dget (fst nf) d with
            | None | Some Null => ([], Some (fst nf, Null))
            | Some v => let '(e, w) := ft t v x in (e, option_map (pair (fst nf)) w)
            end) (md_fields (model c)).
  (** field.export (compound.py 164-169, 251-269, 315-333; union.py 91-101; base.py 293-299); [prim]: to_primitive,
      otherwise to_native. *)
  Fixpoint export_ty (n : nat) (prim : bool) (t : ty) (v : tree) (x : actx) {struct n} : traced tree :=
    match n with
    | 0 => ([], None)
    | S n =>
        match t with
        | LeafT i => call (if prim then Prim i else Native i) x v
        | ListT (F t' _ _ _) => match v with
            | Items l => let '(e, r) := each (fun w => export_ty n prim t' w x) l in (e, option_map Items r)
            | _ => ([], None) end
        | DictT (F t' _ _ _) => match v with
            | Entries l => let '(e, r) := each (fun kw : key * tree => let '(e, w) := export_ty n prim t' (snd kw) x in
                                                  (e, option_map (pair (fst kw)) w)) l in (e, option_map Entries r)
            | _ => ([], None) end
        | ModelT c => match v with
            | Entries d => let '(e, r) := export_fields (export_ty n prim) c d (fill_context x None false) in
                           (e, option_map Entries r)
            | _ => ([], None) end
        | UnionT ms => tbind (resolve_union ms v x) (fun mv => call (if prim then Prim (fst (fst mv)) else Native (fst (fst mv))) x v)
        end
    end.

  (** Model.validate (models.py 240-266). *)
  Definition validate_instance (n c : nat) (d : list (key * tree)) (partial convert : bool) (app : option A)
    : traced (list (key * tree)) :=
    match d, partial with
    | [], true => ([], Some [])
    | _, _ => convert_model (convert_field n) c d None partial convert true app
    end.
  (** Model.__init__ (models.py 221-238). *)
  Definition new_instance (n c : nat) (raw : list (key * tree)) (partial validate : bool) (app : option A)
    : traced (list (key * tree)) :=
    tbind (convert_model (convert_field n) c raw None partial true validate app) (fun d =>
    if validate then validate_instance n c d partial true app else ([], Some d)).
  (** Model.import_data (models.py 268-279) into an instance with data [d]; the second step has no [app_data]. *)
  Definition import_instance (n c : nat) (d raw : list (key * tree)) (validate : bool) (app : option A)
    : traced (list (key * tree)) :=
    tbind (convert_model (convert_field n) c raw None false true validate app) (fun d' =>
    if validate then validate_instance n c (dupdate d d') false false None else ([], Some (dupdate d d'))).
  (** Model.to_primitive, to_native (models.py 305-309) with the start of export_loop (transforms.py 232-245). *)
  Definition export_instance (n c : nat) (prim : bool) (d : list (key * tree)) (app : option A) : traced (list (key * tree)) :=
    export_fields (export_ty n prim) c d (fill_context (ACtx false None false false false false) app false).
  (** Model.serialize (models.py 311-319): the validation has no [app_data] and its errors are dropped.  What is exported
      is the validated data; simplified: after a failure the data as they were, not those parts of them that are valid. *)
  Definition serialize_instance (n c : nat) (d : list (key * tree)) (app : option A) : traced (list (key * tree)) :=
    let '(e, v) := validate_instance n c d false true None in
    let '(e', r) := export_instance n c true (match v with Some d' => d' | None => d end) app in (e ++ e', r).
  (** Assigning a dictionary to a field that holds a model: ModelType.pre_setattr (compound.py 142-148). *)
  Definition assign_model (n c : nat) (v : list (key * tree)) : traced (list (key * tree)) := new_instance n c v true false None.
End AppData.
Arguments actx : clear implicits.
