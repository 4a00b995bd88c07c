(** Export: transforms.py 203-296 (export_loop), base.py 253-262 (get_export_level),
    compound.py (the [_export] methods), common.py (export levels). *)
From Verif.Model Require Import Py Core.

(** Export levels, common.py 15-19. *)
Definition DROP : Z := 0.
(** common.py 16. *)
Definition NONEMPTY : Z := 1.
(** common.py 17. *)
Definition NOT_NONE : Z := 2.
(** common.py 18. *)
Definition DEFAULT : Z := 10.
(** common.py 19. *)
Definition ALL : Z := 99.

(** NATIVE / PRIMITIVE, common.py 12-13. *)
Inductive fmt := Native | Primitive.

(** The [role] argument: nothing, a role name, or a callable (transforms.py 254-255). *)
Inductive role := NoRole | RoleName (n : key) | RoleFn (f : rolefn).

(** Export context (transforms.py 238-245). *)
Record ectx := ECtx {
  ec_fmt : fmt;
  ec_role : role;
  ec_raise : bool;
  ec_level : option Z }.

(** BaseType.get_export_level (base.py 253-262). *)
Definition get_export_level (E : env) (f : fspec) (x : ectx) : Z :=
  let l0 := match fo_owner (fs_opts f) with
            | Some c => mc_level (e_class E c)
            | None => DEFAULT
            end in
  let l1 := match fo_level (fs_opts f) with Some l => l | None => l0 end in
  match ec_level x with Some l => l | None => l1 end.

(** The filter used for a class (transforms.py 254-261). *)
Definition export_filter (mc : mclass) (x : ectx) : res (option rolefn) :=
  match ec_role x with
  | RoleFn f => Ok (Some f)
  | RoleName n =>
      match dget n (mc_roles mc) with
      | Some f => Ok (Some f)
      | None => if key_true n && ec_raise x then Raise (XPy EValueError)
                else Ok (dget (k "default") (mc_roles mc))
      end
  | NoRole => Ok (dget (k "default") (mc_roles mc))
  end.

(** [len(v) == 0] for exported compound values. (runtime) *)
Definition empty_len (v : pyval) : bool :=
  match v with VList [] | VDict [] | VTuple [] | VStr [] | VBytes [] => true | _ => false end.

(** Iterating over a value (compound.py 260: [for value in list_instance]). (runtime) *)
Definition py_iter (E : env) (v : pyval) : res (list pyval) :=
  match v with
  | VList l | VTuple l => Ok l
  | VStr s => Ok (map (fun c => VStr [c]) s)
  | VBytes b => Ok (map (fun c => VInt (Z.of_N c)) b)
  | VDict d => Ok (map key_val (dkeys d))
  | VModel c m => Ok (map key_val (model_iter E c m))
  | _ => Raise (XPy ETypeError)
  end.

(** [v.items()] (compound.py 324; models.py 336-337: the raw layers, not the getters). (runtime) *)
Definition py_item_pairs (E : env) (v : pyval) : res (list (key * pyval)) :=
  match v with
  | VDict d => Ok d
  | VModel c m => Ok (map (fun x => (x, match chain_get m x with Some w => w | None => VUndef end))
                          (model_iter E c m))
  | _ => Raise (XPy EAttributeError)
  end.

Section Export.
  Context (E : env).
  (** [field.export(value, format, context)] *)
  Context (fe : fspec -> pyval -> ectx -> res pyval).

  (** One round of export_loop (transforms.py 265-292): [Ok None] = field left out. *)
  Definition export_field (x : ectx) (filt : option rolefn) (obj : pyval) (n : key) (f : field)
    : res (option (key * pyval)) :=
    let sp := fd_spec f in
    let v := atom_value E obj n in
    if match filt with Some g => g n v | None => false end then Ok None
    else
      let lvl := get_export_level E sp x in
      if Z.eqb lvl DROP then Ok None
      else
        rbind (if is_nil v then Ok v else fe sp v x) (fun w =>
          if is_undef w then
            if Z.leb lvl DEFAULT then Ok None else Ok (Some (sname_of n sp, VNone))
          else if is_none w then
            if Z.leb lvl NOT_NONE then Ok None else Ok (Some (sname_of n sp, VNone))
          else if is_compound sp && empty_len w && Z.leb lvl NONEMPTY then Ok None
          else Ok (Some (sname_of n sp, w))).

  (** The loop (transforms.py 265-292). *)
  Fixpoint export_fields (x : ectx) (filt : option rolefn) (obj : pyval) (fs : list (key * field))
      (data : list (key * pyval)) : res (list (key * pyval)) :=
    match fs with
    | [] => Ok data
    | (n, f) :: r =>
        rbind (export_field x filt obj n f) (fun o =>
          export_fields x filt obj r (match o with Some (s, w) => dset s w data | None => data end))
    end.

  (** export_loop (transforms.py 203-296), context already made. *)
  Definition export_loop (x : ectx) (c : cid) (obj : pyval) : res (list (key * pyval)) :=
    rbind (export_filter (e_class E c) x) (fun filt =>
      export_fields x filt obj (mc_fields (e_class E c)) []).

  (** ModelType._export (compound.py 164-169). *)
  Definition model_export (c : cid) (v : pyval) (x : ectx) : res pyval :=
    let c' := match v with VModel d _ => d | _ => c end in
    rbind (export_loop x c' v) (fun d => Ok (VDict d)).

  (** Is an exported element left out? (compound.py 262-267, 326-331) *)
  Definition skip_elem (f : fspec) (lvl : Z) (w : pyval) : bool :=
    if is_none w then Z.leb lvl NOT_NONE
    else is_compound f && empty_len w && Z.leb lvl NONEMPTY.

  (** ListType._export (compound.py 251-269). *)
  Fixpoint list_export_loop (f : fspec) (lvl : Z) (x : ectx) (l : list pyval) (data : list pyval)
    : res (list pyval) :=
    match l with
    | [] => Ok data
    | v :: r => rbind (fe f v x) (fun w =>
                  list_export_loop f lvl x r (if skip_elem f lvl w then data else data ++ [w]))
    end.
  (** ListType._export (compound.py 251-269). *)
  Definition list_export (f : fspec) (v : pyval) (x : ectx) : res pyval :=
    let lvl := get_export_level E f x in
    if Z.eqb lvl DROP then Ok (VList [])
    else rbind (py_iter E v) (fun l => rbind (list_export_loop f lvl x l []) (fun d => Ok (VList d))).

  (** DictType._export (compound.py 315-333). *)
  Fixpoint dict_export_loop (f : fspec) (lvl : Z) (x : ectx) (l : list (key * pyval))
      (data : list (key * pyval)) : res (list (key * pyval)) :=
    match l with
    | [] => Ok data
    | (y, v) :: r => rbind (fe f v x) (fun w =>
                  dict_export_loop f lvl x r (if skip_elem f lvl w then data else dset y w data))
    end.
  (** DictType._export (compound.py 315-333). *)
  Definition dict_export (f : fspec) (v : pyval) (x : ectx) : res pyval :=
    let lvl := get_export_level E f x in
    if Z.eqb lvl DROP then Ok (VDict [])
    else rbind (py_item_pairs E v) (fun l =>
           rbind (dict_export_loop f lvl x l []) (fun d => Ok (VDict d))).

  (** PolyModelType._export (compound.py 435-441). *)
  Definition poly_export (p : polyspec) (v : pyval) (x : ectx) : res pyval :=
    if poly_allowed E p v then
      match v with
      | VModel c _ => rbind (export_loop x c v) (fun d => Ok (VDict d))
      | _ => Raise (XPy EGenericException)
      end
    else Raise (XPy EGenericException).

  (** [field.convert(value, context)] with the context of an export, as UnionType.to_native and to_primitive call
      it (union.py 95-101 with 60-68).  That context has neither [convert] nor [validate] (transforms.py 238-245):
      ModelType._convert (compound.py 150-162) and PolyModelType._convert (382-386) fail with AttributeError
      where they read them.  Its field converter exports: ListType._convert and DictType._convert (221-232,
      300-313) export the elements. *)
  Fixpoint export_convert (x : ectx) (f : fspec) (v : pyval) : res pyval :=
    match f with FS _ t =>
      match t with
      | TLeaf l => lf_native l v
      | TUnion ms => rbind (union_resolve (export_convert x) ms v) (fun '(_, w) => Ok w)
      | TModel c => if match v with VModel d _ => e_issub E d c | VDict _ => true | _ => false end
                    then Raise (XPy EAttributeError) else Raise (XConv [m_model_input])
      | TPoly _ => if is_none v then Ok VNone else Raise (XPy EAttributeError)
      | TList g => list_convert E (fun h u _ => fe h u x) g v default_ctx
      | TDict g ck => dict_convert (fun h u _ => fe h u x) g ck v default_ctx
      end
    end.

  (** [field.export]: base.py 293-294, compound.py 56-58, union.py 91-101.  The member of a union exports with
      its to_native or to_primitive, which is its [export] (base.py 293-305, compound.py 63-69). *)
  Definition export_step (f : fspec) (v : pyval) (x : ectx) : res pyval :=
    match fs_type f with
    | TLeaf l => match ec_fmt x with Native => lf_native l v | Primitive => lf_prim l v end
    | TUnion ms => rbind (union_resolve (export_convert x) ms v) (fun '(m, _) => fe m v x)
    | TModel c => model_export c v x
    | TPoly p => poly_export p v x
    | TList g => list_export g v x
    | TDict g _ => dict_export g v x
    end.
End Export.

(** Export with recursion depth at most [n] (RecursionError beyond). *)
Fixpoint export_at (E : env) (n : nat) : fspec -> pyval -> ectx -> res pyval :=
  match n with
  | O => fun _ _ _ => Raise XFuel
  | S m => export_step E (export_at E m)
  end.
