(** Contexts: schematics/datastructures.py 17-152 (DataObject, Context) and the stub factories of transforms.py
    399-419 and validate.py 107-117.  A context is its [__dict__]; attribute values are an arbitrary type [A]. *)
From Verif.Model Require Import Py Core.

Section Context.
  Context {A : Type}.
  (** [v is None], and [v != w] on attribute values. (runtime) *)
  Context (is_None : A -> bool) (differs : A -> A -> bool).

  (** DataObject.__init__ (datastructures.py 49-51) with _update (67-70): the source (another data object, a
      dictionary or pairs), then the keywords. *)
  Definition data_object (source kwargs : list (key * A)) : list (key * A) :=
    dupdate (dupdate [] source) kwargs.

  (** Context.__init__ (datastructures.py 105-110); [fields] is the class attribute [_fields] (103). *)
  Definition context_init (fields : list key) (source kwargs : list (key * A)) : res (list (key * A)) :=
    let d := data_object source kwargs in
    match fields with
    | [] => Ok d
    | _ => if forallb (fun x => kmem x fields) (dkeys d) then Ok d else Raise (XPy EValueError)
    end.

  (** Context._new (datastructures.py 112-116). *)
  Definition context_new (fields : list key) (args : list A) (kwargs : list (key * A)) : res (list (key * A)) :=
    if Nat.ltb (length fields) (length args) then Raise (XPy ETypeError)
    else context_init fields (combine fields args) kwargs.

  (** The argument of Context._make (datastructures.py 118-125): None, a context, or a source of attributes.  The
      result tells whether it is the argument itself. *)
  Inductive make_arg := FromNone | FromContext (d : list (key * A)) | FromSource (d : list (key * A)).
  (** Context._make (datastructures.py 118-125). *)
  Definition context_make (fields : list key) (o : make_arg) : res (list (key * A) * bool) :=
    match o with
    | FromNone => rbind (context_init fields [] []) (fun d => Ok (d, false))
    | FromContext d => Ok (d, true)
    | FromSource s => rbind (context_init fields s []) (fun d => Ok (d, false))
    end.

  (** [context.name] and [context[name]] (runtime; datastructures.py 87). *)
  Definition context_getattr (d : list (key * A)) (x : key) : res A :=
    match dget x d with Some v => Ok v | None => Raise (XPy EAttributeError) end.
  (** DataObject.__getitem__ (datastructures.py 87). *)
  Definition context_getitem (d : list (key * A)) (x : key) : res A :=
    match dget x d with Some v => Ok v | None => Raise (XPy EKeyError) end.

  (** Context.__setattr__ (datastructures.py 127-130) and DataObject.__setitem__ (86). *)
  Definition context_setattr (d : list (key * A)) (x : key) (v : A) : res (list (key * A)) :=
    if dmem x d then Raise (XPy ETypeError) else Ok (dset x v d).
  (** DataObject.__setitem__ (datastructures.py 86). *)
  Definition context_setitem (d : list (key * A)) (x : key) (v : A) : list (key * A) := dset x v d.

  (** The items kept by Context._branch (datastructures.py 135). *)
  Fixpoint branch_items (d kwargs : list (key * A)) : res (list (key * A)) :=
    match kwargs with
    | [] => Ok []
    | (x, v) :: r =>
        if is_None v then branch_items d r
        else rbind (context_getitem d x) (fun w =>
             rbind (branch_items d r) (fun rest => Ok (if differs v w then (x, v) :: rest else rest)))
    end.

  (** Context._branch (datastructures.py 132-139).  The result tells whether it is the context itself. *)
  Definition context_branch (fields : list key) (d kwargs : list (key * A)) : res (list (key * A) * bool) :=
    match kwargs with
    | [] => Ok (d, true)
    | _ => rbind (branch_items d kwargs) (fun items =>
           match items with
           | [] => Ok (d, true)
           | _ => rbind (context_init fields d items) (fun e => Ok (e, false))
           end)
    end.

  (** Context._setdefaults (datastructures.py 141-147). *)
  Definition context_setdefaults (d source : list (key * A)) : list (key * A) :=
    dupdate d (dupdate source d).

  (** The start of import_loop and export_loop (transforms.py 67-88, 232-245): a context that has not been
      initialized gets the arguments of the call as defaults. *)
  Definition loop_context (o : make_arg) (defaults : list (key * A)) : res (list (key * A)) :=
    rbind (context_make [] o) (fun p =>
    if dmem (k "initialized") (fst p) then Ok (fst p) else Ok (context_setdefaults (fst p) defaults)).

  (** get_import_context, get_export_context (transforms.py 399-419), get_validation_context (validate.py 107-117):
      the stub options, then the given ones. *)
  Definition stub_context (stub options : list (key * A)) : res (list (key * A)) :=
    context_init [] [] (dupdate stub options).
End Context.
Arguments make_arg : clear implicits.

(** Attribute values of import contexts: the record [ictx] of Core.v as a context. *)
Inductive cval := CNone | CBool (b : bool) | CData (v : pyval) | CMapping (m : mapping).
(** [value is None] for such a value (datastructures.py 135). *)
Definition cval_None (v : cval) : bool := match v with CNone => true | CData v => is_none v | _ => false end.

(** The attributes that transforms.py 73-88 sets and Core.v models. *)
Definition ctx_attrs (x : ictx) : list (key * cval) :=
  [(k "trusted_data", CData (cx_trusted x)); (k "mapping", CMapping (cx_mapping x));
   (k "partial", CBool (cx_partial x)); (k "strict", CBool (cx_strict x));
   (k "init_values", CBool (cx_init_values x)); (k "apply_defaults", CBool (cx_apply_defaults x));
   (k "convert", CBool (cx_convert x)); (k "validate", CBool (cx_validate x)); (k "oo", CBool (cx_oo x));
   (k "recursive", CBool (cx_recursive x))].

(** [submap] (transforms.py 146-149): None if the mapping has nothing for the field. *)
Definition submap_val (m : option mapping) : cval := match m with Some m => CMapping m | None => CNone end.
