(** Schemas, field types, and the import / validation machinery:
    schematics/schema.py, iteration.py, transforms.py (import half), validate.py,
    types/base.py (BaseType), types/compound.py, types/union.py. *)
From Verif.Model Require Import Py.

(** ** Schemas *)

(** A validator: raises or returns (base.py 323-327).  The [context] argument is not modelled. *)
Definition vldr := pyval -> option exn.

(** Options of a field, base.py 184-215.
    [fo_named]: [self.name is not None], i.e. the field is a direct field of a model and not
    the inner field of a compound type ([_setup], base.py 235-241 and compound.py 43-47).
    [fo_default]: the [default] property (base.py 280-285) with [VUndef] for no default; a
    callable default is represented by the value it returns.
    [fo_validators]: [self.validators] (base.py 198-200), in order, [validate_choices] first.
    [fo_owner]: [owner_model]. *)
Record fopts := FO {
  fo_named : bool;
  fo_required : bool;
  fo_default : pyval;
  fo_sname : option key;
  fo_dfrom : list key;
  fo_validators : list vldr;
  fo_level : option Z;
  fo_owner : option cid }.

(** A non-compound type: its [to_native] and [to_primitive] (base.py 296-305).
    The context argument (only [app_data] could matter) is not modelled. *)
Record leaf := Leaf {
  lf_native : pyval -> res pyval;
  lf_prim : pyval -> res pyval }.

(** PolyModelType parameters, compound.py 342-357. A claim function returns a class or a
    false value ([None]). *)
Record polyspec := Poly {
  po_classes : list cid;
  po_allow_sub : bool;
  po_claim : option (pyval -> option cid) }.

(** Field types.  The members of a [TUnion] are field objects of their own (union.py 50-55), with neither
    name nor owner: [_setup] does not reach them (compound.py 43-47 concerns compound types only).
    [TDict] carries [coerce_key] (compound.py 290). *)
Inductive ftype :=
| TLeaf (l : leaf)
| TUnion (ms : list fspec)
| TModel (c : cid)
| TPoly (p : polyspec)
| TList (f : fspec)
| TDict (f : fspec) (ck : key -> res key)
with fspec :=
| FS (o : fopts) (t : ftype).

(** The options of a field (base.py 184-215). *)
Definition fs_opts (f : fspec) : fopts := match f with FS o _ => o end.
(** The type class of a field and what it wraps (base.py 211). *)
Definition fs_type (f : fspec) : ftype := match f with FS _ t => t end.

(** [is_compound]: base.py 212, compound.py 37. *)
Definition is_compound (f : fspec) : bool :=
  match fs_type f with TLeaf _ | TUnion _ => false | _ => true end.

(** A schema entry: a plain field, or a Serializable (types/serializable.py 70-110) with a
    getter and possibly a setter.  Attribute lookups on a Serializable go to its type (line 78).
    A setter receives the instance and returns the changed instance, and may raise. *)
Record field := Fld {
  fd_spec : fspec;
  fd_get : option (pyval -> res pyval);
  fd_set : option (pyval -> pyval -> pyval * option exn) }.

(** A model level validator [validate_x(self/mutable, data, value, context)] (validate.py 95):
    it may change [data] in place and may raise.  Simplification: it does not change [mutable]. *)
Definition mvalidator := pyval -> list (key * pyval) -> pyval -> list (key * pyval) * option exn.

(** A role filter: [filter_func(field_name, value)], true = skip (transforms.py 268). *)
Definition rolefn := key -> pyval -> bool.

(** What a model class contributes (schema.py 13-53): fields in order, model level validators,
    roles, the [export_level] option, and the [_claim_polymorphic] hook (compound.py 414-425). *)
Record mclass := MC {
  mc_fields : list (key * field);
  mc_validators : list (key * mvalidator);
  mc_roles : list (key * rolefn);
  mc_level : Z;
  mc_claim : option (pyval -> res bool) }.

(** The classes of the program: [e_issub c d] is [issubclass(c, d)], [e_subs] is
    [get_all_subclasses] (util.py 72-79). *)
Record env := Env {
  e_class : cid -> mclass;
  e_issub : cid -> cid -> bool;
  e_subs : cid -> list cid }.

(** ** Reading model instances and mappings *)

(** Empty [_data] (models.py 152-157). *)
Definition md_empty : mdata pyval := MD [] [] [] None.

(** ChainMap lookup over unsafe, converted, valid (models.py 157; collections.ChainMap). *)
Definition chain_get (m : mdata pyval) (x : key) : option pyval :=
  match dget x (md_unsafe m) with
  | Some v => Some v
  | None => match dget x (md_converted m) with
            | Some v => Some v
            | None => dget x (md_valid m)
            end
  end.
(** [name in self._data] (models.py 148-198: the layers are a ChainMap). *)
Definition chain_mem (m : mdata pyval) (x : key) : bool :=
  match chain_get m x with Some _ => true | None => false end.

(** [getattr(instance, x)] for a field name: FieldDescriptor.__get__ (models.py 41-53) and
    Serializable.__get__ (serializable.py 80-88). *)
Definition field_get (c : cid) (m : mdata pyval) (x : key) (f : field) : res pyval :=
  match fd_get f with
  | None => match chain_get m x with
            | Some v => if is_undef v then Raise (XPy EUndefinedValueError) else Ok v
            | None => Raise (XPy EUndefinedValueError)
            end
  | Some g => match g (VModel c m) with
              | Ok v => if is_undef v then Raise (XPy EUndefinedValueError) else Ok v
              | Raise e => Raise e
              end
  end.

(** Model.__getitem__ (models.py 383-387). *)
Definition model_getitem (E : env) (c : cid) (m : mdata pyval) (x : key) : res pyval :=
  match dget x (mc_fields (e_class E c)) with
  | Some f => field_get c m x f
  | None => Raise (XPy EUnknownFieldError)
  end.

(** [value is None] for an optional function. *)
Definition is_none_opt {A} (o : option A) : bool := match o with None => true | Some _ => false end.
(** Model.__iter__ (models.py 329-331). *)
Definition model_iter (E : env) (c : cid) (m : mdata pyval) : list key :=
  map fst (filter (fun p => chain_mem m (fst p) && is_none_opt (fd_set (snd p)))
                  (mc_fields (e_class E c))).

(** Model.__contains__ (models.py 401-403); [_serializables] is deprecated.py's patch: the
    fields that are Serializable.  [getattr] of a name that is not a field is taken to fail. *)
Definition model_contains (E : env) (c : cid) (m : mdata pyval) (x : key) : bool :=
  (chain_mem m x && match model_getitem E c m x with Ok _ => true | Raise _ => false end)
  || match dget x (mc_fields (e_class E c)) with
     | Some f => negb (is_none_opt (fd_get f))
     | None => false
     end.

(** [v[x]] for the mappings that occur: dict and model. Anything else raises. (runtime) *)
Definition py_getitem (E : env) (v : pyval) (x : key) : res pyval :=
  match v with
  | VDict d => match dget x d with Some w => Ok w | None => Raise (XPy EKeyError) end
  | VModel c m => model_getitem E c m x
  | _ => Raise (XPy ETypeError)
  end.

(** [x in v] (runtime; models.py 401). Simplification: false for values that are neither. *)
Definition py_contains (E : env) (v : pyval) (x : key) : bool :=
  match v with
  | VDict d => dmem x d
  | VModel c m => model_contains E c m x
  | _ => false
  end.

(** [iter(v)] as keys (runtime; models.py 329). *)
Definition py_keys (E : env) (v : pyval) : res (list key) :=
  match v with
  | VDict d => Ok (dkeys d)
  | VModel c m => Ok (model_iter E c m)
  | _ => Raise (XPy ETypeError)
  end.

(** [(key, v[key]) for key in keys] (compat.py 90-91; transforms.py 199). *)
Fixpoint py_items (E : env) (v : pyval) (ks : list key) : res (list (key * pyval)) :=
  match ks with
  | [] => Ok []
  | x :: r => rbind (py_getitem E v x) (fun w => rbind (py_items E v r) (fun l => Ok ((x, w) :: l)))
  end.

(** compat.py 90-91 [_dict(mapping)]; also [dict(mapping)] (transforms.py 95). *)
Definition py_dict (E : env) (v : pyval) : res (list (key * pyval)) :=
  match v with
  | VDict d => Ok d
  | _ => rbind (py_keys E v) (py_items E v)
  end.

(** iteration.py 62-66: the value of an atom; every exception gives Undefined,
    and so does [mapping is None]. *)
Definition atom_value (E : env) (v : pyval) (x : key) : pyval :=
  match py_getitem E v x with Ok w => w | Raise _ => VUndef end.

(** iteration.py 81-87. *)
Definition has_setter (f : field) : bool := negb (is_none_opt (fd_set f)).

(** ** Input keys *)

(** The [mapping] argument: for a field the list of alternative keys (already listified,
    util.py 59-69), and 'model_mapping' for nested models (transforms.py 93, 145). *)
Inductive mapping := Mapping (keys : list (key * list key)) (models : list (key * mapping)).
(** The keys given for fields (transforms.py 92, base.py 261-262). *)
Definition map_keys (m : mapping) := match m with Mapping a _ => a end.
(** The mappings given for nested models (transforms.py 93). *)
Definition map_models (m : mapping) := match m with Mapping _ b => b end.

(** Truth value of a key: [''] and [0] are false. (runtime) *)
Definition key_true (x : key) : bool :=
  match x with KStr [] => false | KInt z => negb (Z.eqb z 0) | _ => true end.

(** [field.serialized_name or field_name] (transforms.py 121, 266). *)
Definition sname_of (x : key) (f : fspec) : key :=
  match fo_sname (fs_opts f) with
  | Some s => if key_true s then s else x
  | None => x
  end.

(** BaseType._get_input_keys (base.py 270-278); [self.name] is the field's key. *)
Definition input_keys (x : key) (f : fspec) (mp : mapping) : list key :=
  [x]
  ++ match fo_sname (fs_opts f) with Some s => if key_true s then [s] else [] | None => [] end
  ++ match dget x (map_keys mp) with Some l => l | None => [] end
  ++ fo_dfrom (fs_opts f).

(** The empty mapping (transforms.py 77, 148). *)
Definition no_mapping : mapping := Mapping [] [].

(** Schema.valid_input_keys (schema.py 24-26). *)
Definition valid_input_keys (fields : list (key * field)) : list key :=
  flat_map (fun p => input_keys (fst p) (fd_spec (snd p)) no_mapping) fields.

(** transforms.py 102-108: acceptable keys including the mapped ones. *)
Definition all_input_keys (fields : list (key * field)) (mp : mapping) : list key :=
  valid_input_keys fields ++ flat_map snd (map_keys mp).

(** ** Import contexts (transforms.py 67-88, 399-419; validate.py 107-117) *)

(** [cx_validate] selects validation_converter over import_converter, as every caller in the
    library does (validate.py 109, transforms.py 399, 428). [cx_trusted] is a dict or a model. *)
Record ictx := Ctx {
  cx_trusted : pyval;
  cx_mapping : mapping;
  cx_partial : bool;
  cx_strict : bool;
  cx_init_values : bool;
  cx_apply_defaults : bool;
  cx_convert : bool;
  cx_validate : bool;
  cx_oo : bool;
  cx_recursive : bool }.

(** [context._branch(trusted_data=td, mapping=submap)] (datastructures.py 132-139):
    a None submap leaves the parent's mapping in place.  Simplification: the code also keeps the
    parent's value when the new one compares equal to it; here the new one is taken, which
    differs only for values that are equal without being identical, such as 1 and True
    (Context.v models [_branch] with that comparison). *)
Definition branch (x : ictx) (td : pyval) (sub : option mapping) : ictx :=
  {| cx_trusted := td;
     cx_mapping := match sub with Some m => m | None => cx_mapping x end;
     cx_partial := cx_partial x; cx_strict := cx_strict x;
     cx_init_values := cx_init_values x; cx_apply_defaults := cx_apply_defaults x;
     cx_convert := cx_convert x; cx_validate := cx_validate x;
     cx_oo := cx_oo x; cx_recursive := cx_recursive x |}.

(** transforms.py 137-151: the context for one field.  Simplification: when the trusted data is
    a model, [.get] (models.py 342) of a computed field whose getter raises something else than
    AttributeError is taken to give None. *)
Definition nested_td (E : env) (x : ictx) (n : key) : pyval :=
  if truthy (cx_trusted x) && cx_recursive x then
    let td := match cx_trusted x with
              | VDict d => match dget n d with Some v => v | None => VNone end
              | v => match py_getitem E v n with Ok w => w | Raise _ => VNone end
              end in
    match td with
    | VDict _ | VModel _ _ => td
    | _ => VDict [(n, td)]
    end
  else VDict [].
(** The mapping handed to a compound field (transforms.py 145-148). *)
Definition nested_map (x : ictx) (n : key) : option mapping :=
  match map_models (cx_mapping x) with
  | [] => Some no_mapping
  | mm => dget n mm
  end.
(** The context a field is converted with (transforms.py 138-151). *)
Definition field_ctx (E : env) (x : ictx) (n : key) (f : fspec) : ictx :=
  if is_compound f then branch x (nested_td E x n) (nested_map x n) else x.

(** ** Required check and field level validation *)

(** The message key of base.py 175. *)
Definition m_required : emsg := u "required".
(** transforms.py 114. *)
Definition m_rogue : emsg := u "Rogue field".

(** BaseType.check_required (base.py 335-338); [context] is always given here. *)
Definition check_required (f : fspec) (v : pyval) (x : ictx) : option exn :=
  let o := fs_opts f in
  if fo_required o && is_nil v && (negb (fo_named o) || negb (cx_partial x))
  then Some (XConv [m_required]) else None.

(** BaseType.validate, the validator loop (base.py 322-331): collects the messages of the
    ValidationErrors, stops after a StopValidationError; other exceptions propagate. *)
Fixpoint run_validators (vs : list vldr) (v : pyval) (acc : list (list emsg)) : res (list (list emsg)) :=
  match vs with
  | [] => Ok acc
  | f :: r => match f v with
              | None => run_validators r v acc
              | Some (XValid stop ms) =>
                  if stop then Ok (acc ++ [ms]) else run_validators r v (acc ++ [ms])
              | Some e => Raise e
              end
  end.
(** The end of BaseType.validate (base.py 330-333). *)
Definition validators_result (vs : list vldr) (v : pyval) : res pyval :=
  match run_validators vs v [] with
  | Ok [] => Ok v
  | Ok errs => Raise (XValid false (concat errs))
  | Raise e => Raise e
  end.

(** ** The import loop *)

(** Which object [raw_data] is: its own dict, the converted layer of [mutable]
    (models.py 289), or [mutable] itself (transforms.py 63-64). *)
Inductive aliasing := NoAlias | AliasConverted | AliasSelf.

(** [raw_data] after [mutable] has been changed through another reference. *)
Definition sync (a : aliasing) (mut raw : pyval) : pyval :=
  match a, mut with
  | AliasConverted, VModel _ m => VDict (md_converted m)
  | AliasSelf, _ => mut
  | _, _ => raw
  end.

(** [instance._data.converted = data] (models.py 172-175, 236). *)
Definition set_converted (v : pyval) (d : list (key * pyval)) : pyval :=
  match v with
  | VModel c m => VModel c (MD (md_unsafe m) d (md_valid m) (md_hidden m))
  | _ => v
  end.

(** What a run of import_loop leaves behind: [mutable], [raw_data], and the result. *)
Record loop_out := LO { lo_mut : pyval; lo_raw : pyval; lo_res : res (list (key * pyval)) }.

Section Loop.
  Context (E : env).
  (** [context.field_converter] *)
  Context (fc : fspec -> pyval -> ictx -> res pyval).

  (** transforms.py 123-127. *)
  Fixpoint find_alt (raw : pyval) (n : key) (ks : list key) : res pyval :=
    match ks with
    | [] => Ok VUndef
    | x :: r => if key_true x && negb (key_eqb x n) && py_contains E raw x
                then py_getitem E raw x else find_alt raw n r
    end.

  (** The state of the loop: data and errors. *)
  Definition lstate := (list (key * pyval) * list (key * errnode))%type.

  (** One round of the loop, transforms.py 120-167. [got] is [got_data]. *)
  Definition import_field (x : ictx) (got : bool) (raw : pyval) (n : key) (f : field) (s : lstate)
    : res lstate :=
    let '(data, errors) := s in
    let sp := fd_spec f in
    let v0 := atom_value E raw n in
    rbind (if got && is_undef v0 then find_alt raw n (input_keys n sp (cx_mapping x)) else Ok v0)
    (fun v1 =>
      if is_undef v1 && dmem n data then Ok (data, errors)
      else
        let v2 := if is_undef v1 && cx_apply_defaults x then fo_default (fs_opts sp) else v1 in
        let v3 := if is_undef v2 && cx_init_values x then VNone else v2 in
        let store w := if is_undef w then Ok (data, errors) else Ok (dset n w data, errors) in
        if got then
          match fc sp v3 (field_ctx E x n sp) with
          | Ok w => store w
          | Raise e =>
              if caught_by_loop e then
                let errors' := dset (sname_of n sp) (err_node e) errors in
                let data1 := if cx_apply_defaults x && negb (is_undef (fo_default (fs_opts sp)))
                             then dset n (fo_default (fs_opts sp)) data else data in
                let data2 := match e with XData _ pd => dset n (VDict pd) data1 | _ => data1 end in
                Ok (data2, errors')
              else Raise e
          end
        else store v3).

  (** transforms.py 120-167 over the fields, with the filter of lines 116-119. *)
  Fixpoint import_fields (x : ictx) (got : bool) (raw : pyval) (fs : list (key * field)) (s : lstate)
    : res lstate :=
    match fs with
    | [] => Ok s
    | (n, f) :: r =>
        if negb (cx_validate x) && has_setter f then import_fields x got raw r s
        else rbind (import_field x got raw n f s) (import_fields x got raw r)
    end.

  (** transforms.py 169-171: the raw values of settable fields are copied when not validating
      (also when they are Undefined). *)
  Fixpoint copy_settable (raw : pyval) (fs : list (key * field)) (data : list (key * pyval))
    : list (key * pyval) :=
    match fs with
    | [] => data
    | (n, f) :: r =>
        copy_settable raw r (if has_setter f then dset n (atom_value E raw n) data else data)
    end.

  (** The loop of _mutate, transforms.py 187-198. Serializable.__set__ is serializable.py 90-94;
      [pre] is [pre_setattr]. *)
  Fixpoint mutate_fields (pre : fspec -> pyval -> res pyval) (x : ictx) (a : aliasing)
      (fs : list (key * field)) (mut raw : pyval) (errs : list (key * errnode))
    : pyval * pyval * res (list (key * errnode)) :=
    match fs with
    | [] => (mut, raw, Ok errs)
    | (n, f) :: r =>
        match fd_set f with
        | None => mutate_fields pre x a r mut raw errs
        | Some fset =>
            let v := atom_value E raw n in
            if is_undef v then mutate_fields pre x a r mut raw errs
            else
              let handle e mut1 raw1 :=
                if caught_by_loop e then
                  mutate_fields pre x a r mut1 raw1 (dset (sname_of n (fd_spec f)) (err_node e) errs)
                else match e with
                     | XPy pe => if is_attribute_error pe then mutate_fields pre x a r mut1 raw1 errs
                                 else (mut1, raw1, Raise e)
                     | _ => (mut1, raw1, Raise e)
                     end in
              match rbind (fc (fd_spec f) v x) (pre (fd_spec f)) with
              | Raise e => handle e mut raw
              | Ok w =>
                  let '(mut1, oe) := fset mut w in
                  let raw1 := sync a mut1 raw in
                  match oe with
                  | Some e => handle e mut1 raw1
                  | None => mutate_fields pre x a r mut1 raw1 errs
                  end
              end
        end
    end.

  (** _mutate, transforms.py 181-200: afterwards [raw_data.update(...)] with the visible items of
      [mutable].  A model has no [update] method: AttributeError. *)
  Definition mutate (pre : fspec -> pyval -> res pyval) (x : ictx) (a : aliasing)
      (fs : list (key * field)) (mut raw : pyval)
    : pyval * pyval * res (list (key * errnode)) :=
    let '(mut1, raw1, r) := mutate_fields pre x a fs mut raw [] in
    match r with
    | Raise e => (mut1, raw1, Raise e)
    | Ok errs =>
        match raw1 with
        | VDict d =>
            match py_dict E mut1 with
            | Ok items =>
                let raw2 := VDict (dupdate d items) in
                (match a with
                 | AliasConverted => set_converted mut1 (dupdate d items)
                 | AliasSelf => raw2
                 | NoAlias => mut1
                 end, raw2, Ok errs)
            | Raise e => (mut1, raw1, Raise e)
            end
        | _ => (mut1, raw1, Raise (XPy EAttributeError))
        end
    end.

  (** transforms.py 109-114: rogue fields. (The set's iteration order is not modelled.) *)
  Definition rogues (x : ictx) (fs : list (key * field)) (raw : pyval) (errs : list (key * errnode))
    : res (list (key * errnode)) :=
    if cx_strict x then
      rbind (py_keys E raw) (fun ks =>
        Ok (fold_left (fun acc y => dset y (NText m_rogue) acc)
                      (filter (fun y => negb (kmem y (all_input_keys fs (cx_mapping x)))) ks) errs))
    else Ok errs.

  (** import_loop, transforms.py 63-178 (context already made). *)
  Definition import_loop (pre : fspec -> pyval -> res pyval) (x : ictx) (fs : list (key * field))
      (mut : pyval) (a : aliasing) (raw : pyval) : loop_out :=
    let got := negb (is_none raw) in
    match (if truthy (cx_trusted x) then py_dict E (cx_trusted x) else Ok []) with
    | Raise e => LO mut raw (Raise e)
    | Ok data0 =>
        let '(mut1, raw1, rerrs) :=
          if got && cx_validate x then mutate pre x a fs mut raw else (mut, raw, Ok []) in
        LO mut1 raw1
          (rbind rerrs (fun errs0 =>
           rbind (if got then rogues x fs raw1 errs0 else Ok errs0) (fun errs1 =>
           rbind (import_fields x got raw1 fs (data0, errs1)) (fun s =>
             let '(data, errors) := s in
             let data' := if cx_validate x then data else copy_settable raw1 fs data in
             match errors with
             | [] => Ok data'
             | _ => Raise (XData errors data')
             end))))
    end.
End Loop.

(** ** Model level validation (validate.py) *)

(** [except (FieldError, DataError) as exc: ... exc.errors] (validate.py 96-98). *)
Definition mv_caught (e : exn) : option errnode :=
  match e with
  | XConv ms | XValid _ ms => Some (NMsgs ms)
  | XData d _ => Some (NDict d)
  | XCompound _ | XPy _ | XFuel => None
  end.

(** The loop of _validate_model (validate.py 93-99). *)
Fixpoint validate_model_loop (vfs : list (key * mvalidator)) (mut : pyval) (fs : list (key * field))
    (data : list (key * pyval)) (errs : list (key * errnode)) (bad : list key)
  : res (list (key * pyval) * list (key * errnode) * list key) :=
  match fs with
  | [] => Ok (data, errs, bad)
  | (n, f) :: r =>
      match dget n data, dget n vfs with
      | Some v, Some vf =>
          if is_undef v then validate_model_loop vfs mut r data errs bad
          else
            let '(data1, oe) := vf mut data v in
            match oe with
            | None => validate_model_loop vfs mut r data1 errs bad
            | Some e => match mv_caught e with
                        | Some nd => validate_model_loop vfs mut r data1
                                       (dset (sname_of n (fd_spec f)) nd errs) (bad ++ [n])
                        | None => Raise e
                        end
            end
      | _, _ => validate_model_loop vfs mut r data errs bad
      end
  end.

(** [for field_name in invalid_fields: data.pop(field_name)] (validate.py 101-102). *)
Fixpoint pop_all (bad : list key) (data : list (key * pyval)) : res (list (key * pyval)) :=
  match bad with
  | [] => Ok data
  | n :: r => if dmem n data then pop_all r (ddel n data) else Raise (XPy EKeyError)
  end.

(** _validate_model (validate.py 72-104). *)
Definition validate_model (vfs : list (key * mvalidator)) (mut : pyval) (fs : list (key * field))
    (data : list (key * pyval)) : res (list (key * pyval) * list (key * errnode)) :=
  rbind (validate_model_loop vfs mut fs data [] []) (fun '(d, e, bad) =>
  rbind (pop_all bad d) (fun d' => Ok (d', e))).

(** validate (validate.py 18-69). *)
Definition validate_fn (E : env) (fc : fspec -> pyval -> ictx -> res pyval)
    (pre : fspec -> pyval -> res pyval) (x : ictx) (mc : mclass)
    (mut : pyval) (a : aliasing) (raw : pyval) : loop_out :=
  let out := import_loop E fc pre x (mc_fields mc) mut a raw in
  let finish errs data :=
    rbind (validate_model (mc_validators mc) (lo_mut out) (mc_fields mc) data) (fun '(d, e) =>
      match dupdate errs e with
      | [] => Ok d
      | errs' => Raise (XData errs' d)
      end) in
  LO (lo_mut out) (lo_raw out)
     match lo_res out with
     | Ok data => finish [] data
     | Raise (XData errs data) => finish errs data
     | Raise e => Raise e
     end.

(** ** Compound types *)

(** compound.py 158. *)
Definition m_model_input : emsg := u "Input must be a mapping or instance".
(** compound.py 219. *)
Definition m_list_input : emsg := u "Could not interpret the value as a list".
(** compound.py 302. *)
Definition m_dict_input : emsg := u "Only mappings may be used in a DictType".
(** compound.py 396-397. *)
Definition m_poly_input : emsg := u "Please use a mapping for this field or an instance".
(** The message key of union.py 38. *)
Definition m_union : emsg := u "convert".

Section Compound.
  Context (E : env).
  (** [context.field_converter] *)
  Context (fc : fspec -> pyval -> ictx -> res pyval).
  (** [pre_setattr], for the setters run during validation *)
  Context (pre : fspec -> pyval -> res pyval).

  (** [model_class(value, context=context)] with an initialised context: Model.__init__ and
      _convert (models.py 221-238, 281-299).  All keyword arguments are ignored because the
      context is already initialised (transforms.py 67-70). *)
  Definition model_new (c : cid) (v : pyval) (x : ictx) : res pyval :=
    rbind (if truthy v then py_dict E v else Ok []) (fun d =>
      let a := if truthy v then NoAlias else AliasConverted in
      let mut := VModel c md_empty in
      let out := if cx_validate x then validate_fn E fc pre x (e_class E c) mut a (VDict d)
                 else import_loop E fc pre x (mc_fields (e_class E c)) mut a (VDict d) in
      rbind (lo_res out) (fun data => Ok (set_converted (lo_mut out) data))).

  (** [model_class.convert(value, context=context)] (deprecated.py 107-111): the functional
      import_loop with [raw_data = mutable = value], giving a dict. *)
  Definition model_class_convert (c : cid) (v : pyval) (x : ictx) : res pyval :=
    rbind (lo_res (import_loop E fc pre x (mc_fields (e_class E c)) v AliasSelf v))
          (fun data => Ok (VDict data)).

  (** ModelType._convert (compound.py 150-162). *)
  Definition model_convert (c : cid) (v : pyval) (x : ictx) : res pyval :=
    let run c' := if cx_convert x && cx_oo x then model_new c' v x else model_class_convert c' v x in
    match v with
    | VModel c' _ => if e_issub E c' c then run c' else Raise (XConv [m_model_input])
    | VDict _ => run c
    | _ => Raise (XConv [m_model_input])
    end.

  (** ListType._coerce and iteration (compound.py 210-219): the elements; a str or mapping is not
      accepted, a model instance iterates over its keys. *)
  Definition list_elems (v : pyval) : option (list pyval) :=
    match v with
    | VList l | VTuple l => Some l
    | VBytes b => Some (map (fun c => VInt (Z.of_N c)) b)
    | VModel c m => Some (map key_val (model_iter E c m))
    | _ => None
    end.

  (** [except BaseError] (compound.py 228, 309): every schematics error. *)
  Definition is_base_error (e : exn) : bool := caught_by_loop e.

  (** The loop of ListType._convert (compound.py 223-229). *)
  Fixpoint list_loop (f : fspec) (x : ictx) (i : Z) (l : list pyval)
      (data : list pyval) (errs : list (key * errnode)) : res (list pyval * list (key * errnode)) :=
    match l with
    | [] => Ok (data, errs)
    | v :: r => match fc f v x with
                | Ok w => list_loop f x (i + 1)%Z r (data ++ [w]) errs
                | Raise e => if is_base_error e
                             then list_loop f x (i + 1)%Z r data (dset (KInt i) (err_node e) errs)
                             else Raise e
                end
    end.

  (** ListType._convert (compound.py 221-232). *)
  Definition list_convert (f : fspec) (v : pyval) (x : ictx) : res pyval :=
    match list_elems v with
    | None => Raise (XConv [m_list_input])
    | Some l => rbind (list_loop f x 0 l [] []) (fun '(data, errs) =>
                  match errs with [] => Ok (VList data) | _ => Raise (XCompound errs) end)
    end.

  (** The loop of DictType._convert (compound.py 304-310).  The right hand side is evaluated before
      [coerce_key]. *)
  Fixpoint dict_loop (f : fspec) (ck : key -> res key) (x : ictx) (l : list (key * pyval))
      (data : list (key * pyval)) (errs : list (key * errnode))
    : res (list (key * pyval) * list (key * errnode)) :=
    match l with
    | [] => Ok (data, errs)
    | (y, v) :: r =>
        match rbind (fc f v x) (fun w => rbind (ck y) (fun y' => Ok (y', w))) with
        | Ok (y', w) => dict_loop f ck x r (dset y' w data) errs
        | Raise e => if is_base_error e then dict_loop f ck x r data (dset y (err_node e) errs)
                     else Raise e
        end
    end.

  (** DictType._convert (compound.py 300-313). *)
  Definition dict_convert (f : fspec) (ck : key -> res key) (v : pyval) (x : ictx) : res pyval :=
    match v with
    | VDict d => rbind (dict_loop f ck x d [] []) (fun '(data, errs) =>
                   match errs with [] => Ok (VDict data) | _ => Raise (XCompound errs) end)
    | _ => Raise (XConv [m_dict_input])
    end.

  (** PolyModelType.is_allowed_model (compound.py 373-380). *)
  Definition poly_allowed (p : polyspec) (v : pyval) : bool :=
    match v with
    | VModel c _ => if po_allow_sub p then existsb (e_issub E c) (po_classes p)
                    else existsb (N.eqb c) (po_classes p)
    | _ => false
    end.

  (** PolyModelType._get_candidates (compound.py 443-451). *)
  Definition poly_candidates (p : polyspec) : list cid :=
    if po_allow_sub p then flat_map (fun c => c :: e_subs E c) (po_classes p) else po_classes p.

  (** The candidate loop of find_model (compound.py 411-425). *)
  Fixpoint poly_scan (v : pyval) (cs : list cid) (fallback : option cid) (hits : list cid)
    : res (option cid * list cid) :=
    match cs with
    | [] => Ok (fallback, hits)
    | c :: r => match mc_claim (e_class E c) with
                | None => poly_scan v r (match fallback with None => Some c | s => s end) hits
                | Some cl => rbind (cl v) (fun b => poly_scan v r fallback (if b then hits ++ [c] else hits))
                end
    end.

  (** PolyModelType.find_model (compound.py 402-433). *)
  Definition find_model (p : polyspec) (v : pyval) : res cid :=
    match po_claim p with
    | Some cf => match cf v with Some c => Ok c | None => Raise (XPy EGenericException) end
    | None =>
        rbind (poly_scan v (poly_candidates p) None []) (fun '(fallback, hits) =>
          match hits, fallback with
          | [], Some c => Ok c
          | [c], _ => Ok c
          | _, _ => Raise (XPy EGenericException)
          end)
    end.

  (** PolyModelType._convert (compound.py 382-400). *)
  Definition poly_convert (p : polyspec) (v : pyval) (x : ictx) : res pyval :=
    if is_none v then Ok VNone
    else if negb (cx_validate x) && poly_allowed p v then Ok v
    else if negb (cx_validate x) && negb (match v with VDict _ => true | _ => false end)
    then Raise (XConv [m_poly_input])
    else rbind (find_model p v) (fun c => model_new c v x).
End Compound.

(** UnionType.resolve (union.py 60-80) with the default resolver: the first member whose [convert]
    does not raise ConversionError; other exceptions propagate.  [cvt] is [field.convert] with the
    context at hand. *)
Definition union_resolve (cvt : fspec -> pyval -> res pyval) : list fspec -> pyval -> res (fspec * pyval) :=
  fix go ms v :=
  match ms with
  | [] => Raise (XConv [m_union])
  | m :: r => match cvt m v with
              | Ok w => Ok (m, w)
              | Raise (XConv _) => go r v
              | Raise e => Raise e
              end
  end.

(** ** Tying the knot: field conversion with bounded recursion depth *)

(** The three recursive entry points: [context.field_converter] (transforms.py 378-391),
    [field.convert] and [field.validate]. *)
Record conv := Conv {
  cv_field : fspec -> pyval -> ictx -> res pyval;
  cv_convert : fspec -> pyval -> ictx -> res pyval;
  cv_validate : fspec -> pyval -> ictx -> res pyval;
  cv_pre : fspec -> pyval -> res pyval }.

(** The context of a plain [Model(value)] call: init, partial, strict all true
    (models.py 221-224, 231-235; transforms.py 67-88). *)
Definition default_ctx : ictx :=
  {| cx_trusted := VDict []; cx_mapping := no_mapping; cx_partial := true; cx_strict := true;
     cx_init_values := true; cx_apply_defaults := true; cx_convert := true; cx_validate := false;
     cx_oo := true; cx_recursive := false |}.

(** compound.py 146. *)
Definition m_presetattr : emsg := u "Model conversion requires a model or dict".

Section Step.
  Context (E : env) (r : conv).

  (** import_converter / validation_converter (transforms.py 378-391). *)
  Definition field_step (f : fspec) (v : pyval) (x : ictx) : res pyval :=
    match check_required f v x with
    | Some e => Raise e
    | None => if is_nil v then Ok v
              else if cx_validate x then cv_validate r f v x else cv_convert r f v x
    end.

  (** [field.convert]: base.py 290-291, compound.py 49-51, union.py 82-85. *)
  Definition convert_step (f : fspec) (v : pyval) (x : ictx) : res pyval :=
    match fs_type f with
    | TLeaf l => lf_native l v
    | TUnion ms => rbind (union_resolve (fun m u => cv_convert r m u x) ms v) (fun '(_, w) => Ok w)
    | TModel c => model_convert E (cv_field r) (cv_pre r) c v x
    | TPoly p => poly_convert E (cv_field r) (cv_pre r) p v x
    | TList g => list_convert E (cv_field r) g v x
    | TDict g ck => dict_convert (cv_field r) g ck v x
    end.

  (** [field.validate]: BaseType.validate (base.py 307-333); UnionType.validate (union.py 87-89)
      resolves the member and validates with it; the union's own validators are not used. *)
  Definition validate_step (f : fspec) (v : pyval) (x : ictx) : res pyval :=
    match fs_type f with
    | TUnion ms =>
        rbind (union_resolve (fun m u => cv_convert r m u x) ms v) (fun '(m, _) => cv_validate r m v x)
    | _ =>
        rbind (if cx_convert x then cv_convert r f v x
               else if is_compound f then rbind (cv_convert r f v x) (fun _ => Ok v)
               else Ok v)
              (validators_result (fo_validators (fs_opts f)))
    end.

  (** [pre_setattr]: base.py 287-288, ModelType compound.py 142-148. *)
  Definition pre_step (f : fspec) (v : pyval) : res pyval :=
    match fs_type f with
    | TModel c =>
        match v with
        | VNone | VModel _ _ => Ok v
        | VDict _ => model_new E (cv_field r) (cv_pre r) c v default_ctx
        | _ => Raise (XConv [m_presetattr])
        end
    | _ => Ok v
    end.

  (** The operations of a field with nested models handled by the given ones (base.py 278-333, compound.py 49-51 and 142-162). *)
  Definition conv_step : conv := Conv field_step convert_step validate_step pre_step.
End Step.

(** Recursion depth exhausted. *)
Definition conv_bot : conv :=
  Conv (fun _ _ _ => Raise XFuel) (fun _ _ _ => Raise XFuel) (fun _ _ _ => Raise XFuel)
       (fun _ _ => Raise XFuel).

(** [conv_at E n]: the converters with recursion depth at most [n]. *)
Fixpoint conv_at (E : env) (n : nat) : conv :=
  match n with
  | O => conv_bot
  | S m => conv_step E (conv_at E m)
  end.
