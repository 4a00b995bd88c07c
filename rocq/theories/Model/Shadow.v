(** Methods found by name: a field of a class hides the method of Model with the same name (models.py 100-110 puts the descriptor
    into the namespace of the class).  Here the methods of Model that call other methods look them up; Api.v calls them directly.
    Nested instances are made by the converters [r]; what is looked up on them is not considered, nor is what is looked up on an
    instance given as trusted data ([dict(...)] looks up keys, transforms.py 95; [get], 140).  The copies made by [_dict]
    (compat.py 90-91) look up no method.  Fields called [_data], [_schema], [_fields], [_serializables] or like special methods are
    not considered either, nor is get_mock_object, which looks up [fields] (models.py 371). *)
From Verif.Model Require Import Py Core Export Api Equality.

Section Shadow.
  Context (E : env) (r : conv).

  (** [self.name(...)]: the method, or the value of the field (models.py 41-53), which is taken not to be callable. *)
  Definition method {A} (c : cid) (m : mdata pyval) (n : key) (body : A) (fail : exn -> A) : A :=
    match dget n (mc_fields (e_class E c)) with
    | None => body
    | Some f => fail (match field_get c m n f with Ok _ => XPy ETypeError | Raise e => e end)
    end.

  (** [self._convert(...)] (models.py 232, 257, 275). *)
  Definition named_convert (c : cid) (m : mdata pyval) (raw trusted : pyval) (w : kwargs) : mdata pyval * res (list (key * pyval)) :=
    method c m (k "_convert") (model__convert E r c m raw trusted w) (fun e => (m, Raise e)).

  (** Model.validate (models.py 240-266), before the [finally]. *)
  Definition named_validate_body (c : cid) (m : mdata pyval) (w : kwargs) : mdata pyval * option exn :=
    let wv := KW (kw_mapping w) (kw_partial w) (kw_strict w) (kw_init_values w) (kw_apply_defaults w) (kw_convert w) true (kw_recursive w) in
    let '(m1, rs) := named_convert c m VNone (VDict []) wv in
    match rs with
    | Ok data => (md_set_valid m1 data, None)
    | Raise (XData errs pd) => (md_set_valid m1 (dupdate (md_valid m1) pd), Some (XData errs pd))
    | Raise e => (m1, Some e)
    end.
  (** Model.validate (models.py 240-266), called by the user: the class has no field of that name. *)
  Definition named_validate (c : cid) (m : mdata pyval) (w : kwargs) : mdata pyval * option exn :=
    match md_converted m, kw_partial w with
    | [], true => (m, None)
    | _, _ => let '(m1, oe) := named_validate_body c m w in (md_set_converted m1 [], oe)
    end.
  (** [self.validate(...)] (models.py 238, 278). *)
  Definition call_validate (c : cid) (m : mdata pyval) (w : kwargs) : mdata pyval * option exn :=
    method c m (k "validate") (named_validate c m w) (fun e => (m, Some e)).

  (** Model.__init__ (models.py 221-238), lazy=False. *)
  Definition named_init (c : cid) (raw trusted : pyval) (w : kwargs) : res (mdata pyval) :=
    let valid := match trusted with VDict d => d | _ => [] end in
    let '(m1, rs) := named_convert c (MD [] [] valid None) raw trusted w in
    match rs with
    | Raise e => Raise e
    | Ok data =>
        let m2 := md_set_converted m1 data in
        if kw_validate w then
          let '(m3, oe) := call_validate c m2
             (KW no_mapping (kw_partial w) false (kw_init_values w) (kw_apply_defaults w) (kw_convert w) true (kw_recursive w)) in
          match oe with Some e => Raise e | None => Ok m3 end
        else Ok m2
    end.

  (** Model.import_data (models.py 268-279). *)
  Definition named_import_data (c : cid) (m : mdata pyval) (raw : pyval) (w : kwargs) : mdata pyval * option exn :=
    match py_dict E (VModel c m) with
    | Raise e => (m, Some e)
    | Ok td =>
        let '(m1, rs) := named_convert c m raw (VDict td) w in
        match rs with
        | Raise e => (m1, Some e)
        | Ok data =>
            let m2 := md_set_converted m1 (dupdate (md_converted m1) data) in
            if kw_validate w then call_validate c m2 (KW no_mapping false false false false false true false)
            else (m2, None)
        end
    end.

  (** Model.serialize (models.py 311-319).  What [validate] raises is dropped if it is a DataError. *)
  Definition named_serialize (fe : fspec -> pyval -> ectx -> res pyval) (c : cid) (m : mdata pyval) (x : ectx)
    : mdata pyval * res (list (key * pyval)) :=
    let wv := KW no_mapping false false false true true true false in
    method c m (k "validate")
      (let '(m1, oe) := named_validate_body c m wv in
       let kept := md_converted m1 in
       let m2 := md_set_converted m1 [] in
       let fin := method c m2 (k "to_primitive")
                    (match model_export_top E fe c m2 x with
                     | Ok d => (md_set_converted m2 kept, Ok d)
                     | Raise e => (m2, Raise e)
                     end) (fun e => (m2, Raise e)) in
       match oe with
       | None | Some (XData _ _) => fin
       | Some e => (m2, Raise e)
       end) (fun e => (m, Raise e)).

  (** The loop of Model.__eq__ (models.py 418-421): [self.get(k) != other.get(k)]. *)
  Fixpoint named_eq_loop (eq : pyval -> pyval -> res bool) (c : cid) (a b : mdata pyval) (ks : list key) : res bool :=
    match ks with
    | [] => Ok true
    | x :: l => rbind (method c a (k "get") (model_get E c a x VNone) Raise) (fun v =>
                rbind (method c b (k "get") (model_get E c b x VNone) Raise) (fun w =>
                rbind (eq v w) (fun t => if t then named_eq_loop eq c a b l else Ok false)))
    end.
End Shadow.
