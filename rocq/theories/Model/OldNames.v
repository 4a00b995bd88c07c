(** Names looked up on classes and instances of nested models.  A field of a class hides the attribute of Model with the same name (models.py 100-110).
    Nested models are exported with the class in the place of the schema, which is asked for [fields] (compound.py 164-169; iteration.py 59); polymorphic
    ones with their method [export] (compound.py 441); the class method [convert] (deprecated.py 107-111) is used for nested models outside
    of instances and for validation without conversion (compound.py 159-162); mock objects ask the class for [fields] (models.py 371).
    Fields called [_fields], [_options], [_data], [_schema], [_serializables] or get_mock_object are not considered. *)
From Verif.Model Require Import Py Core Export Api Shadow MockObject.

Section OldNames.
  Context (E : env).

  (** The field of a class that hides an attribute (models.py 100-110). *)
  Definition hidden_by (c : cid) (n : key) : option field := dget n (mc_fields (e_class E c)).

  Section Ex.
    Context (fe : fspec -> pyval -> ectx -> res pyval).
    (** export_loop (transforms.py 203-296) with a class as schema: [cls.fields] of a class with such a field is its type (models.py 46-47) or the computed
        field, and has no [items] (iteration.py 59): AttributeError.  The role is looked for before (transforms.py 254-261). *)
    Definition class_export_loop (x : ectx) (c : cid) (obj : pyval) : res (list (key * pyval)) :=
      rbind (export_filter (e_class E c) x) (fun filt =>
        match hidden_by c (k "fields") with
        | Some _ => Raise (XPy EAttributeError)
        | None => export_fields E fe x filt obj (mc_fields (e_class E c)) []
        end).
    (** ModelType._export (compound.py 164-169). *)
    Definition looked_model_export (c : cid) (v : pyval) (x : ectx) : res pyval :=
      rbind (class_export_loop x (match v with VModel d _ => d | _ => c end) v) (fun d => Ok (VDict d)).
    (** PolyModelType._export (compound.py 435-441); [method] is that of Shadow.v. *)
    Definition looked_poly_export (p : polyspec) (v : pyval) (x : ectx) : res pyval :=
      if poly_allowed E p v then
        match v with
        | VModel c m => method E c m (k "export") (rbind (export_loop E fe x c v) (fun d => Ok (VDict d))) Raise
        | _ => Raise (XPy EGenericException)
        end
      else Raise (XPy EGenericException).
    (** [field.export], see Export.v. *)
    Definition looked_export_step (f : fspec) (v : pyval) (x : ectx) : res pyval :=
      match fs_type f with
      | TModel c => looked_model_export c v x
      | TPoly p => looked_poly_export p v x
      | _ => export_step E fe f v x
      end.
  End Ex.
  (** Export with recursion depth at most [n], see Export.v. *)
  Fixpoint looked_export_at (n : nat) : fspec -> pyval -> ectx -> res pyval :=
    match n with
    | O => fun _ _ _ => Raise XFuel
    | S m => looked_export_step (looked_export_at m)
    end.

  Section Conv.
    Context (r : conv).
    (** ModelType._convert (compound.py 150-162).  [cls.convert] of a class with such a field is its type (models.py 46-47); calling it converts the value with
        that type (base.py 226-227).  Computed fields cannot be called (serializable.py 71-112). *)
    Definition looked_model_convert (c : cid) (v : pyval) (x : ictx) : res pyval :=
      let run c' :=
        if cx_convert x && cx_oo x then model_new E (cv_field r) (cv_pre r) c' v x
        else match hidden_by c' (k "convert") with
             | None => model_class_convert E (cv_field r) (cv_pre r) c' v x
             | Some f => match fd_get f with None => cv_convert r (fd_spec f) v x | Some _ => Raise (XPy ETypeError) end
             end in
      match v with
      | VModel c' _ => if e_issub E c' c then run c' else Raise (XConv [m_model_input])
      | VDict _ => run c
      | _ => Raise (XConv [m_model_input])
      end.
    (** [field.convert], see Core.v. *)
    Definition looked_convert_step (f : fspec) (v : pyval) (x : ictx) : res pyval :=
      match fs_type f with
      | TModel c => looked_model_convert c v x
      | _ => convert_step E r f v x
      end.
    (** The operations of a field, see Core.v. *)
    Definition looked_conv_step : conv := Conv (field_step r) looked_convert_step (validate_step r) (pre_step E r).
  End Conv.
  (** With recursion depth at most [n], see Core.v. *)
  Fixpoint looked_conv_at (n : nat) : conv :=
    match n with O => conv_bot | S m => looked_conv_step (looked_conv_at m) end.
End OldNames.

(** get_mock_object (models.py 361-382) asking the class for [fields], line 371; see MockObject.v. *)
Fixpoint looked_mock_object {St} (R : rng St) (fields : cid -> list (key * mfield St)) (make : cid -> list (key * pyval) -> res pyval)
    (n : nat) (overrides : list (key * pyval)) (c : cid) (w : list cid * St) : (mexn + pyval) * (list cid * St) :=
  match n with
  | O => (inl (Other XFuel), w)
  | S m =>
      if dmem (k "fields") (fields c) then (inl (Other (XPy EAttributeError)), (c :: fst w, snd w))
      else
        match field_values R (looked_mock_object R fields make m []) overrides (fields c) [] (c :: fst w, snd w) with
        | (inl e, w1) => (inl e, w1)
        | (inr values, w1) =>
            match make c (dupdate values overrides) with
            | Ok v => (inr v, w1)
            | Raise e => (inl (Other e), w1)
            end
        end
  end.
