(** The [Model] class: schematics/models.py 29-67 (FieldDescriptor), 148-198 (ModelDict),
    202-449 (Model). An instance is its class and its [_data]; a method that changes the
    instance returns the new [_data]. *)
From Verif.Model Require Import Py Core Export.

(** ** ModelDict (models.py 148-198) *)

(** [converted] setter, 172-175. *)
Definition md_set_converted (m : mdata pyval) (d : list (key * pyval)) : mdata pyval :=
  MD (md_unsafe m) d (md_valid m) (md_hidden m).
(** [unsafe] setter, 163-166. *)
Definition md_set_unsafe (m : mdata pyval) (d : list (key * pyval)) : mdata pyval :=
  MD d (md_converted m) (md_valid m) (md_hidden m).
(** [valid] setter, 181-184: the visible layer is rebound, the private [__valid] is not. *)
Definition md_set_valid (m : mdata pyval) (d : list (key * pyval)) : mdata pyval :=
  MD (md_unsafe m) (md_converted m) d
     (match md_hidden m with None => Some (md_valid m) | h => h end).

(** [__delitem__], 186-195: deletes from [__valid], [_converted], [_unsafe]. *)
Definition md_del (m : mdata pyval) (x : key) : mdata pyval * option exn :=
  let hid := match md_hidden m with None => md_valid m | Some h => h end in
  let m' := MD (ddel x (md_unsafe m)) (ddel x (md_converted m))
               (match md_hidden m with None => ddel x (md_valid m) | Some _ => md_valid m end)
               (match md_hidden m with None => None | Some h => Some (ddel x h) end) in
  (m', if dmem x hid || dmem x (md_converted m) || dmem x (md_unsafe m) then None
       else Some (XPy EKeyError)).

(** ** Options of the entry points *)

(** Keyword arguments of Model(...), validate(...), import_data(...). *)
Record kwargs := KW {
  kw_mapping : mapping;
  kw_partial : bool;
  kw_strict : bool;
  kw_init_values : bool;
  kw_apply_defaults : bool;
  kw_convert : bool;
  kw_validate : bool;
  kw_recursive : bool }.

(** The context made by import_loop (transforms.py 67-88) or validate (validate.py 53). [oo] is
    always true when called through a model (models.py 299). *)
Definition kw_ctx (w : kwargs) (trusted : pyval) : ictx :=
  {| cx_trusted := trusted; cx_mapping := kw_mapping w; cx_partial := kw_partial w;
     cx_strict := kw_strict w; cx_init_values := kw_init_values w;
     cx_apply_defaults := kw_apply_defaults w; cx_convert := kw_convert w;
     cx_validate := kw_validate w; cx_oo := true; cx_recursive := kw_recursive w |}.

Section Api.
  Context (E : env).
  (** The converters in use; [conv_at E n] for the library's. *)
  Context (r : conv).

  (** Model._convert (models.py 281-299) without [context]. Returns the changed [_data], and the
      result. *)
  Definition model__convert (c : cid) (m : mdata pyval) (raw : pyval) (trusted : pyval) (w : kwargs)
    : mdata pyval * res (list (key * pyval)) :=
    match (if truthy raw then py_dict E raw else Ok (md_converted m)) with
    | Raise e => (m, Raise e)
    | Ok d0 =>
        let a0 := if truthy raw then NoAlias else AliasConverted in
        let '(m1, a1, d1, w1) :=
          match md_unsafe m with
          | [] => (m, a0, d0, w)
          | un => (md_set_unsafe m [], NoAlias, dupdate un d0,
                   KW (kw_mapping w) (kw_partial w) (kw_strict w) (kw_init_values w)
                      (kw_apply_defaults w) true (kw_validate w) (kw_recursive w))
          end in
        let x := kw_ctx w1 (if truthy trusted then trusted else VDict []) in
        let out := if kw_validate w
                   then validate_fn E (cv_field r) (cv_pre r) x (e_class E c) (VModel c m1) a1 (VDict d1)
                   else import_loop E (cv_field r) (cv_pre r) x (mc_fields (e_class E c))
                                    (VModel c m1) a1 (VDict d1) in
        (match lo_mut out with VModel _ m2 => m2 | _ => m1 end, lo_res out)
    end.

  (** Model.validate (models.py 240-266), before the [finally]. *)
  Definition model_validate_body (c : cid) (m : mdata pyval) (w : kwargs) : mdata pyval * option exn :=
    let wv := KW (kw_mapping w) (kw_partial w) (kw_strict w) (kw_init_values w)
                 (kw_apply_defaults w) (kw_convert w) true (kw_recursive w) in
    let '(m1, rs) := model__convert c m VNone (VDict []) wv in
    match rs with
    | Ok data => (md_set_valid m1 data, None)
    | Raise (XData errs pd) => (md_set_valid m1 (dupdate (md_valid m1) pd), Some (XData errs pd))
    | Raise e => (m1, Some e)
    end.

  (** Model.validate (models.py 240-266). *)
  Definition model_validate (c : cid) (m : mdata pyval) (w : kwargs) : mdata pyval * option exn :=
    match md_converted m, kw_partial w with
    | [], true => (m, None)
    | _, _ => let '(m1, oe) := model_validate_body c m w in (md_set_converted m1 [], oe)
    end.

  (** Model.__init__ (models.py 221-238), lazy=False. *)
  Definition model_init (c : cid) (raw trusted : pyval) (w : kwargs) : res (mdata pyval) :=
    let valid := match trusted with VDict d => d | _ => [] end in
    let '(m1, rs) := model__convert c (MD [] [] valid None) raw trusted w in
    match rs with
    | Raise e => Raise e
    | Ok data =>
        let m2 := md_set_converted m1 data in
        if kw_validate w then
          let '(m3, oe) := model_validate c m2
             (KW no_mapping (kw_partial w) false (kw_init_values w) (kw_apply_defaults w) (kw_convert w) true
                 (kw_recursive w)) in
          match oe with Some e => Raise e | None => Ok m3 end
        else Ok m2
    end.

  (** Model.__init__ with lazy=True (models.py 227-229). *)
  Definition model_init_lazy (raw trusted : list (key * pyval)) : mdata pyval := MD raw [] trusted None.

  (** Model.import_data (models.py 268-279). *)
  Definition model_import_data (c : cid) (m : mdata pyval) (raw : pyval) (w : kwargs)
    : mdata pyval * option exn :=
    match py_dict E (VModel c m) with
    | Raise e => (m, Some e)
    | Ok td =>
        let '(m1, rs) := model__convert c m raw (VDict td) w in
        match rs with
        | Raise e => (m1, Some e)
        | Ok data =>
            let m2 := md_set_converted m1 (dupdate (md_converted m1) data) in
            if kw_validate w then
              model_validate c m2 (KW no_mapping false false false false false true false)
            else (m2, None)
        end
    end.

  (** FieldDescriptor.__set__ (models.py 55-61) and Serializable.__set__ (serializable.py 90-94),
      reached through Model.__setitem__ / setattr (models.py 389-393). *)
  Definition model_setitem (c : cid) (m : mdata pyval) (x : key) (v : pyval) : mdata pyval * option exn :=
    match dget x (mc_fields (e_class E c)) with
    | None => (m, Some (XPy EUnknownFieldError))
    | Some f =>
        match fd_get f with
        | None => match cv_pre r (fd_spec f) v with
                  | Ok w => (md_set_converted m (dset x w (md_converted m)), None)
                  | Raise e => (m, Some e)
                  end
        | Some _ =>
            match fd_set f with
            | None => (m, Some (XPy EAttributeError))
            | Some fs => match cv_pre r (fd_spec f) v with
                         | Raise e => (m, Some e)
                         | Ok w => let '(v', oe) := fs (VModel c m) w in
                                   (match v' with VModel _ m' => m' | _ => m end, oe)
                         end
            end
        end
    end.

  (** Model.__delitem__ / delattr (models.py 395-399, 63-67). A Serializable has no [__delete__]. *)
  Definition model_delitem (c : cid) (m : mdata pyval) (x : key) : mdata pyval * option exn :=
    match dget x (mc_fields (e_class E c)) with
    | None => (m, Some (XPy EUnknownFieldError))
    | Some f => match fd_get f with
                | None => md_del m x
                | Some _ => (m, Some (XPy EAttributeError))
                end
    end.

  (** keys/items/values (models.py 333-340): [items] reads the layers. *)
  Definition model_keys (c : cid) (m : mdata pyval) : list key := model_iter E c m.
  (** Model.items (models.py 336-337). *)
  Definition model_items (c : cid) (m : mdata pyval) : list (key * pyval) :=
    map (fun x => (x, match chain_get m x with Some v => v | None => VUndef end)) (model_iter E c m).
  (** Model.values (models.py 339-340). *)
  Definition model_values (c : cid) (m : mdata pyval) : list pyval :=
    map (fun x => match chain_get m x with Some v => v | None => VUndef end) (model_iter E c m).

  (** Model.get (models.py 342-343) for a field name. *)
  Definition model_get (c : cid) (m : mdata pyval) (x : key) (dflt : pyval) : res pyval :=
    match dget x (mc_fields (e_class E c)) with
    | None => Ok dflt
    | Some f => match field_get c m x f with
                | Raise (XPy e) => if is_attribute_error e then Ok dflt else Raise (XPy e)
                | o => o
                end
    end.

  (** [len(m)] (models.py 405-406; ChainMap.__len__: distinct keys of the layers). *)
  Definition distinct (l : list key) : list key :=
    fold_right (fun y acc => if kmem y acc then acc else y :: acc) [] l.
  (** Model.__len__ (models.py 405-406). *)
  Definition model_len (m : mdata pyval) : nat :=
    length (distinct (dkeys (md_unsafe m) ++ dkeys (md_converted m) ++ dkeys (md_valid m))).

  Section Ex.
    Context (fe : fspec -> pyval -> ectx -> res pyval).
    (** Model.to_native / to_primitive / export (models.py 301-309). *)
    Definition model_export_top (c : cid) (m : mdata pyval) (x : ectx) : res (list (key * pyval)) :=
      export_loop E fe x c (VModel c m).

    (** Model.serialize (models.py 311-319). [raw_data] is the converted layer object, which
        [_mutate] may have changed in place (transforms.py 199). *)
    Definition model_serialize (c : cid) (m : mdata pyval) (x : ectx)
      : mdata pyval * res (list (key * pyval)) :=
      let wv := KW no_mapping false false false true true true false in
      let '(m1, oe) := model_validate_body c m wv in
      let kept := md_converted m1 in
      let m2 := md_set_converted m1 [] in
      let fin := match model_export_top c m2 x with
                 | Ok d => (md_set_converted m2 kept, Ok d)
                 | Raise e => (m2, Raise e)
                 end in
      match oe with
      | None | Some (XData _ _) => fin
      | Some e => (m2, Raise e)
      end.
  End Ex.
End Api.
