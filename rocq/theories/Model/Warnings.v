(** Deprecation warnings.  The library itself uses attributes it has declared deprecated (deprecated.py 15-24): [schema._valid_input_keys]
    (transforms.py 103), [instance._fields] (models.py 59), [self._serializables] (models.py 403); deprecated.py 28-111 (exports read [schema._options] first, transforms.py 249: modelled for serialize only).  Warnings can
    be turned into exceptions (the filter "error" of the module warnings): [warn] is then the exception; None if warnings are shown or ignored.
    The functions are those of Core.v, Export.v and Api.v with these reads.  Filters that concern single modules are not considered. *)
From Verif.Model Require Import Py Core Export Api.

Section Warnings.
  Context (E : env) (r : conv) (warn : option pyexc).

  (** Reading a deprecated attribute (deprecated.py 15-24), then going on. *)
  Definition deprecated {A} (go : A) (stop : exn -> A) : A :=
    match warn with None => go | Some e => stop (XPy e) end.

  (** import_loop (transforms.py 63-178): the read is line 103, after the setters of computed fields have run (100-101). *)
  Definition w_import_loop (x : ictx) (fs : list (key * field)) (mut : pyval) (a : aliasing) (raw : pyval) : loop_out :=
    let fc := cv_field r in let pre := cv_pre r in
    let got := negb (is_none raw) in
    match (if truthy (cx_trusted x) then py_dict E (cx_trusted x) else Ok []) with
    | Raise e => LO mut raw (Raise e)
    | Ok data0 =>
        let '(mut1, raw1, rerrs) :=
          if got && cx_validate x then mutate E fc pre x a fs mut raw else (mut, raw, Ok []) in
        LO mut1 raw1
          (rbind rerrs (fun errs0 =>
           rbind (if got then deprecated (rogues E x fs raw1 errs0) Raise else Ok errs0) (fun errs1 =>
           rbind (import_fields E fc x got raw1 fs (data0, errs1)) (fun s =>
             let '(data, errors) := s in
             let data' := if cx_validate x then data else copy_settable E raw1 fs data in
             match errors with
             | [] => Ok data'
             | _ => Raise (XData errors data')
             end))))
    end.
  (** validate (validate.py 18-69).  Simplification: the reads of [_validator_functions] (91, 95) are left out; instances always give data to the loop
      (models.py 289), which then has raised already. *)
  Definition w_validate_fn (x : ictx) (mc : mclass) (mut : pyval) (a : aliasing) (raw : pyval) : loop_out :=
    let out := w_import_loop x (mc_fields mc) mut a raw in
    let finish errs data :=
      rbind (validate_model (mc_validators mc) (lo_mut out) (mc_fields mc) data) (fun '(d, e) =>
        match dupdate errs e with
        | [] => Ok d
        | errs' => Raise (XData errs' d)
        end) in
    LO (lo_mut out) (lo_raw out)
       match lo_res out with
       | Ok data => finish [] data
       | Raise (XData errs data) => finish errs data
       | Raise e => Raise e
       end.
  (** Model._convert (models.py 281-299). *)
  Definition w__convert (c : cid) (m : mdata pyval) (raw : pyval) (trusted : pyval) (w : kwargs) : mdata pyval * res (list (key * pyval)) :=
    match (if truthy raw then py_dict E raw else Ok (md_converted m)) with
    | Raise e => (m, Raise e)
    | Ok d0 =>
        let a0 := if truthy raw then NoAlias else AliasConverted in
        let '(m1, a1, d1, w1) :=
          match md_unsafe m with
          | [] => (m, a0, d0, w)
          | un => (md_set_unsafe m [], NoAlias, dupdate un d0,
                   KW (kw_mapping w) (kw_partial w) (kw_strict w) (kw_init_values w)
                      (kw_apply_defaults w) true (kw_validate w) (kw_recursive w))
          end in
        let x := kw_ctx w1 (if truthy trusted then trusted else VDict []) in
        let out := if kw_validate w
                   then w_validate_fn x (e_class E c) (VModel c m1) a1 (VDict d1)
                   else w_import_loop x (mc_fields (e_class E c)) (VModel c m1) a1 (VDict d1) in
        (match lo_mut out with VModel _ m2 => m2 | _ => m1 end, lo_res out)
    end.
  (** Model.validate (models.py 240-266). *)
  Definition w_validate (c : cid) (m : mdata pyval) (w : kwargs) : mdata pyval * option exn :=
    match md_converted m, kw_partial w with
    | [], true => (m, None)
    | _, _ =>
        let wv := KW (kw_mapping w) (kw_partial w) (kw_strict w) (kw_init_values w)
                     (kw_apply_defaults w) (kw_convert w) true (kw_recursive w) in
        let '(m1, rs) := w__convert c m VNone (VDict []) wv in
        let '(m2, oe) := match rs with
                         | Ok data => (md_set_valid m1 data, None)
                         | Raise (XData errs pd) => (md_set_valid m1 (dupdate (md_valid m1) pd), Some (XData errs pd))
                         | Raise e => (m1, Some e)
                         end in
        (md_set_converted m2 [], oe)
    end.
  (** Model.__init__ (models.py 221-238), lazy=False. *)
  Definition w_init (c : cid) (raw trusted : pyval) (w : kwargs) : res (mdata pyval) :=
    let valid := match trusted with VDict d => d | _ => [] end in
    let '(m1, rs) := w__convert c (MD [] [] valid None) raw trusted w in
    match rs with
    | Raise e => Raise e
    | Ok data =>
        let m2 := md_set_converted m1 data in
        if kw_validate w then
          let '(m3, oe) := w_validate c m2
             (KW no_mapping (kw_partial w) false (kw_init_values w) (kw_apply_defaults w) (kw_convert w) true (kw_recursive w)) in
          match oe with Some e => Raise e | None => Ok m3 end
        else Ok m2
    end.
  (** Model.import_data (models.py 268-279). *)
  Definition w_import_data (c : cid) (m : mdata pyval) (raw : pyval) (w : kwargs) : mdata pyval * option exn :=
    match py_dict E (VModel c m) with
    | Raise e => (m, Some e)
    | Ok td =>
        let '(m1, rs) := w__convert c m raw (VDict td) w in
        match rs with
        | Raise e => (m1, Some e)
        | Ok data =>
            let m2 := md_set_converted m1 (dupdate (md_converted m1) data) in
            if kw_validate w then w_validate c m2 (KW no_mapping false false false false false true false) else (m2, None)
        end
    end.
  (** Model.serialize (models.py 311-319): validation without its end (as in Api.v), then the export, which reads [schema._options]
      (transforms.py 249).  [fe] exports the values of fields. *)
  Definition w_serialize (fe : fspec -> pyval -> ectx -> res pyval) (c : cid) (m : mdata pyval) (x : ectx) : mdata pyval * res (list (key * pyval)) :=
    let '(m0, rs) := w__convert c m VNone (VDict []) (KW no_mapping false false false true true true false) in
    let '(m1, oe) := match rs with
                     | Ok data => (md_set_valid m0 data, None)
                     | Raise (XData errs pd) => (md_set_valid m0 (dupdate (md_valid m0) pd), Some (XData errs pd))
                     | Raise e => (m0, Some e)
                     end in
    let m2 := md_set_converted m1 [] in
    let fin := match deprecated (model_export_top E fe c m2 x) Raise with
               | Ok d => (md_set_converted m2 (md_converted m1), Ok d)
               | Raise e => (m2, Raise e)
               end in
    match oe with
    | None | Some (XData _ _) => fin
    | Some e => (m2, Raise e)
    end.
  (** Model.__setitem__ and assignment of attributes (models.py 389-393; 55-61; serializable.py 90-94): only plain fields read [_fields]. *)
  Definition w_setitem (c : cid) (m : mdata pyval) (x : key) (v : pyval) : mdata pyval * option exn :=
    match dget x (mc_fields (e_class E c)) with
    | Some (Fld _ None _) => deprecated (model_setitem E r c m x v) (fun e => (m, Some e))
    | _ => model_setitem E r c m x v
    end.
  (** Model.__contains__ (models.py 401-403): the second part only if the first does not hold. *)
  Definition w_contains (c : cid) (m : mdata pyval) (x : key) : res bool :=
    if chain_mem m x && match dget x (mc_fields (e_class E c)) with
                        | Some f => match field_get c m x f with Ok _ => true | Raise _ => false end
                        | None => false
                        end
    then Ok true
    else deprecated (Ok (model_contains E c m x)) Raise.
End Warnings.
