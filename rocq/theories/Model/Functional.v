(** The functional interface: schematics.transforms.convert, to_native and to_primitive (transforms.py 427-436) and
    schematics.validate.validate (validate.py 18-69), which work on a schema and a mapping without making an instance
    of the outermost model. *)
From Verif.Model Require Import Py Core Export Api.

(** The context such a call makes (transforms.py 67-88; validate.py 53-54 and 107-117): [oo] is false unless the caller
    asks for it (transforms.py 25-29), which is not modelled.  [validating] is the [validate] attribute: the function
    called, not the caller, chooses it. *)
Definition fn_ctx (validating : bool) (w : kwargs) (trusted : pyval) : ictx :=
  {| cx_trusted := if truthy trusted then trusted else VDict [];
     cx_mapping := kw_mapping w; cx_partial := kw_partial w;
     cx_strict := kw_strict w; cx_init_values := kw_init_values w;
     cx_apply_defaults := kw_apply_defaults w; cx_convert := kw_convert w;
     cx_validate := validating; cx_oo := false; cx_recursive := kw_recursive w |}.

(** [raw_data] defaults to [mutable] itself (transforms.py 63-64, validate.py 50-51). *)
Definition fn_raw (mut raw : pyval) : aliasing * pyval :=
  if is_none raw then (AliasSelf, mut) else (NoAlias, raw).

Section Functional.
  Context (E : env) (r : conv).

  (** convert(schema, mutable, raw_data, trusted_data=..., ...) (transforms.py 427-428). *)
  Definition fn_convert (c : cid) (mut raw trusted : pyval) (w : kwargs) : loop_out :=
    let '(a, raw') := fn_raw mut raw in
    import_loop E (cv_field r) (cv_pre r) (fn_ctx false w trusted) (mc_fields (e_class E c)) mut a raw'.

  (** validate(schema, mutable, raw_data, trusted_data=..., ...) (validate.py 18-69). *)
  Definition fn_validate (c : cid) (mut raw trusted : pyval) (w : kwargs) : loop_out :=
    let '(a, raw') := fn_raw mut raw in
    validate_fn E (cv_field r) (cv_pre r) (fn_ctx true w trusted) (e_class E c) mut a raw'.
End Functional.

(** to_native / to_primitive(schema, instance_or_dict, role=..., ...) (transforms.py 431-436). *)
Definition fn_export (E : env) (fe : fspec -> pyval -> ectx -> res pyval) (x : ectx) (c : cid) (v : pyval)
  : res (list (key * pyval)) := export_loop E fe x c v.
