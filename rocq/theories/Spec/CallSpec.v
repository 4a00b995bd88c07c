(** The settings a call hands to the conversion of its fields. *)
From Verif.Model Require Import Py Core Export Api.

(** The keyword arguments of the call, each under its own name, and the trusted data. *)
Definition call_ctx (w : kwargs) (trusted : pyval) : ictx :=
  Ctx trusted (kw_mapping w) (kw_partial w) (kw_strict w) (kw_init_values w) (kw_apply_defaults w) (kw_convert w)
      (kw_validate w) true (kw_recursive w).
