(** Options that only add checks: strict, and partial=False. *)
From Verif.Model Require Import Py Core Export Api.

(** [w'] asks for no more than [w]: it may allow missing fields and unknown ones, the other options are the same. *)
Definition laxer (w w' : kwargs) : Prop :=
  exists p s, (kw_partial w = true -> p = true) /\ (s = true -> kw_strict w = true) /\
    w' = KW (kw_mapping w) p s (kw_init_values w) (kw_apply_defaults w) (kw_convert w) (kw_validate w) (kw_recursive w).

(** Computed fields do not raise errors of the library. *)
Definition calm_getters (E : env) : Prop := forall c n f g v e,
  In (n, f) (mc_fields (e_class E c)) -> fd_get f = Some g -> g v = Raise e -> e = XFuel \/ exists p, e = XPy p.
(** No computed field can be set. *)
Definition no_setters (E : env) : Prop := forall c n f, In (n, f) (mc_fields (e_class E c)) -> fd_set f = None.
