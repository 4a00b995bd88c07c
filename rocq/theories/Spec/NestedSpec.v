(** How the options of an import reach nested models. *)
From Verif.Model Require Import Py Core Export Api.

(** The same options with another mapping. *)
Definition with_mapping (w : kwargs) (mp : mapping) : kwargs :=
  KW mp (kw_partial w) (kw_strict w) (kw_init_values w) (kw_apply_defaults w) (kw_convert w) (kw_validate w) (kw_recursive w).
(** The mappings for nested models in a mapping argument. *)
Definition nested_mappings (mp : mapping) : list (key * mapping) := match mp with Mapping _ b => b end.
(** The mapping meant for field [n]: the one listed for it, or none if there are no mappings for nested models. *)
Inductive nested_mapping (mp : mapping) (n : key) : mapping -> Prop :=
| nm_none : nested_mappings mp = [] -> nested_mapping mp n no_mapping
| nm_some s : dget n (nested_mappings mp) = Some s -> nested_mapping mp n s.
(** If the field is a union, its members are neither compound types nor unions. *)
Definition leaf_members (f : fspec) : Prop :=
  match fs_type f with TUnion ms => forall m, In m ms -> exists o l, m = FS o (TLeaf l) | _ => True end.
