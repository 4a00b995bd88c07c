(** Schemas whose conversion can be repeated without effect. *)
From Verif.Model Require Import Py Core Export Api.
From Verif.Spec Require Import ImportSpec ValidateSpec.

(** Converting a converted value returns it, and conversion of a value never yields None. *)
Definition steady_leaf (l : leaf) : Prop :=
  forall v w, is_nil v = false -> lf_native l v = Ok w -> is_nil w = false /\ lf_native l w = Ok w.

(** The converted value resolves to the same member of the union. *)
Definition steady_union (E : env) (ms : list fspec) : Prop :=
  forall n x v m w, plain_ctx x -> is_nil v = false ->
    union_resolve (fun m u => cv_convert (conv_at E n) m u x) ms v = Ok (m, w) ->
    is_nil w = false /\ union_resolve (fun m u => cv_convert (conv_at E n) m u x) ms w = Ok (m, w).

(** An instance of the class found is allowed and resolves to that class. *)
Definition steady_poly (E : env) (p : polyspec) : Prop :=
  forall v c, find_model E p v = Ok c -> forall m,
    find_model E p (VModel c m) = Ok c /\ poly_allowed E p (VModel c m) = true.

Fixpoint steady_type (E : env) (t : ftype) : Prop :=
  match t with
  | TLeaf l => steady_leaf l
  | TUnion ms => steady_union E ms /\
      (fix all ms := match ms with [] => True | m :: r => steady E m /\ all r end) ms
  | TModel c => True
  | TPoly p => steady_poly E p
  | TList f => steady E f
  | TDict f ck => steady E f /\ forall y y', ck y = Ok y' -> ck y' = Ok y'
  end
with steady (E : env) (f : fspec) : Prop := match f with FS _ t => steady_type E t end.

(** A program all of whose classes have plain fields of steady types with distinct names and
    input keys that are not names of other fields. *)
Record steady_env (E : env) : Prop := {
  st_refl : forall c, e_issub E c c = true;
  st_nodup : forall c, NoDup (dkeys (fields_of E c));
  st_plain : forall c, plain_fields (fields_of E c);
  st_names : forall c, separate_names (fields_of E c) no_mapping;
  st_fields : forall c n f, In (n, f) (fields_of E c) -> steady E (fd_spec f);
  st_readonly : forall c, readonly_validators (mc_validators (e_class E c)) }.

(** Model level validators that only look at the data, not at the instance. *)
Definition data_validators (vfs : list (key * mvalidator)) : Prop :=
  forall n vf, In (n, vf) vfs -> forall mut1 mut2 data v, vf mut1 data v = vf mut2 data v.
