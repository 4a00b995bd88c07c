(** What the order in which the entries of dictionaries are given may influence. *)
From Verif.Model Require Import Py Core Export Api Types DateTime Enum Net.
From Verif.Spec Require Import ExportSpec PrimitiveSpec.

(** Both absent, or both present and related. *)
Inductive both {A} (R : A -> A -> Prop) : option A -> option A -> Prop :=
| both_none : both R None None
| both_some a b : R a b -> both R (Some a) (Some b).

(** The same keys, each once, with related values; the order of the entries is free. *)
Definition entries {A} (R : A -> A -> Prop) (d e : list (key * A)) : Prop :=
  NoDup (dkeys d) /\ NoDup (dkeys e) /\ forall x, both R (dget x d) (dget x e).

(** Values without parts. *)
Definition atomic (v : pyval) : bool :=
  match v with VList _ | VTuple _ | VDict _ | VModel _ _ => false | _ => true end.

Section Alike.
  (** The keys that occur, e.g. texts only as in JSON. *)
  Context (K : key -> Prop).
  Definition keyed {A} (R : A -> A -> Prop) (d e : list (key * A)) : Prop :=
    (forall x, In x (dkeys d) -> K x) /\ entries R d e.

  (** The same value, except for the order of the entries of the dictionaries in it, at any depth. *)
  Inductive alike : pyval -> pyval -> Prop :=
  | al_atom v : atomic v = true -> alike v v
  | al_list l m : Forall2 alike l m -> alike (VList l) (VList m)
  | al_tuple l m : Forall2 alike l m -> alike (VTuple l) (VTuple m)
  | al_dict d e : keyed alike d e -> alike (VDict d) (VDict e)
  | al_model c m n : keyed alike (md_unsafe m) (md_unsafe n) -> keyed alike (md_converted m) (md_converted n) ->
      keyed alike (md_valid m) (md_valid n) -> both (keyed alike) (md_hidden m) (md_hidden n) ->
      alike (VModel c m) (VModel c n).

  (** The same for the data of an instance. *)
  Definition alike_data (m n : mdata pyval) : Prop :=
    keyed alike (md_unsafe m) (md_unsafe n) /\ keyed alike (md_converted m) (md_converted n) /\
    keyed alike (md_valid m) (md_valid n) /\ both (keyed alike) (md_hidden m) (md_hidden n).

  (** The same errors under the same keys. *)
  Inductive alike_err : errnode -> errnode -> Prop :=
  | ae_conv ms : alike_err (NConv ms) (NConv ms)
  | ae_valid ms : alike_err (NValid ms) (NValid ms)
  | ae_msgs ms : alike_err (NMsgs ms) (NMsgs ms)
  | ae_text m : alike_err (NText m) (NText m)
  | ae_dict d e : entries alike_err d e -> alike_err (NDict d) (NDict e).

  (** The same error; exceptions that are not errors of the library ("crashes") only have to be crashes on both
      sides: which of several ends the call depends on what is converted first. *)
  Definition crash (e : exn) : Prop := match e with XPy _ | XFuel => True | _ => False end.
  Inductive alike_exn : exn -> exn -> Prop :=
  | ax_conv ms : alike_exn (XConv ms) (XConv ms)
  | ax_valid s ms : alike_exn (XValid s ms) (XValid s ms)
  | ax_compound d e : entries alike_err d e -> alike_exn (XCompound d) (XCompound e)
  | ax_data d e p q : entries alike_err d e -> keyed alike p q -> alike_exn (XData d p) (XData e q)
  | ax_crash a b : crash a -> crash b -> alike_exn a b.

  (** The same outcome of a call. *)
  Inductive alike_res {A} (R : A -> A -> Prop) : res A -> res A -> Prop :=
  | ar_ok a b : R a b -> alike_res R (Ok a) (Ok b)
  | ar_raise a b : alike_exn a b -> alike_res R (Raise a) (Raise b).

  (** ** Programs that do not look at the order *)
  (** Functions of the user and conversions of leaf types. *)
  Definition blind {A} (R : A -> A -> Prop) (f : pyval -> res A) : Prop :=
    forall v w, alike v w -> alike_res R (f v) (f w).
  Definition blind_validator (f : vldr) : Prop := forall v w, alike v w -> both alike_exn (f v) (f w).
  Definition blind_model_validator (f : mvalidator) : Prop := forall s t d e v w,
    alike s t -> keyed alike d e -> alike v w ->
    keyed alike (fst (f s d v)) (fst (f t e w)) /\ both alike_exn (snd (f s d v)) (snd (f t e w)).
  (** [coerce_key] keeps different keys apart. *)
  Definition keeps_apart (ck : key -> res key) : Prop :=
    (forall x, K x -> alike_res (fun a b => a = b /\ K a) (ck x) (ck x)) /\
    (forall x y z, K x -> K y -> ck x = Ok z -> ck y = Ok z -> x = y).

  Definition blind_opts (o : fopts) : Prop :=
    alike (fo_default o) (fo_default o) /\ Forall blind_validator (fo_validators o).
  Definition blind_poly (p : polyspec) : Prop :=
    match po_claim p with Some cl => forall v w, alike v w -> cl v = cl w | None => True end.
  Inductive blind_field : fspec -> Prop :=
  | bf_leaf o l : blind_opts o -> blind alike (lf_native l) -> blind_field (FS o (TLeaf l))
  | bf_union o ms : blind_opts o -> Forall blind_field ms -> blind_field (FS o (TUnion ms))
  | bf_model o c : blind_opts o -> blind_field (FS o (TModel c))
  | bf_poly o p : blind_opts o -> blind_poly p -> blind_field (FS o (TPoly p))
  | bf_list o f : blind_opts o -> blind_field f -> blind_field (FS o (TList f))
  | bf_dict o f ck : blind_opts o -> keeps_apart ck -> blind_field f -> blind_field (FS o (TDict f ck)).

  (** Every class: names used once and among the keys that occur, no computed field with a setter, and functions that do
      not look at the order of dictionaries. *)
  Record blind_class (mc : mclass) : Prop := {
    bc_names : NoDup (dkeys (mc_fields mc));
    bc_keys : forall n f, In (n, f) (mc_fields mc) -> K n;
    bc_fields : forall n f, In (n, f) (mc_fields mc) -> blind_field (fd_spec f);
    bc_setters : forall n f, In (n, f) (mc_fields mc) -> fd_set f = None;
    bc_getters : forall n f g, In (n, f) (mc_fields mc) -> fd_get f = Some g -> blind alike g;
    bc_validators : forall n f, In (n, f) (mc_validators mc) -> blind_model_validator f;
    bc_claim : forall g, mc_claim mc = Some g -> blind eq g }.
  Definition blind_env (E : env) : Prop := forall c, blind_class (e_class E c).

  (** ** Export *)
  (** Both succeed with related results, or both fail. *)
  Inductive agree {A} (R : A -> A -> Prop) : res A -> res A -> Prop :=
  | ag_ok a b : R a b -> agree R (Ok a) (Ok b)
  | ag_raise a b : agree R (Raise a) (Raise b).
  Definition blind_role (g : rolefn) : Prop := forall n v w, alike v w -> g n v = g n w.
  (** The export of a leaf type, of the values it has converted or accepts. *)
  Definition blind_form (x : ectx) (l : leaf) : Prop := forall v w, alike v w ->
    leaf_value l v \/ (exists u, lf_native l v = Ok u) -> agree alike (leaf_form x l v) (leaf_form x l w).
  Fixpoint blind_writer (x : ectx) (f : fspec) : Prop :=
    match f with FS _ t =>
      match t with
      | TLeaf l => blind_form x l
      | TUnion ms => forall m, In m ms -> exists o l, m = FS o (TLeaf l) /\ blind alike (lf_native l) /\ blind_form x l
      | TModel _ | TPoly _ => True
      | TList g | TDict g _ => blind_writer x g
      end
    end.
  Record blind_export (E : env) (x : ectx) : Prop := {
    be_fields : forall c n f, In (n, f) (mc_fields (e_class E c)) -> blind_writer x (fd_spec f);
    be_names : forall c n f, In (n, f) (mc_fields (e_class E c)) -> K (sname_of n (fd_spec f));
    be_roles : forall c n g, In (n, g) (mc_roles (e_class E c)) -> blind_role g;
    be_role : forall g, ec_role x = RoleFn g -> blind_role g }.
End Alike.

(** All keys are texts, as in JSON. *)
Definition text_key (x : key) : Prop := match x with KStr _ => True | KInt _ => False end.
(** Well formed values: dictionaries have every key once. *)
Definition sound_value (K : key -> Prop) (v : pyval) : Prop := alike K v v.

(** ** The types of the library *)
Section Library.
  Context (R : runtime).
  (** Parsers given by the user read texts, dates and other values without parts only. *)
  Definition reads_atoms {A} (f : pyval -> option A) : Prop := forall v, atomic v = false -> f v = None.
  Definition parser_reads_atoms (p : dt_parser) : Prop :=
    match p with PFormats f r => Forall reads_atoms (f :: r) | PExternal f => reads_atoms f | PBuiltin => True end.
  (** [str] of a list, tuple, dictionary or instance is not the text of a decimal number. *)
  Definition containers_are_no_numerals : Prop := forall v w, atomic v = false -> lf_native (decimal_type R) v <> Ok w.
  Inductive common_type : leaf -> Prop :=
  | ct_string : common_type string_leaf
  | ct_int strict : common_type (int_type R strict)
  | ct_float : common_type (float_type R)
  | ct_decimal : containers_are_no_numerals -> common_type (decimal_type R)
  | ct_hash n : common_type (hash_type R n)
  | ct_bool : common_type bool_type
  | ct_uuid : common_type (uuid_type R)
  | ct_geo : common_type geo_type
  | ct_multi ctx dflt : common_type (multi_type ctx dflt)
  | ct_date fmts : Forall reads_atoms fmts -> common_type (date_type R fmts)
  | ct_datetime o e : parser_reads_atoms (dt_how o) -> (forall f, e <> XCustom f) -> common_type (dt_type R o e)
  | ct_delta p : common_type (delta_type R p)
  | ct_enum c use_values : common_type (enum_type R c use_values)
  | ct_mac : common_type mac_type.
End Library.
