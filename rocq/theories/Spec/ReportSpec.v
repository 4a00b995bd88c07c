(** What data from outside can cause: which exceptions reach the caller of a model. *)
From Verif.Model Require Import Py Core Export Api Equality Num Types DateTime Enum Net Mongo.
From Verif.Spec Require Import ImportSpec FuelSpec OrderSpec.

(** Data built from [None], the values [A], lists, mappings and instances holding such data. *)
Section Built.
  Context (A : pyval -> Prop).
  Inductive built : pyval -> Prop :=
  | bu_none : built VNone
  | bu_atom v : atomic v = true -> v <> VUndef -> A v -> (forall b c, v = VBytes b -> In c b -> A (VInt (Z.of_N c))) -> built v
  | bu_list l : (forall v, In v l -> built v) -> built (VList l)
  | bu_tuple l : (forall v, In v l -> built v) -> built (VTuple l)
  | bu_dict d : (forall n v, In (n, v) d -> built v) -> built (VDict d)
  | bu_model c m : (forall n v, In (n, v) (md_unsafe m) -> built v) -> (forall n v, In (n, v) (md_converted m) -> built v) ->
      (forall n v, In (n, v) (md_valid m) -> built v) -> built (VModel c m).
  Definition all_built (d : list (key * pyval)) : Prop := forall n v, In (n, v) d -> built v.

  (** The library's own errors: ConversionError, ValidationError, CompoundError, DataError.  [cl]: the data an error
      carries are required to be built from [A] as well. *)
  Context (cl : bool).
  Definition own_error (e : exn) : Prop :=
    match e with
    | XConv _ | XValid _ _ | XCompound _ => True
    | XData _ d => cl = true -> all_built d
    | XPy _ | XFuel => False
    end.
  (** A function of the user's keeps to the rules. *)
  Definition keeps (r : res pyval) : Prop :=
    match r with Ok w => cl = true -> built w | Raise e => own_error e end.

  (** A value, or a mapping or an instance of a model, as opposed to other values. *)
  Definition a_mapping (v : pyval) : Prop := match v with VDict _ | VModel _ _ => True | _ => False end.

  (** A value the field's validators may be shown: what the field makes of data. *)
  Definition made_by (E : env) (f : fspec) (v : pyval) : Prop :=
    exists j u x, built u /\ cv_convert (conv_at E j) f u x = Ok v.
  Definition sound_validators (E : env) (f : fspec) : Prop :=
    forall g v e, In g (fo_validators (fs_opts f)) -> made_by E f v -> g v = Some e -> own_error e.

  (** Fields whose own parts raise only the library's errors when given such data.  [vb]: validation is asked for, which
      runs the validators, and gives a PolyModelType anything instead of mappings only. *)
  Context (E : env) (vb : bool).
  Inductive reporting : fspec -> Prop :=
  | re_leaf o l : (forall v, built v -> v <> VNone -> keeps (lf_native l v)) ->
      (vb = true -> sound_validators E (FS o (TLeaf l))) -> reporting (FS o (TLeaf l))
  | re_union o ms : (forall m, In m ms -> reporting m) -> reporting (FS o (TUnion ms))
  | re_model o c : (vb = true -> sound_validators E (FS o (TModel c))) -> reporting (FS o (TModel c))
  | re_poly o p : (forall v, built v -> vb = true \/ (exists d, v = VDict d) ->
        match find_model E p v with Ok _ => truthy v = true -> a_mapping v | Raise e => own_error e end) ->
      (vb = true -> sound_validators E (FS o (TPoly p))) -> reporting (FS o (TPoly p))
  | re_list o f : reporting f -> (vb = true -> sound_validators E (FS o (TList f))) -> reporting (FS o (TList f))
  | re_dict o f ck : reporting f -> (forall y e, ck y = Raise e -> own_error e) ->
      (vb = true -> sound_validators E (FS o (TDict f ck))) -> reporting (FS o (TDict f ck)).

  (** A program of such fields: no setters; getters give such data; defaults are such data; validate_<field> methods raise
      only ConversionError, ValidationError and DataError and take nothing out of the data. *)
  Record reporting_env : Prop := {
    rp_names : forall c, NoDup (dkeys (fields_of E c));
    rp_setters : forall c, no_setters (fields_of E c);
    rp_getters : forall c n f g, In (n, f) (fields_of E c) -> fd_get f = Some g ->
      forall m, built (VModel c m) -> exists v, g (VModel c m) = Ok v /\ built v;
    rp_keys : forall c n f, In (n, f) (fields_of E c) -> A (key_val n);
    rp_fields : forall c n f, In (n, f) (fields_of E c) -> reporting (fd_spec f);
    rp_defaults : forall c n f, In (n, f) (fields_of E c) -> fo_default (fs_opts (fd_spec f)) <> VUndef ->
      built (fo_default (fs_opts (fd_spec f)));
    rp_validators : vb = true -> forall c n vf, In (n, vf) (mc_validators (e_class E c)) -> forall mut d v,
      (cl = true -> all_built d) ->
      let '(d1, oe) := vf mut d v in
      (forall y, dmem y d = true -> dmem y d1 = true) /\ (cl = true -> all_built d1) /\
      match oe with None => True | Some e => mv_caught e <> None end }.
End Built.

(** The data of an instance. *)
Definition built_data (A : pyval -> Prop) (m : mdata pyval) : Prop :=
  all_built A (md_unsafe m) /\ all_built A (md_converted m) /\ all_built A (md_valid m).
(** The only exceptions: DataError, and RecursionError (when the stack is exhausted). *)
Definition data_error (e : exn) : Prop := (exists errs d, e = XData errs d) \/ e = XFuel.

(** ** The library's types *)

(** What JSON knows besides null, arrays and objects; no infinite number, and integers that fit into a float. *)
Definition json_atom (v : pyval) : Prop :=
  match v with
  | VBool _ | VStr _ => True
  | VInt z => exists f, float_of_int z = Ok f
  | VFloat f => forall s, f <> S754_infinity s
  | _ => False
  end.
(** Any value but the infinite floats. *)
Definition no_infinity (v : pyval) : Prop := forall s, v <> VFloat (S754_infinity s).

Section Library.
  Context (R : runtime).
  (** Types without parts, except FloatType, UUIDType and those for instants and durations. *)
  Inductive plain_leaf : leaf -> Prop :=
  | pl_string : plain_leaf string_leaf
  | pl_int strict : plain_leaf (int_type R strict)
  | pl_decimal : plain_leaf (decimal_type R)
  | pl_hash n : plain_leaf (hash_type R n)
  | pl_bool : plain_leaf bool_type
  | pl_geo : plain_leaf geo_type
  | pl_multi ctx dflt : plain_leaf (multi_type ctx dflt)
  | pl_date fmts : plain_leaf (date_type R fmts)
  | pl_enum c use_values : plain_leaf (enum_type R c use_values)
  | pl_mac : plain_leaf mac_type
  | pl_objectid B : plain_leaf (objectid_type R B).
  (** The library's validators and the types they are for; choices only for types without containers. *)
  Inductive own_check (E : env) : leaf -> vldr -> Prop :=
  | oc_length lo hi : own_check E string_leaf (validate_length lo hi)
  | oc_regex re : own_check E string_leaf (validate_regex re)
  | oc_text stop p m : own_check E string_leaf (text_validator stop p m)
  | oc_mac stop p m : own_check E mac_type (text_validator stop p m)
  | oc_int strict lo hi : (forall m, lo = Some m \/ hi = Some m -> num_of m <> None) -> own_check E (int_type R strict) (validate_range lo hi)
  | oc_float lo hi : (forall m, lo = Some m \/ hi = Some m -> num_of m <> None) -> own_check E (float_type R) (validate_range lo hi)
  | oc_geo : own_check E geo_type geo_range
  | oc_choices l n ch : plain_leaf l \/ l = float_type R -> l <> geo_type -> (forall a b, l <> multi_type a b) ->
      own_check E l (validate_choices E (S n) ch).
End Library.
