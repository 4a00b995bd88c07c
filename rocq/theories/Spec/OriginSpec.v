(** What the values in an instance are made of. *)
From Verif.Model Require Import Py Core Api.
From Verif.Spec Require Import ImportSpec.

(** Values that are not lists, tuples, dictionaries or instances. *)
Definition partless (v : pyval) : Prop := match v with VList _ | VTuple _ | VDict _ | VModel _ _ => False | _ => True end.
(** Every such value inside, at any depth and in any layer of an instance, has the property [A]; dictionaries have each key
    once. *)
Inductive made_of (A : pyval -> Prop) : pyval -> Prop :=
| mo_atom v : partless v -> A v -> made_of A v
| mo_list l : (forall v, In v l -> made_of A v) -> made_of A (VList l)
| mo_tuple l : (forall v, In v l -> made_of A v) -> made_of A (VTuple l)
| mo_dict d : NoDup (dkeys d) -> (forall y v, In (y, v) d -> made_of A v) -> made_of A (VDict d)
| mo_model c m : NoDup (dkeys (md_unsafe m)) -> NoDup (dkeys (md_converted m)) -> NoDup (dkeys (md_valid m)) ->
    (forall y v, In (y, v) (md_unsafe m ++ md_converted m ++ md_valid m) -> made_of A v) -> made_of A (VModel c m).
Definition entries (A : pyval -> Prop) (d : list (key * pyval)) : Prop :=
  NoDup (dkeys d) /\ forall y v, In (y, v) d -> made_of A v.

(** Exceptions whose partial data are made of such values, and results. *)
Definition fit_exn (A : pyval -> Prop) (e : exn) : Prop := forall errs pd, e = XData errs pd -> entries A pd.
Definition fit (A : pyval -> Prop) (r : res pyval) : Prop :=
  match r with Ok v => made_of A v | Raise e => fit_exn A e end.

(** A field, or one of its elements or members at any depth. *)
Inductive field_in : fspec -> fspec -> Prop :=
| fi_here f : field_in f f
| fi_member h o ms m : In m ms -> field_in h m -> field_in h (FS o (TUnion ms))
| fi_element h o g : field_in h g -> field_in h (FS o (TList g))
| fi_value h o g ck : field_in h g -> field_in h (FS o (TDict g ck)).

(** The functions of the program keep the property: the conversions of types, the defaults, validators, getters, setters,
    validate_<field> methods and claim functions.  None and Undefined have it, and so do the names of fields and the numbers
    in byte strings, which an instance or byte string given for a list consists of. *)
Record keeps (E : env) (A : pyval -> Prop) : Prop := {
  kp_fields : forall c, NoDup (dkeys (fields_of E c));
  kp_absent : A VNone /\ A VUndef;
  kp_names : forall c n f, In (n, f) (fields_of E c) -> A (key_val n);
  kp_bytes : forall b c, A (VBytes b) -> In c b -> A (VInt (Z.of_N c));
  kp_types : forall c n f o l v, In (n, f) (fields_of E c) -> field_in (FS o (TLeaf l)) (fd_spec f) -> made_of A v ->
    fit A (lf_native l v);
  kp_defaults : forall c n f, In (n, f) (fields_of E c) -> made_of A (fo_default (fs_opts (fd_spec f)));
  kp_validators : forall c n f h vd v e, In (n, f) (fields_of E c) -> field_in h (fd_spec f) ->
    In vd (fo_validators (fs_opts h)) -> made_of A v -> vd v = Some e -> fit_exn A e;
  kp_getters : forall c n f g v, In (n, f) (fields_of E c) -> fd_get f = Some g -> made_of A v -> fit A (g v);
  kp_setters : forall c n f s v w, In (n, f) (fields_of E c) -> fd_set f = Some s -> made_of A v -> made_of A w ->
    made_of A (fst (s v w));
  kp_methods : forall c n vf v d w, In (n, vf) (mc_validators (e_class E c)) -> made_of A v -> entries A d -> made_of A w ->
    entries A (fst (vf v d w));
  kp_claims : forall c cl v e, mc_claim (e_class E c) = Some cl -> made_of A v -> cl v = Raise e -> fit_exn A e }.

(** The life of an instance: created from data or lazily, then imported into, validated, assigned to and deleted from, with
    any settings; calls may fail and the instance is used on. *)
Inductive lives (E : env) (A : pyval -> Prop) (c : cid) : mdata pyval -> Prop :=
| lf_new n raw trusted w m : made_of A raw -> made_of A trusted -> model_init E (conv_at E n) c raw trusted w = Ok m -> lives E A c m
| lf_lazy raw trusted : entries A raw -> entries A trusted -> lives E A c (model_init_lazy raw trusted)
| lf_import n m raw w : lives E A c m -> made_of A raw -> lives E A c (fst (model_import_data E (conv_at E n) c m raw w))
| lf_validate n m w : lives E A c m -> lives E A c (fst (model_validate E (conv_at E n) c m w))
| lf_set n m y v : lives E A c m -> made_of A v -> lives E A c (fst (model_setitem E (conv_at E n) c m y v))
| lf_delete m y : lives E A c m -> lives E A c (fst (model_delitem E c m y)).
