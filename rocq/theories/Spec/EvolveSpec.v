(** A program [E] and a later version [E2] of it, in which classes have got further, optional fields and may declare
    their fields in another order. *)
From Verif.Model Require Import Py Core Export Api.
From Verif.Spec Require Import ImportSpec ValidateSpec PrimitiveSpec OrderSpec.

Section Versions.
  Context (E E2 : env).

  (** A field the class has only in the later version. *)
  Definition new_field (c : cid) (n : key) (f : field) : Prop :=
    In (n, f) (fields_of E2 c) /\ ~ In n (dkeys (fields_of E c)).
  (** A key under which such a field may be supplied. *)
  Definition new_key (y : key) : Prop := exists c n f, new_field c n f /\ In y (accepted_names n (fd_spec f) no_mapping).

  (** A value the field takes as it is. *)
  Definition takes_as_is (f : fspec) (v : pyval) : Prop :=
    v = VNone \/
    v <> VUndef /\ Forall (fun g => g v = None) (fo_validators (fs_opts f)) /\
    match fs_type f with
    | TLeaf l => lf_native l v = Ok v
    | TList _ => v = VList []
    | TDict _ _ => v = VDict []
    | _ => False
    end.
  (** Not required, and with no default or a default the field takes as it is. *)
  Definition optional (f : fspec) : Prop :=
    fo_required (fs_opts f) = false /\ (fo_default (fs_opts f) = VUndef \/ takes_as_is f (fo_default (fs_opts f))).

  (** Data as it comes from outside: no instances, no [Undefined].  Unless [strict], it does not use the keys of the new
      fields. *)
  Inductive given (strict : bool) : pyval -> Prop :=
  | gv_atom v : plain_object v -> given strict v
  | gv_list l : Forall (given strict) l -> given strict (VList l)
  | gv_tuple l : Forall (given strict) l -> given strict (VTuple l)
  | gv_dict d : (forall y v, In (y, v) d -> given strict v /\ (strict = true \/ ~ new_key y)) -> given strict (VDict d).

  (** One layer of the data of an instance of [c] in both versions: related values for the fields both have, values the
      new fields take as they are, nothing else. *)
  Definition layer (R : fspec -> pyval -> pyval -> Prop) (c : cid) (d e : list (key * pyval)) : Prop :=
    NoDup (dkeys d) /\ NoDup (dkeys e) /\ defined_dict d /\ defined_dict e /\
    (forall n f, In (n, f) (fields_of E c) -> both (R (fd_spec f)) (dget n d) (dget n e)) /\
    (forall n f, new_field c n f -> dget n d = None /\ forall v, dget n e = Some v -> takes_as_is (fd_spec f) v) /\
    (forall y, ~ In y (dkeys (fields_of E2 c)) -> dget y d = None /\ dget y e = None).

  (** Values of a field in both versions: the same value; or, in converted data, lists, dictionaries and instances of
      related values. *)
  Inductive kin (strict : bool) : fspec -> pyval -> pyval -> Prop :=
  | kin_given f v : given strict v -> kin strict f v v
  | kin_undef f : kin strict f VUndef VUndef
  | kin_leaf o l v : kin strict (FS o (TLeaf l)) v v
  | kin_union o ms v : kin strict (FS o (TUnion ms)) v v
  | kin_list o g l m : Forall2 (kin strict g) l m -> kin strict (FS o (TList g)) (VList l) (VList m)
  | kin_dict o g ck d e : Forall2 (fun p q => fst p = fst q /\ kin strict g (snd p) (snd q)) d e ->
      kin strict (FS o (TDict g ck)) (VDict d) (VDict e)
  | kin_model o c b m n : md_unsafe m = [] -> md_unsafe n = [] -> layer (kin false) b (md_converted m) (md_converted n) ->
      layer (kin false) b (md_valid m) (md_valid n) -> kin strict (FS o (TModel c)) (VModel b m) (VModel b n).
  (** Instances of the two versions that hold the same data. *)
  Definition kin_data (c : cid) (m n : mdata pyval) : Prop :=
    md_unsafe m = [] /\ md_unsafe n = [] /\ layer (kin false) c (md_converted m) (md_converted n) /\
    layer (kin false) c (md_valid m) (md_valid n).

  (** Validators of values with parts accept in the later version what they accept in the earlier one. *)
  Definition tolerant (f : fspec) (g : vldr) : Prop := forall v w, kin false f v w -> g v = None -> g w = None.
  Definition tolerant_opts (f : fspec) : Prop :=
    Forall (tolerant f) (fo_validators (fs_opts f)) /\ (fo_default (fs_opts f) = VUndef \/ kin false f (fo_default (fs_opts f)) (fo_default (fs_opts f))).
  (** Unions of types without parts; no polymorphic fields. *)
  Inductive tolerant_field : fspec -> Prop :=
  | tf_leaf o l : tolerant_opts (FS o (TLeaf l)) -> tolerant_field (FS o (TLeaf l))
  | tf_union o ms : tolerant_opts (FS o (TUnion ms)) -> (forall m, In m ms -> exists o' l, m = FS o' (TLeaf l)) ->
      tolerant_field (FS o (TUnion ms))
  | tf_model o c : tolerant_opts (FS o (TModel c)) -> tolerant_field (FS o (TModel c))
  | tf_list o g : tolerant_opts (FS o (TList g)) -> tolerant_field g -> tolerant_field (FS o (TList g))
  | tf_dict o g ck : tolerant_opts (FS o (TDict g ck)) -> tolerant_field g -> tolerant_field (FS o (TDict g ck)).
  Definition tolerant_model (c : cid) (f : fspec) (vf : mvalidator) : Prop := forall m n d e v w,
    kin_data c m n -> layer (kin false) c d e -> kin false f v w ->
    snd (vf (VModel c m) d v) = None -> snd (vf (VModel c n) e w) = None.

  (** What may change from one version to the next. *)
  Record extends : Prop := {
    ex_names : forall c, NoDup (dkeys (fields_of E c)) /\ NoDup (dkeys (fields_of E2 c));
    ex_plain : forall c, plain_fields (fields_of E2 c);
    ex_kept : forall c n f, In (n, f) (fields_of E c) -> In (n, f) (fields_of E2 c);
    ex_new : forall c n f, new_field c n f -> optional (fd_spec f);
    (** the new fields do not take over keys in use, and no field is read from the key of another one *)
    ex_fresh : forall c n f y, new_field c n f -> In y (accepted_names n (fd_spec f) no_mapping) ->
      ~ acceptable (fields_of E c) no_mapping y;
    ex_separate : forall c, separate_names (fields_of E2 c) no_mapping;
    ex_fields : forall c n f, In (n, f) (fields_of E c) -> tolerant_field (fd_spec f);
    ex_checks : forall c, readonly_validators (mc_validators (e_class E c)) /\ readonly_validators (mc_validators (e_class E2 c)) /\
      (forall n f, In (n, f) (fields_of E c) -> dget n (mc_validators (e_class E2 c)) = dget n (mc_validators (e_class E c)) /\
         forall vf, dget n (mc_validators (e_class E c)) = Some vf -> tolerant_model c (fd_spec f) vf) /\
      (forall n f, new_field c n f -> dget n (mc_validators (e_class E2 c)) = None);
    ex_classes : forall a b, e_issub E2 a b = e_issub E a b }.
End Versions.

(** Keyword arguments of calls without mapping, with conversion. *)
Definition ordinary (w : kwargs) : Prop := kw_mapping w = no_mapping /\ kw_convert w = true.
