(** A program [E] and a later version [E2] of it, seen the other way round: data made for the later version reach the
    earlier one.  The classes of [E2] have the fields of those of [E], in any order, and any further fields. *)
From Verif.Model Require Import Py Core Export Api.
From Verif.Spec Require Import ImportSpec ValidateSpec PrimitiveSpec OrderSpec EvolveSpec.

Section Versions.
  Context (E E2 : env).

  (** A key some class has a use for in the later version only. *)
  Definition later_key (y : key) : Prop :=
    exists c, acceptable (fields_of E2 c) no_mapping y /\ ~ acceptable (fields_of E c) no_mapping y.

  (** Data as it comes from outside: no instances, no [Undefined].  If unknown keys are refused, it does not use such keys. *)
  Inductive sent (strict : bool) : pyval -> Prop :=
  | st_atom v : plain_object v -> sent strict v
  | st_list l : Forall (sent strict) l -> sent strict (VList l)
  | st_tuple l : Forall (sent strict) l -> sent strict (VTuple l)
  | st_dict d : (forall y v, In (y, v) d -> sent strict v /\ (strict = true -> ~ later_key y)) -> sent strict (VDict d).

  (** One layer [d] of the data of an instance of [c] in the later version and [e] in the earlier one: related values for the
      fields both have, nothing in [e] but these. *)
  Definition part (R : fspec -> pyval -> pyval -> Prop) (c : cid) (d e : list (key * pyval)) : Prop :=
    NoDup (dkeys d) /\ NoDup (dkeys e) /\ defined_dict d /\ defined_dict e /\
    (forall n f, In (n, f) (fields_of E c) -> both (R (fd_spec f)) (dget n d) (dget n e)) /\
    (forall y, ~ In y (dkeys (fields_of E2 c)) -> dget y d = None) /\
    (forall y, ~ In y (dkeys (fields_of E c)) -> dget y e = None).

  (** Values of a field in the later and in the earlier version: the same value; or, in converted data, lists, dictionaries
      and instances of related values. *)
  Inductive trim (strict : bool) : fspec -> pyval -> pyval -> Prop :=
  | tr_sent f v : sent strict v -> trim strict f v v
  | tr_undef f : trim strict f VUndef VUndef
  | tr_leaf o l v : trim strict (FS o (TLeaf l)) v v
  | tr_union o ms v : trim strict (FS o (TUnion ms)) v v
  | tr_list o g l m : Forall2 (trim strict g) l m -> trim strict (FS o (TList g)) (VList l) (VList m)
  | tr_dict o g ck d e : Forall2 (fun p q => fst p = fst q /\ trim strict g (snd p) (snd q)) d e ->
      trim strict (FS o (TDict g ck)) (VDict d) (VDict e)
  | tr_model o c b m n : md_unsafe m = [] -> md_unsafe n = [] -> part (trim true) b (md_converted m) (md_converted n) ->
      part (trim true) b (md_valid m) (md_valid n) -> trim strict (FS o (TModel c)) (VModel b m) (VModel b n).
  (** [n] holds what [m] does, apart from the new fields. *)
  Definition trim_data (c : cid) (m n : mdata pyval) : Prop :=
    md_unsafe m = [] /\ md_unsafe n = [] /\ part (trim true) c (md_converted m) (md_converted n) /\
    part (trim true) c (md_valid m) (md_valid n).

  (** Validators accept in the earlier version what they accept in the later one. *)
  Definition lenient (f : fspec) (g : vldr) : Prop := forall v w, trim true f v w -> g v = None -> g w = None.
  Definition lenient_opts (f : fspec) : Prop :=
    Forall (lenient f) (fo_validators (fs_opts f)) /\ (fo_default (fs_opts f) = VUndef \/ trim true f (fo_default (fs_opts f)) (fo_default (fs_opts f))).
  (** Unions of types without parts; no polymorphic fields. *)
  Inductive lenient_field : fspec -> Prop :=
  | lf_leaf o l : lenient_opts (FS o (TLeaf l)) -> lenient_field (FS o (TLeaf l))
  | lf_union o ms : lenient_opts (FS o (TUnion ms)) -> (forall m, In m ms -> exists o' l, m = FS o' (TLeaf l)) ->
      lenient_field (FS o (TUnion ms))
  | lf_model o c : lenient_opts (FS o (TModel c)) -> lenient_field (FS o (TModel c))
  | lf_list o g : lenient_opts (FS o (TList g)) -> lenient_field g -> lenient_field (FS o (TList g))
  | lf_dict o g ck : lenient_opts (FS o (TDict g ck)) -> lenient_field g -> lenient_field (FS o (TDict g ck)).
  Definition lenient_model (c : cid) (f : fspec) (vf : mvalidator) : Prop := forall m n d e v w,
    trim_data c m n -> part (trim true) c d e -> trim true f v w ->
    snd (vf (VModel c m) d v) = None -> snd (vf (VModel c n) e w) = None.

  (** What may have been added in the later version. *)
  Record adds : Prop := {
    ad_names : forall c, NoDup (dkeys (fields_of E c)) /\ NoDup (dkeys (fields_of E2 c));
    ad_plain : forall c, plain_fields (fields_of E2 c);
    ad_kept : forall c n f, In (n, f) (fields_of E c) -> In (n, f) (fields_of E2 c);
    (** no field is read from the key of another one *)
    ad_separate : forall c, separate_names (fields_of E2 c) no_mapping;
    ad_fields : forall c n f, In (n, f) (fields_of E c) -> lenient_field (fd_spec f);
    ad_checks : forall c, readonly_validators (mc_validators (e_class E c)) /\ readonly_validators (mc_validators (e_class E2 c)) /\
      (forall n f, In (n, f) (fields_of E c) -> dget n (mc_validators (e_class E2 c)) = dget n (mc_validators (e_class E c)) /\
         forall vf, dget n (mc_validators (e_class E c)) = Some vf -> lenient_model c (fd_spec f) vf);
    ad_classes : forall a b, e_issub E2 a b = e_issub E a b }.
End Versions.
