(** A program [E] and a version [E2] of it in which fields have other names but keep the names under which they are
    known outside. *)
From Verif.Model Require Import Py Core Export Api.
From Verif.Spec Require Import ImportSpec ValidateSpec PrimitiveSpec OrderSpec.

Section Rename.
  (** [rho c n]: the new name of field [n] of class [c].  [used]: the keys that occur in data from outside. *)
  Context (E E2 : env) (rho : cid -> key -> key) (used : key -> bool).

  (** Data as it comes from outside: no instances, no [Undefined], only keys in use. *)
  Inductive outside : pyval -> Prop :=
  | os_atom v : plain_object v -> outside v
  | os_list l : Forall outside l -> outside (VList l)
  | os_tuple l : Forall outside l -> outside (VTuple l)
  | os_dict d : (forall y v, In (y, v) d -> used y = true /\ outside v) -> outside (VDict d).

  (** Data stored for the fields of [c] in both versions: the same entries under the old and the new names. *)
  Definition layer (R : fspec -> pyval -> pyval -> Prop) (c : cid) (d e : list (key * pyval)) : Prop :=
    Forall2 (fun p q => fst q = rho c (fst p) /\ is_undef (snd p) = false /\ is_undef (snd q) = false /\
                        exists f, In (fst p, f) (fields_of E c) /\ R (fd_spec f) (snd p) (snd q)) d e.

  (** Values of a field in both versions: the same, except that instances, and the partial data of failed imports, use
      the old and the new names.  [raw]: data from outside may have been stored without conversion. *)
  Inductive kin (raw : bool) : fspec -> pyval -> pyval -> Prop :=
  | kin_none f : kin raw f VNone VNone
  | kin_undef f : kin raw f VUndef VUndef
  | kin_leaf o l v : kin raw (FS o (TLeaf l)) v v
  | kin_union o ms v : kin raw (FS o (TUnion ms)) v v
  | kin_list o g l m : Forall2 (kin raw g) l m -> kin raw (FS o (TList g)) (VList l) (VList m)
  | kin_dict o g ck d e : Forall2 (fun p q => fst p = fst q /\ kin raw g (snd p) (snd q)) d e ->
      kin raw (FS o (TDict g ck)) (VDict d) (VDict e)
  | kin_model o c m n : md_unsafe m = [] -> md_unsafe n = [] -> layer (kin raw) c (md_converted m) (md_converted n) ->
      layer (kin raw) c (md_valid m) (md_valid n) -> kin raw (FS o (TModel c)) (VModel c m) (VModel c n)
  | kin_part o c d e : layer (kin raw) c d e -> kin raw (FS o (TModel c)) (VDict d) (VDict e)
  | kin_raw f v : raw = true -> outside v -> kin raw f v v.
  (** Instances of the two versions that hold the same data. *)
  Definition kin_data (raw : bool) (c : cid) (m n : mdata pyval) : Prop :=
    md_unsafe m = [] /\ md_unsafe n = [] /\ layer (kin raw) c (md_converted m) (md_converted n) /\
    layer (kin raw) c (md_valid m) (md_valid n).

  (** ** Outcomes *)
  (** The same exception; the partial data of a DataError is the same up to the names. *)
  Definition kin_exn (R : list (key * pyval) -> list (key * pyval) -> Prop) (e e2 : exn) : Prop :=
    match e, e2 with
    | XData errs d, XData errs2 d2 => errs2 = errs /\ R d d2
    | _, _ => e2 = e
    end.
  Inductive kin_res {A} (S : A -> A -> Prop) (R : list (key * pyval) -> list (key * pyval) -> Prop) : res A -> res A -> Prop :=
  | kr_ok a b : S a b -> kin_res S R (Ok a) (Ok b)
  | kr_raise e e2 : kin_exn R e e2 -> kin_res S R (Raise e) (Raise e2).
  (** The same exception or none. *)
  Definition kin_opt (R : list (key * pyval) -> list (key * pyval) -> Prop) (o o2 : option exn) : Prop :=
    match o, o2 with
    | None, None => True
    | Some e, Some e2 => kin_exn R e e2
    | _, _ => False
    end.

  (** ** The programs *)
  (** Options other than names.  Validators judge values that are the same up to the names in the same way. *)
  Definition ren_opts (f : fspec) (o o2 : fopts) : Prop :=
    fo_named o2 = fo_named o /\ fo_required o2 = fo_required o /\ fo_level o2 = fo_level o /\ fo_owner o2 = fo_owner o /\
    fo_default o2 = fo_default o /\ (fo_default o = VUndef \/ kin false f (fo_default o) (fo_default o)) /\
    Forall2 (fun g g2 => forall v w, kin false f v w -> g2 w = g v /\ forall errs d, g v <> Some (XData errs d))
            (fo_validators o) (fo_validators o2).
  (** The same type.  Unions of types without parts; no polymorphic fields. *)
  Inductive ren_field : fspec -> fspec -> Prop :=
  | rf_leaf o o2 l : ren_opts (FS o (TLeaf l)) o o2 -> ren_field (FS o (TLeaf l)) (FS o2 (TLeaf l))
  | rf_union o o2 ms : ren_opts (FS o (TUnion ms)) o o2 -> (forall m, In m ms -> exists o' l, m = FS o' (TLeaf l)) ->
      ren_field (FS o (TUnion ms)) (FS o2 (TUnion ms))
  | rf_model o o2 c : ren_opts (FS o (TModel c)) o o2 -> ren_field (FS o (TModel c)) (FS o2 (TModel c))
  | rf_list o o2 g g2 : ren_opts (FS o (TList g)) o o2 -> ren_field g g2 -> ren_field (FS o (TList g)) (FS o2 (TList g2))
  | rf_dict o o2 g g2 ck : ren_opts (FS o (TDict g ck)) o o2 -> ren_field g g2 ->
      ren_field (FS o (TDict g ck)) (FS o2 (TDict g2 ck)).

  (** A field under its new name: known outside by the same name, read from the same keys among those in use; no computed
      fields. *)
  Record ren_entry (c : cid) (n : key) (f : field) (n2 : key) (f2 : field) : Prop := {
    re_name : n2 = rho c n;
    re_type : ren_field (fd_spec f) (fd_spec f2);
    re_public : public_name n2 f2 = public_name n f;
    re_keys : filter used (accepted_names n2 (fd_spec f2) no_mapping) = filter used (accepted_names n (fd_spec f) no_mapping);
    re_plain : fd_get f = None /\ fd_set f = None /\ fd_get f2 = None /\ fd_set f2 = None }.
  (** validate_<field> methods: the same verdict, and the same changes of the data. *)
  Definition ren_check (c : cid) (f : fspec) (vf vf2 : mvalidator) : Prop := forall raw m m2 d e v w,
    kin_data raw c m m2 -> layer (kin false) c d e -> kin false f v w ->
    layer (kin false) c (fst (vf (VModel c m) d v)) (fst (vf2 (VModel c m2) e w)) /\
    snd (vf2 (VModel c m2) e w) = snd (vf (VModel c m) d v).
  (** Roles treat a field under its new name as under the old one. *)
  Definition ren_role (c : cid) (g g2 : rolefn) : Prop := forall n f v w, In (n, f) (fields_of E c) ->
    kin false (fd_spec f) v w -> g2 (rho c n) w = g n v.

  Record renames : Prop := {
    rn_inj : forall c x y, rho c x = rho c y -> x = y;
    rn_names : forall c, NoDup (dkeys (fields_of E c));
    rn_fields : forall c, Forall2 (fun p q => ren_entry c (fst p) (snd p) (fst q) (snd q)) (fields_of E c) (fields_of E2 c);
    rn_separate : forall c, separate_names (fields_of E c) no_mapping /\ separate_names (fields_of E2 c) no_mapping;
    rn_known : forall c y, used y = true -> (acceptable (fields_of E c) no_mapping y <-> acceptable (fields_of E2 c) no_mapping y);
    rn_checks : forall c n f, In (n, f) (fields_of E c) ->
      match dget n (mc_validators (e_class E c)), dget (rho c n) (mc_validators (e_class E2 c)) with
      | None, None => True
      | Some vf, Some vf2 => ren_check c (fd_spec f) vf vf2
      | _, _ => False
      end;
    rn_roles : forall c r,
      match dget r (mc_roles (e_class E c)), dget r (mc_roles (e_class E2 c)) with
      | None, None => True
      | Some g, Some g2 => ren_role c g g2
      | _, _ => False
      end;
    rn_level : forall c, mc_level (e_class E2 c) = mc_level (e_class E c);
    rn_classes : forall a b, e_issub E2 a b = e_issub E a b }.

  (** A role given as a function treats fields of all classes alike under both names. *)
  Definition ren_export (x : ectx) : Prop := forall g, ec_role x = RoleFn g -> forall c, ren_role c g g.
End Rename.
