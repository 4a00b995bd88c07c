(** What exported data is made of. *)
From Verif.Model Require Import Py Core Export Api Types DateTime Enum Net.
From Verif.Spec Require Import ImportSpec ExportSpec.

(** Lists, tuples and dictionaries, at any depth, of None and values with the property [Q]. *)
Inductive made_of (Q : pyval -> Prop) : pyval -> Prop :=
| mo_none : made_of Q VNone
| mo_plain v : Q v -> made_of Q v
| mo_list l : (forall v, In v l -> made_of Q v) -> made_of Q (VList l)
| mo_tuple l : (forall v, In v l -> made_of Q v) -> made_of Q (VTuple l)
| mo_dict d : (forall y v, In (y, v) d -> made_of Q v) -> made_of Q (VDict d).

(** Booleans, numbers and texts: what JSON knows besides null, arrays and objects. *)
Definition scalar (v : pyval) : Prop := match v with VBool _ | VInt _ | VFloat _ | VStr _ => True | _ => False end.
(** Anything but a container, a model instance or the [Undefined] sentinel. *)
Definition plain_object (v : pyval) : Prop :=
  match v with VList _ | VTuple _ | VDict _ | VModel _ _ | VUndef => False | _ => True end.

Section Types.
  Context (E : env) (x : ectx) (Q : pyval -> Prop).
  (** A value a type without parts has converted, or None. *)
  Definition leaf_value (l : leaf) (v : pyval) : Prop := v = VNone \/ exists u, lf_native l u = Ok v.
  (** Such values are written as something made of [Q]. *)
  Definition leaf_gives (l : leaf) : Prop := forall v w, leaf_value l v -> leaf_form x l v = Ok w -> made_of Q w.
  (** A value that one member of a union has converted may be written by another one that accepts it. *)
  Definition union_gives (ms : list fspec) : Prop :=
    (forall m, In m ms -> exists o l, m = FS o (TLeaf l)) /\
    forall o l o' l' v w, In (FS o (TLeaf l)) ms -> In (FS o' (TLeaf l')) ms -> leaf_value l v ->
      (exists u, lf_native l' v = Ok u) -> leaf_form x l' v = Ok w -> made_of Q w.

  Fixpoint type_gives (t : ftype) : Prop :=
    match t with
    | TLeaf l => leaf_gives l
    | TUnion ms => union_gives ms
    | TModel _ | TPoly _ => True
    | TList g | TDict g _ => gives g
    end
  with gives (f : fspec) : Prop := match f with FS _ t => type_gives t end.

  (** A program all of whose fields have such types. *)
  Definition gives_env : Prop := forall c n f, In (n, f) (fields_of E c) -> gives (fd_spec f).
End Types.

(** [typed f v]: [v] has the form the type prescribes.  Of an instance, every value that can be read, stored or computed,
    is None or has the form prescribed. *)
Section Typed.
  Context (E : env).
  Inductive typed : fspec -> pyval -> Prop :=
  | ty_leaf o l u v : lf_native l u = Ok v -> typed (FS o (TLeaf l)) v
  | ty_union o ms m v : In m ms -> typed m v -> typed (FS o (TUnion ms)) v
  | ty_list o g l : (forall v, In v l -> v = VNone \/ typed g v) -> typed (FS o (TList g)) (VList l)
  | ty_dict o g ck d : (forall y v, In (y, v) d -> v = VNone \/ typed g v) -> typed (FS o (TDict g ck)) (VDict d)
  | ty_model o c c' m : typed_instance c' (VModel c' m) -> typed (FS o (TModel c)) (VModel c' m)
  | ty_poly o p c m : typed_instance c (VModel c m) -> typed (FS o (TPoly p)) (VModel c m)
  with typed_instance : cid -> pyval -> Prop :=
  | ty_instance c obj :
      (forall n f, In (n, f) (fields_of E c) -> is_nil (reading E obj n) = true \/ typed (fd_spec f) (reading E obj n)) ->
      typed_instance c obj.
End Typed.

(** No field is polymorphic, at any depth. *)
Fixpoint monomorphic (f : fspec) : Prop :=
  match f with FS _ t =>
    match t with
    | TPoly _ => False
    | TUnion ms => (fix all ms := match ms with [] => True | m :: r => monomorphic m /\ all r end) ms
    | TList g | TDict g _ => monomorphic g
    | _ => True
    end
  end.

(** The types of the library without parts and with their own export; formats and functions of the user for the export
    of datetimes excepted. *)
Section Library.
  Context (R : runtime).
  Inductive numeral : leaf -> Prop :=
  | nu_int strict : numeral (int_type R strict)
  | nu_float : numeral (float_type R).
  Inductive library_type : leaf -> Prop :=
  | li_string : library_type string_leaf
  | li_number l : numeral l -> library_type l
  | li_decimal : library_type (decimal_type R)
  | li_hash n : library_type (hash_type R n)
  | li_bool : library_type bool_type
  | li_uuid : library_type (uuid_type R)
  | li_geo : library_type geo_type
  | li_multi ctx dflt : library_type (multi_type ctx dflt)
  | li_date fmts : library_type (date_type R fmts)
  | li_datetime o e : (forall f, e <> XCustom f) -> library_type (dt_type R o e)
  | li_delta p : library_type (delta_type R p)
  | li_enum c use_values : library_type (enum_type R c use_values)
  | li_mac : library_type mac_type.

  (** Such types, also as parts of others; in a union, not DecimalType together with IntType or FloatType. *)
  Definition library_members (ms : list fspec) : Prop :=
    (forall m, In m ms -> exists o l, m = FS o (TLeaf l) /\ library_type l) /\
    forall o o' l, In (FS o (TLeaf (decimal_type R))) ms -> In (FS o' (TLeaf l)) ms -> ~ numeral l.
  Fixpoint library_ftype (t : ftype) : Prop :=
    match t with
    | TLeaf l => library_type l
    | TUnion ms => library_members ms
    | TModel _ | TPoly _ => True
    | TList g | TDict g _ => library_spec g
    end
  with library_spec (f : fspec) : Prop := match f with FS _ t => library_ftype t end.
  Definition library_env (E : env) : Prop := forall c n f, In (n, f) (fields_of E c) -> library_spec (fd_spec f).
End Library.
