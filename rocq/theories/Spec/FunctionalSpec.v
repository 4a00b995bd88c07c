(** Terms for comparing the functional interface with model instances. *)
From Verif.Model Require Import Py Core Export.

(** A value occurring in another, down through lists, tuples and dictionaries. *)
Inductive occurs (u : pyval) : pyval -> Prop :=
| oc_here : occurs u u
| oc_list : forall l w, In w l -> occurs u w -> occurs u (VList l)
| oc_tuple : forall l w, In w l -> occurs u w -> occurs u (VTuple l)
| oc_dict : forall d n w, In (n, w) d -> occurs u w -> occurs u (VDict d).

(** Data without model instances, as a parser of JSON would give it. *)
Definition no_instances (v : pyval) : Prop := forall c m, ~ occurs (VModel c m) v.

(** No default of any field contains an instance. *)
Definition plain_defaults (E : env) : Prop :=
  forall c n f, In (n, f) (mc_fields (e_class E c)) -> no_instances (fo_default (fs_opts (fd_spec f))).

(** [agree E f a b]: [a], held by a field of a model instance, and [b], held by the same field in a dictionary made by the
    functional interface, are the same data.  They are equal, except that an instance of a nested model has as its
    counterpart the dictionary of its fields, and an instance in a polymorphic field has as its counterpart an instance
    of the same class whose own fields may hold such dictionaries. *)
Inductive agree (E : env) : fspec -> pyval -> pyval -> Prop :=
| ag_same : forall f v, agree E f v v
| ag_model : forall o c d1 d2, agree_items E c d1 d2 ->
    agree E (FS o (TModel c)) (VModel c (MD [] d1 [] None)) (VDict d2)
| ag_poly : forall o p c d1 d2, agree_items E c d1 d2 ->
    agree E (FS o (TPoly p)) (VModel c (MD [] d1 [] None)) (VModel c (MD [] d2 [] None))
| ag_list : forall o g l1 l2, Forall2 (agree E g) l1 l2 -> agree E (FS o (TList g)) (VList l1) (VList l2)
| ag_dict : forall o g ck d1 d2,
    Forall2 (fun p q => fst p = fst q /\ agree E g (snd p) (snd q)) d1 d2 ->
    agree E (FS o (TDict g ck)) (VDict d1) (VDict d2)
| ag_union : forall o ms m v1 v2, In m ms -> agree E m v1 v2 -> agree E (FS o (TUnion ms)) v1 v2
with agree_items (E : env) : cid -> list (key * pyval) -> list (key * pyval) -> Prop :=
| ag_items : forall c d1 d2,
    Forall2 (fun p q => fst p = fst q /\
               (snd p = snd q \/
                exists f, In (fst p, f) (mc_fields (e_class E c)) /\ agree E (fd_spec f) (snd p) (snd q))) d1 d2 ->
    agree_items E c d1 d2.

(** The same failure: the data a DataError carries along is left out of the comparison. *)
Inductive same_failure : exn -> exn -> Prop :=
| sf_same : forall e, same_failure e e
| sf_data : forall errs pd1 pd2, same_failure (XData errs pd1) (XData errs pd2).

(** Classes of which all that is exported is what they store: no computed fields, distinct names. *)
Definition stored_fields (E : env) : Prop :=
  forall c, NoDup (dkeys (mc_fields (e_class E c))) /\
            forall n f, In (n, f) (mc_fields (e_class E c)) -> fd_get f = None.

(** A role that looks at names only. *)
Definition by_name (g : rolefn) : Prop := forall n v w, g n v = g n w.
Definition roles_by_name (E : env) (x : ectx) : Prop :=
  (forall g, ec_role x = RoleFn g -> by_name g) /\
  (forall c n g, In (n, g) (mc_roles (e_class E c)) -> by_name g).

(** The types inside a type. *)
Inductive part_of (g : fspec) : fspec -> Prop :=
| po_here : part_of g g
| po_list : forall o h, part_of g h -> part_of g (FS o (TList h))
| po_dict : forall o h ck, part_of g h -> part_of g (FS o (TDict h ck)).

(** Unions whose members are simple types. *)
Definition simple_unions (E : env) : Prop :=
  forall c n f g ms m, In (n, f) (mc_fields (e_class E c)) -> part_of g (fd_spec f) -> fs_type g = TUnion ms ->
    In m ms -> exists l, fs_type m = TLeaf l.
