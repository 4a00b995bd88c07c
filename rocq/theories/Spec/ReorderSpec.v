(** What the order in which the fields of a class are declared may influence. *)
From Coq Require Import Permutation.
From Verif.Model Require Import Py Core Export Api.
From Verif.Spec Require Import ExportSpec PrimitiveSpec OrderSpec.

(** Two programs that differ in the order of the fields of their classes only. *)
Record reordered (E E' : env) : Prop := {
  ro_fields : forall c, Permutation (mc_fields (e_class E c)) (mc_fields (e_class E' c));
  ro_validators : forall c, mc_validators (e_class E c) = mc_validators (e_class E' c);
  ro_roles : forall c, mc_roles (e_class E c) = mc_roles (e_class E' c);
  ro_level : forall c, mc_level (e_class E c) = mc_level (e_class E' c);
  ro_claim : forall c, mc_claim (e_class E c) = mc_claim (e_class E' c);
  ro_issub : forall c d, e_issub E c d = e_issub E' c d;
  ro_subs : forall c, e_subs E c = e_subs E' c }.

(** No model instance in it. *)
Definition instance_free : pyval -> Prop := made_of (fun v => atomic v = true).

(** The members of unions have no parts. *)
Fixpoint leaf_unions (f : fspec) : Prop :=
  match f with FS _ t =>
    match t with
    | TUnion ms => forall m, In m ms -> exists o l, m = FS o (TLeaf l)
    | TList g | TDict g _ => leaf_unions g
    | TLeaf _ | TModel _ | TPoly _ => True
    end
  end.

(** The public names of a class. *)
Definition public_names (mc : mclass) : list key := map (fun p => sname_of (fst p) (fd_spec (snd p))) (mc_fields mc).

(** Classes where no field stands in the way of another one: public names are used once; getters give no instances and raise no
    error of the library; defaults are no instances; validators of the class do not change the data, and raise no CompoundError. *)
Record steady_class (mc : mclass) : Prop := {
  sc_names : NoDup (public_names mc);
  sc_unions : forall n f, In (n, f) (mc_fields mc) -> leaf_unions (fd_spec f);
  sc_defaults : forall n f, In (n, f) (mc_fields mc) -> instance_free (fo_default (fs_opts (fd_spec f)));
  sc_getters : forall n f g s, In (n, f) (mc_fields mc) -> fd_get f = Some g ->
    match g s with Ok v => instance_free v | Raise e => crash e end;
  sc_validators : forall n vf s d v, In (n, vf) (mc_validators mc) ->
    fst (vf s d v) = d /\ forall e, snd (vf s d v) <> Some (XCompound e) }.
Definition steady_env (E : env) : Prop := forall c, steady_class (e_class E c).

(** Classes whose fields are not read from each other's keys, and have no polymorphic type. *)
Record apart_class (mc : mclass) : Prop := {
  ac_keys : forall n f n' f', In (n, f) (mc_fields mc) -> In (n', f') (mc_fields mc) -> In n (input_keys n' (fd_spec f') no_mapping) -> n = n';
  ac_types : forall n f, In (n, f) (mc_fields mc) -> monomorphic (fd_spec f) }.
Definition apart_env (E : env) : Prop := forall c, apart_class (e_class E c).

(** ** Lists are given as lists *)
(** The layers of an instance. *)
Definition layers (m : mdata pyval) : list (list (key * pyval)) := [md_unsafe m; md_converted m; md_valid m].

Section Fit.
  Context (E : env).
  (** [fit f v]: no instance stands where the type asks for a list; in instances, this is so of everything a field can be read
      from.  (An instance given for a list becomes the list of its field names, in the order in which they are declared.) *)
  Inductive fit : fspec -> pyval -> Prop :=
  | fit_free f v : instance_free v -> fit f v
  | fit_leaf o l v : fit (FS o (TLeaf l)) v
  | fit_union o ms v : fit (FS o (TUnion ms)) v
  | fit_list o g l : (forall v, In v l -> fit g v) -> fit (FS o (TList g)) (VList l)
  | fit_tuple o g l : (forall v, In v l -> fit g v) -> fit (FS o (TList g)) (VTuple l)
  | fit_dict o g ck d : (forall y v, In (y, v) d -> fit g v) -> fit (FS o (TDict g ck)) (VDict d)
  | fit_model o c c' m :
      (forall L n v n' f, In L (layers m) -> In (n, v) L -> In (n', f) (mc_fields (e_class E c')) ->
        In n (input_keys n' (fd_spec f) no_mapping) -> fit (fd_spec f) v) ->
      fit (FS o (TModel c)) (VModel c' m)
  | fit_record o c d :
      (forall n v n' f, In (n, v) d -> In (n', f) (mc_fields (e_class E c)) ->
        In n (input_keys n' (fd_spec f) no_mapping) -> fit (fd_spec f) v) ->
      fit (FS o (TModel c)) (VDict d)
  | fit_claimed o p d :
      (forall c n v n' f, In (n, v) d -> In (n', f) (mc_fields (e_class E c)) ->
        In n (input_keys n' (fd_spec f) no_mapping) -> fit (fd_spec f) v) ->
      fit (FS o (TPoly p)) (VDict d)
  | fit_poly o p c m :
      (forall c' L n v n' f, In L (layers m) -> In (n, v) L -> In (n', f) (mc_fields (e_class E c')) ->
        In n (input_keys n' (fd_spec f) no_mapping) -> fit (fd_spec f) v) ->
      fit (FS o (TPoly p)) (VModel c m).

  (** The same for data read as the fields of a class, and for instances. *)
  Definition fit_layer (c : cid) (L : list (key * pyval)) : Prop := forall n v n' f, In (n, v) L ->
    In (n', f) (mc_fields (e_class E c)) -> In n (input_keys n' (fd_spec f) no_mapping) -> fit (fd_spec f) v.
  Definition fit_data (c : cid) (m : mdata pyval) : Prop := forall L, In L (layers m) -> fit_layer c L.
  Definition fit_input (c : cid) (raw : pyval) : Prop :=
    match raw with VDict d => fit_layer c d | VModel _ m => fit_data c m | _ => True end.
End Fit.
