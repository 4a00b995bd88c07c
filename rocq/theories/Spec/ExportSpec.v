(** What exporting an instance means, field by field, without reference to the loop. *)
From Verif.Model Require Import Py Core Export.
From Verif.Spec Require Import ImportSpec ValidateSpec CompoundSpec.

(** The conversion of one value on export. *)
Definition exporter := fspec -> pyval -> ectx -> res pyval.

(** The export level in force: the one given in the call, else the field's own, else the one of the
    class that owns the field, else 10 (DEFAULT). *)
Inductive level_in_force (E : env) (f : fspec) (x : ectx) : Z -> Prop :=
| lv_call l : ec_level x = Some l -> level_in_force E f x l
| lv_field l : ec_level x = None -> fo_level (fs_opts f) = Some l -> level_in_force E f x l
| lv_class c : ec_level x = None -> fo_level (fs_opts f) = None -> fo_owner (fs_opts f) = Some c ->
    level_in_force E f x (mc_level (e_class E c))
| lv_default : ec_level x = None -> fo_level (fs_opts f) = None -> fo_owner (fs_opts f) = None ->
    level_in_force E f x 10.

(** The filter a role stands for.  A class without the named role is an error, or, if the caller asked
    for that, uses its role "default"; so does an export without a role. *)
Inductive role_in_force (E : env) (c : cid) (x : ectx) : option rolefn -> Prop :=
| rf_function g : ec_role x = RoleFn g -> role_in_force E c x (Some g)
| rf_named n g : ec_role x = RoleName n -> dget n (mc_roles (e_class E c)) = Some g -> role_in_force E c x (Some g)
| rf_unknown n : ec_role x = RoleName n -> dget n (mc_roles (e_class E c)) = None ->
    key_true n = false \/ ec_raise x = false ->
    role_in_force E c x (dget (k "default") (mc_roles (e_class E c)))
| rf_none : ec_role x = NoRole -> role_in_force E c x (dget (k "default") (mc_roles (e_class E c))).
Definition unknown_role (E : env) (c : cid) (x : ectx) : Prop :=
  exists n, ec_role x = RoleName n /\ dget n (mc_roles (e_class E c)) = None /\ key_true n = true /\ ec_raise x = true.

(** The value of field [n] of an instance or mapping; [VUndef] when there is none, also when computing it
    fails. *)
Definition reading (E : env) (obj : pyval) (n : key) : pyval :=
  match obj with
  | VDict d => match dget n d with Some v => v | None => VUndef end
  | VModel c m =>
      match dget n (fields_of E c) with
      | None => VUndef
      | Some f => match fd_get f with
                  | None => match chain_get m n with Some v => v | None => VUndef end
                  | Some g => match g obj with Ok v => v | Raise _ => VUndef end
                  end
      end
  | _ => VUndef
  end.

(** The role hides field [n] with value [v]. *)
Definition hidden (filt : option rolefn) (n : key) (v : pyval) : Prop := exists g, filt = Some g /\ g n v = true.

(** A value and its exported form; None and absent values are not converted. *)
Definition exported (fe : exporter) (f : fspec) (x : ectx) (v w : pyval) : Prop :=
  is_nil v = true /\ w = v \/ is_nil v = false /\ fe f v x = Ok w.

Definition empty_value (w : pyval) : Prop :=
  w = VList [] \/ w = VDict [] \/ w = VTuple [] \/ w = VStr [] \/ w = VBytes [].

(** Level 0 (DROP) shows nothing, up to 1 (NONEMPTY) hides empty compound values, up to 2 (NOT_NONE) hides
    None, up to 10 (DEFAULT) hides absent values. *)
Definition shown (lvl : Z) (compound : bool) (w : pyval) : Prop :=
  lvl <> 0%Z /\ (w = VUndef -> (10 < lvl)%Z) /\ (w = VNone -> (2 < lvl)%Z) /\
  (compound = true -> empty_value w -> (1 < lvl)%Z).

Section Fields.
  Context (E : env) (fe : exporter) (x : ectx) (filt : option rolefn) (obj : pyval).
  (** The value [w] is written for field [n]. *)
  Definition writes (n : key) (f : field) (w : pyval) : Prop :=
    ~ hidden filt n (reading E obj n) /\
    exists lvl w0, level_in_force E (fd_spec f) x lvl /\ exported fe (fd_spec f) x (reading E obj n) w0 /\
      shown lvl (is_compound (fd_spec f)) w0 /\ w = (if is_undef w0 then VNone else w0).
  (** Exporting field [n] raises [e]. *)
  Definition export_fails (n : key) (f : field) (e : exn) : Prop :=
    ~ hidden filt n (reading E obj n) /\ is_nil (reading E obj n) = false /\
    fe (fd_spec f) (reading E obj n) x = Raise e /\ exists lvl, level_in_force E (fd_spec f) x lvl /\ lvl <> 0%Z.

  (** What is written for the fields [fs], in their order. *)
  Inductive written : list (key * field) -> list (key * pyval) -> Prop :=
  | wr_nil : written [] []
  | wr_put n f w fs l : writes n f w -> written fs l -> written ((n, f) :: fs) ((public_name n f, w) :: l)
  | wr_skip n f fs l : (forall w, ~ writes n f w) -> (forall e, ~ export_fails n f e) -> written fs l ->
      written ((n, f) :: fs) l.
End Fields.

(** The values a loop over [v] runs through, and the pairs [v.items()] gives; exceptions when [v] has none. *)
Definition iterated (E : env) (v : pyval) : res (list pyval) :=
  match v with
  | VList l | VTuple l => Ok l
  | VStr s => Ok (map (fun c => VStr [c]) s)
  | VBytes b => Ok (map (fun c => VInt (Z.of_N c)) b)
  | VDict d => Ok (map key_val (dkeys d))
  | VModel c m => Ok (map key_val (model_iter E c m))
  | _ => Raise (XPy ETypeError)
  end.
Definition item_pairs (E : env) (v : pyval) : res (list (key * pyval)) :=
  match v with
  | VDict d => Ok d
  | VModel c m => Ok (map (fun n => (n, match chain_get m n with Some w => w | None => VUndef end)) (model_iter E c m))
  | _ => Raise (XPy EAttributeError)
  end.

(** The elements of a list and what is written for them. *)
Inductive written_elems (fe : exporter) (g : fspec) (x : ectx) (lvl : Z) : list pyval -> list pyval -> Prop :=
| we_nil : written_elems fe g x lvl [] []
| we_put v w l r : fe g v x = Ok w -> (w = VNone -> (2 < lvl)%Z) -> (is_compound g = true -> empty_value w -> (1 < lvl)%Z) ->
    written_elems fe g x lvl l r -> written_elems fe g x lvl (v :: l) (w :: r)
| we_skip v w l r : fe g v x = Ok w -> (w = VNone /\ (lvl <= 2)%Z \/ is_compound g = true /\ empty_value w /\ (lvl <= 1)%Z) ->
    written_elems fe g x lvl l r -> written_elems fe g x lvl (v :: l) r.

(** The entries of a dictionary and what is written for them. *)
Inductive written_entries (fe : exporter) (g : fspec) (x : ectx) (lvl : Z)
  : list (key * pyval) -> list (key * pyval) -> Prop :=
| wn_nil : written_entries fe g x lvl [] []
| wn_put y v w l r : fe g v x = Ok w -> (w = VNone -> (2 < lvl)%Z) -> (is_compound g = true -> empty_value w -> (1 < lvl)%Z) ->
    written_entries fe g x lvl l r -> written_entries fe g x lvl ((y, v) :: l) ((y, w) :: r)
| wn_skip y v w l r : fe g v x = Ok w -> (w = VNone /\ (lvl <= 2)%Z \/ is_compound g = true /\ empty_value w /\ (lvl <= 1)%Z) ->
    written_entries fe g x lvl l r -> written_entries fe g x lvl ((y, v) :: l) r.

(** ** Values a role does not distinguish *)

(** Two values of a field that differ only in fields the role hides, at any depth. *)
Inductive alike (E : env) (x : ectx) : fspec -> pyval -> pyval -> Prop :=
| al_same f v : alike E x f v v
| al_model o c c' m1 m2 : alike_instances E x c' (VModel c' m1) (VModel c' m2) ->
    alike E x (FS o (TModel c)) (VModel c' m1) (VModel c' m2)
| al_poly o p c' m1 m2 : alike_instances E x c' (VModel c' m1) (VModel c' m2) ->
    alike E x (FS o (TPoly p)) (VModel c' m1) (VModel c' m2)
| al_list o g l1 l2 : alike_lists E x g l1 l2 -> alike E x (FS o (TList g)) (VList l1) (VList l2)
| al_dict o g ck d1 d2 : dkeys d1 = dkeys d2 -> alike_lists E x g (map snd d1) (map snd d2) ->
    alike E x (FS o (TDict g ck)) (VDict d1) (VDict d2)
with alike_lists (E : env) (x : ectx) : fspec -> list pyval -> list pyval -> Prop :=
| all_nil g : alike_lists E x g [] []
| all_cons g v1 v2 l1 l2 : alike E x g v1 v2 -> alike_lists E x g l1 l2 -> alike_lists E x g (v1 :: l1) (v2 :: l2)
with alike_instances (E : env) (x : ectx) : cid -> pyval -> pyval -> Prop :=
| al_inst c o1 o2 :
    (forall filt n f, role_in_force E c x filt -> In (n, f) (fields_of E c) ->
       hidden filt n (reading E o1 n) /\ hidden filt n (reading E o2 n) \/
       ~ hidden filt n (reading E o1 n) /\ ~ hidden filt n (reading E o2 n) /\
         alike E x (fd_spec f) (reading E o1 n) (reading E o2 n)) ->
    alike_instances E x c o1 o2.

(** ** Values that survive export and import *)

(** The exported form of a value of a non-compound type. *)
Definition leaf_form (x : ectx) (l : leaf) (v : pyval) : res pyval :=
  match ec_fmt x with Native => lf_native l v | Primitive => lf_prim l v end.

(** Everything but absent values is written. *)
Definition writes_none (E : env) (f : fspec) (x : ectx) : Prop := forall lvl, level_in_force E f x lvl -> (2 < lvl)%Z.

(** Public names by which no other field can be supplied. *)
Definition clear_names (fs : list (key * field)) : Prop :=
  NoDup (map (fun p => public_name (fst p) (snd p)) fs) /\
  forall n f n' f', In (n, f) fs -> In (n', f') fs ->
    In (public_name n' f') (accepted_names n (fd_spec f) no_mapping) -> n' = n.

(** [restorable f v]: [v] is None where that is tolerated ([part]: missing values in model fields are), or
    every leaf of it has an exported form that converts back to it, every field is shown, and every model
    instance is of the class that conversion chooses and holds a value for each field. *)
Inductive restorable (E : env) (x : ectx) (part : bool) : fspec -> pyval -> Prop :=
| re_none f : (fo_required (fs_opts f) = true -> fo_named (fs_opts f) = true /\ part = true) -> restorable E x part f VNone
| re_leaf o l v p : is_nil v = false -> leaf_form x l v = Ok p -> is_nil p = false -> lf_native l p = Ok v ->
    restorable E x part (FS o (TLeaf l)) v
| re_union o ms v o' l w p m' : is_nil v = false -> union_resolve leaf_convert ms v = Ok (FS o' (TLeaf l), w) ->
    leaf_form x l v = Ok p -> is_nil p = false -> union_resolve leaf_convert ms p = Ok (m', v) ->
    restorable E x part (FS o (TUnion ms)) v
| re_list o g l : writes_none E g x -> (forall v, In v l -> restorable_elem E x part g v) ->
    restorable E x part (FS o (TList g)) (VList l)
| re_dict o g ck d : writes_none E g x -> NoDup (dkeys d) ->
    (forall y v, In (y, v) d -> ck y = Ok y /\ restorable_elem E x part g v) ->
    restorable E x part (FS o (TDict g ck)) (VDict d)
| re_model o c m : restorable_instance E x part c m -> restorable E x part (FS o (TModel c)) (VModel c m)
| re_poly o p c m : restorable_instance E x part c m ->
    (forall n d, export_loop E (export_at E n) x c (VModel c m) = Ok d -> find_model E p (VDict d) = Ok c) ->
    restorable E x part (FS o (TPoly p)) (VModel c m)
with restorable_elem (E : env) (x : ectx) (part : bool) : fspec -> pyval -> Prop :=
| el_some g v : is_nil v = false -> restorable E x part g v -> restorable_elem E x part g v
| el_none o l : fo_required o = false -> leaf_form x l VNone = Ok VNone -> restorable_elem E x part (FS o (TLeaf l)) VNone
with restorable_instance (E : env) (x : ectx) (part : bool) : cid -> mdata pyval -> Prop :=
| ri_instance c data : dkeys data = dkeys (fields_of E c) -> NoDup (dkeys data) ->
    (forall n f, In (n, f) (fields_of E c) -> exists v, dget n data = Some v /\ v <> VUndef /\
       (forall filt, role_in_force E c x filt -> ~ hidden filt n v) /\ writes_none E (fd_spec f) x /\
       restorable E x part (fd_spec f) v) ->
    restorable_instance E x part c (MD [] data [] None).

(** A program with plain fields and clear names. *)
Record clear_env (E : env) : Prop := {
  ce_plain : forall c, plain_fields (fields_of E c);
  ce_names : forall c, clear_names (fields_of E c) }.

(** Types all of whose converted values survive. *)
Definition restoring_leaf (x : ectx) (l : leaf) : Prop :=
  forall u v, is_nil u = false -> lf_native l u = Ok v ->
    is_nil v = false /\ exists p, leaf_form x l v = Ok p /\ is_nil p = false /\ lf_native l p = Ok v.
Definition restoring_union (x : ectx) (ms : list fspec) : Prop :=
  (forall m, In m ms -> exists o l, m = FS o (TLeaf l)) /\
  forall u m v, is_nil u = false -> union_resolve leaf_convert ms u = Ok (m, v) ->
    is_nil v = false /\ exists o l w p m', union_resolve leaf_convert ms v = Ok (FS o (TLeaf l), w) /\ leaf_form x l v = Ok p /\
      is_nil p = false /\ union_resolve leaf_convert ms p = Ok (m', v).
(** Inner fields of lists and dictionaries: required, or a leaf that exports None as None. *)
Definition inner_ok (x : ectx) (g : fspec) : Prop :=
  fo_named (fs_opts g) = false /\
  (fo_required (fs_opts g) = true \/ exists l, fs_type g = TLeaf l /\ leaf_form x l VNone = Ok VNone).
Fixpoint restoring_type (E : env) (x : ectx) (t : ftype) : Prop :=
  match t with
  | TLeaf l => restoring_leaf x l
  | TUnion ms => restoring_union x ms
  | TModel c => forall c', e_issub E c' c = true -> c' = c
  | TPoly p => False
  | TList f => inner_ok x f /\ writes_none E f x /\ restoring E x f
  | TDict f ck => inner_ok x f /\ writes_none E f x /\ restoring E x f /\ forall y y', ck y = Ok y' -> ck y' = Ok y'
  end
with restoring (E : env) (x : ectx) (f : fspec) : Prop := match f with FS _ t => restoring_type E x t end.

(** A value without the library's own [Undefined] sentinel inside. *)
Inductive clean : pyval -> Prop :=
| cn_list l : (forall v, In v l -> clean v) -> clean (VList l)
| cn_tuple l : (forall v, In v l -> clean v) -> clean (VTuple l)
| cn_dict d : (forall y v, In (y, v) d -> clean v) -> clean (VDict d)
| cn_model c m : (forall y v, chain_get m y = Some v -> clean v) -> clean (VModel c m)
| cn_other v : match v with VUndef | VList _ | VTuple _ | VDict _ | VModel _ _ => False | _ => True end -> clean v.

(** A program all of whose fields have such types and are shown under the given settings. *)
Record restoring_env (E : env) (x : ectx) : Prop := {
  rs_tidy : tidy_env E;
  rs_names : forall c, clear_names (fields_of E c);
  rs_shown : forall c n f filt v, In (n, f) (fields_of E c) -> role_in_force E c x filt -> ~ hidden filt n v;
  rs_levels : forall c n f, In (n, f) (fields_of E c) -> writes_none E (fd_spec f) x;
  rs_defaults : forall c n f, In (n, f) (fields_of E c) ->
    fo_default (fs_opts (fd_spec f)) = VUndef \/ clean (fo_default (fs_opts (fd_spec f)));
  rs_fields : forall c n f, In (n, f) (fields_of E c) -> restoring E x (fd_spec f) }.
