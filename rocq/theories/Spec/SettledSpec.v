(** Values that need no conversion, for validate(convert=False). *)
From Verif.Model Require Import Py Core Export Api.
From Verif.Spec Require Import ImportSpec.

(** Conversion would leave the value as it is: at every depth, basic values already have their type, keys are as coerce_key
    makes them.  Instances of models are not among these values. *)
Inductive settled : fspec -> pyval -> Prop :=
| st_leaf o l v : lf_native l v = Ok v -> settled (FS o (TLeaf l)) v
| st_list o g l : (forall v, In v l -> v = VNone \/ v = VUndef \/ settled g v) -> settled (FS o (TList g)) (VList l)
| st_dict o g ck d : NoDup (dkeys d) -> (forall y v, In (y, v) d -> ck y = Ok y /\ (v = VNone \/ v = VUndef \/ settled g v)) ->
    settled (FS o (TDict g ck)) (VDict d)
| st_union o ms1 m ms2 v :
    (forall g, In g ms1 -> exists l t, fs_type g = TLeaf l /\ lf_native l v = Raise (XConv t)) -> settled m v ->
    settled (FS o (TUnion (ms1 ++ m :: ms2))) v.

(** What the fields of class [c] find in [d], and the defaults, need no conversion. *)
Definition settled_entries (E : env) (c : cid) (w : kwargs) (d : list (key * pyval)) : Prop :=
  forall n f, In (n, f) (fields_of E c) ->
    (forall y v, In y (accepted_names n (fd_spec f) (kw_mapping w)) -> In (y, v) d -> v = VNone \/ v = VUndef \/ settled (fd_spec f) v) /\
    (kw_apply_defaults w = true -> let v := fo_default (fs_opts (fd_spec f)) in v = VNone \/ v = VUndef \/ settled (fd_spec f) v).
(** So do the data to be validated and everything else that is visible in the instance. *)
Definition settled_instance (E : env) (c : cid) (w : kwargs) (m : mdata pyval) : Prop :=
  settled_entries E c w (md_converted m) /\ forall d, py_dict E (VModel c m) = Ok d -> settled_entries E c w d.

(** The options [w] with and without conversion. *)
Definition with_convert (w : kwargs) (b : bool) : kwargs :=
  KW (kw_mapping w) (kw_partial w) (kw_strict w) (kw_init_values w) (kw_apply_defaults w) b (kw_validate w) (kw_recursive w).

(** Types made of basic types, lists and dictionaries only, with conversions that change nothing when repeated. *)
Inductive stable_type : fspec -> Prop :=
| sb_leaf o l : (forall v w, lf_native l v = Ok w -> lf_native l w = Ok w) -> stable_type (FS o (TLeaf l))
| sb_list o g : stable_type g -> stable_type (FS o (TList g))
| sb_dict o g ck : (forall y z, ck y = Ok z -> ck z = Ok z) -> stable_type g -> stable_type (FS o (TDict g ck)).
