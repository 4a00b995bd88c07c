(** What a value is exported to, at every depth and without reference to the recursion of the program. *)
From Verif.Model Require Import Py Core Export.
From Verif.Spec Require Import ImportSpec ValidateSpec CompoundSpec ExportSpec.

Section Deep.
  Context (E : env) (x : ectx).

  (** A member of a union that refuses [v] when the union is exported. *)
  Inductive declined (v : pyval) : fspec -> Prop :=
  | dc_leaf o l es : lf_native l v = Raise (XConv es) -> declined v (FS o (TLeaf l))
  | dc_union o ms : Forall (declined v) ms -> declined v (FS o (TUnion ms))
  | dc_model o c : (forall d, v <> VDict d) -> (forall c' m, v = VModel c' m -> e_issub E c' c = false) ->
      declined v (FS o (TModel c))
  | dc_list o g : elements E v = None -> declined v (FS o (TList g))
  | dc_dict o g ck : (forall d, v <> VDict d) -> declined v (FS o (TDict g ck)).

  (** A value of each type and its exported form.  The class of an instance, not the declared one, decides which
      fields there are. *)
  Inductive exports : fspec -> pyval -> pyval -> Prop :=
  | ex_leaf o l v w : leaf_form x l v = Ok w -> exports (FS o (TLeaf l)) v w
  | ex_union o pre m post v w : Forall (declined v) pre -> chosen m v -> exports m v w ->
      exports (FS o (TUnion (pre ++ m :: post))) v w
  | ex_instance o c c' m d : exports_object c' (VModel c' m) d -> exports (FS o (TModel c)) (VModel c' m) (VDict d)
  | ex_mapping o c v d : (forall c' m, v <> VModel c' m) -> exports_object c v d -> exports (FS o (TModel c)) v (VDict d)
  | ex_poly o p c m d : poly_allowed E p (VModel c m) = true -> exports_object c (VModel c m) d ->
      exports (FS o (TPoly p)) (VModel c m) (VDict d)
  | ex_list_drop o g v : level_in_force E g x 0 -> exports (FS o (TList g)) v (VList [])
  | ex_list o g v lvl l r : level_in_force E g x lvl -> lvl <> 0%Z -> iterated E v = Ok l -> exports_elems g lvl l r ->
      exports (FS o (TList g)) v (VList r)
  | ex_dict_drop o g ck v : level_in_force E g x 0 -> exports (FS o (TDict g ck)) v (VDict [])
  | ex_dict o g ck v lvl l r : level_in_force E g x lvl -> lvl <> 0%Z -> item_pairs E v = Ok l -> exports_entries g lvl l r ->
      exports (FS o (TDict g ck)) v (VDict (dupdate [] r))
  with exports_object : cid -> pyval -> list (key * pyval) -> Prop :=
  | ex_object c obj filt l : role_in_force E c x filt -> exports_fields filt obj (fields_of E c) l ->
      exports_object c obj (dupdate [] l)
  with exports_fields : option rolefn -> pyval -> list (key * field) -> list (key * pyval) -> Prop :=
  | xf_nil filt obj : exports_fields filt obj [] []
  | xf_hidden filt obj n f fs l : hidden filt n (reading E obj n) -> exports_fields filt obj fs l ->
      exports_fields filt obj ((n, f) :: fs) l
  | xf_drop filt obj n f fs l : level_in_force E (fd_spec f) x 0 -> exports_fields filt obj fs l ->
      exports_fields filt obj ((n, f) :: fs) l
  | xf_unshown filt obj n f fs l lvl w : ~ hidden filt n (reading E obj n) -> level_in_force E (fd_spec f) x lvl -> lvl <> 0%Z ->
      exports_value (fd_spec f) (reading E obj n) w -> ~ shown lvl (is_compound (fd_spec f)) w -> exports_fields filt obj fs l ->
      exports_fields filt obj ((n, f) :: fs) l
  | xf_put filt obj n f fs l lvl w : ~ hidden filt n (reading E obj n) -> level_in_force E (fd_spec f) x lvl ->
      exports_value (fd_spec f) (reading E obj n) w -> shown lvl (is_compound (fd_spec f)) w -> exports_fields filt obj fs l ->
      exports_fields filt obj ((n, f) :: fs) ((public_name n f, if is_undef w then VNone else w) :: l)
  with exports_value : fspec -> pyval -> pyval -> Prop :=
  | ev_nil f v : is_nil v = true -> exports_value f v v
  | ev_some f v w : is_nil v = false -> exports f v w -> exports_value f v w
  with exports_elems : fspec -> Z -> list pyval -> list pyval -> Prop :=
  | xe_nil g lvl : exports_elems g lvl [] []
  | xe_put g lvl v w l r : exports g v w -> (w = VNone -> (2 < lvl)%Z) ->
      (is_compound g = true -> empty_value w -> (1 < lvl)%Z) -> exports_elems g lvl l r -> exports_elems g lvl (v :: l) (w :: r)
  | xe_skip g lvl v w l r : exports g v w ->
      (w = VNone /\ (lvl <= 2)%Z \/ is_compound g = true /\ empty_value w /\ (lvl <= 1)%Z) ->
      exports_elems g lvl l r -> exports_elems g lvl (v :: l) r
  with exports_entries : fspec -> Z -> list (key * pyval) -> list (key * pyval) -> Prop :=
  | xn_nil g lvl : exports_entries g lvl [] []
  | xn_put g lvl y v w l r : exports g v w -> (w = VNone -> (2 < lvl)%Z) ->
      (is_compound g = true -> empty_value w -> (1 < lvl)%Z) -> exports_entries g lvl l r ->
      exports_entries g lvl ((y, v) :: l) ((y, w) :: r)
  | xn_skip g lvl y v w l r : exports g v w ->
      (w = VNone /\ (lvl <= 2)%Z \/ is_compound g = true /\ empty_value w /\ (lvl <= 1)%Z) ->
      exports_entries g lvl l r -> exports_entries g lvl ((y, v) :: l) r
  (** A member of a union that is taken for the export of [v]. *)
  with chosen : fspec -> pyval -> Prop :=
  | ch_leaf o l v u : lf_native l v = Ok u -> chosen (FS o (TLeaf l)) v
  | ch_union o pre m post v : Forall (declined v) pre -> chosen m v -> chosen (FS o (TUnion (pre ++ m :: post))) v
  | ch_none o p : chosen (FS o (TPoly p)) VNone
  | ch_list o g v l : elements E v = Some l -> each_exports g l -> chosen (FS o (TList g)) v
  | ch_dict o g ck d : each_exports g (map snd d) -> (forall y, In y (dkeys d) -> exists y', ck y = Ok y') ->
      chosen (FS o (TDict g ck)) (VDict d)
  with each_exports : fspec -> list pyval -> Prop :=
  | ee_nil g : each_exports g []
  | ee_cons g v w l : exports g v w -> each_exports g l -> each_exports g (v :: l).

  Scheme exports_mind := Minimality for exports Sort Prop
  with exports_object_mind := Minimality for exports_object Sort Prop
  with exports_fields_mind := Minimality for exports_fields Sort Prop
  with exports_value_mind := Minimality for exports_value Sort Prop
  with exports_elems_mind := Minimality for exports_elems Sort Prop
  with exports_entries_mind := Minimality for exports_entries Sort Prop
  with chosen_mind := Minimality for chosen Sort Prop
  with each_exports_mind := Minimality for each_exports Sort Prop.
  Combined Scheme exports_all from exports_mind, exports_object_mind, exports_fields_mind, exports_value_mind,
    exports_elems_mind, exports_entries_mind, chosen_mind, each_exports_mind.
End Deep.
