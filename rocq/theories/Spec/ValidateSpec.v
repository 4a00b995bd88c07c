(** What validation means: field level validators, model level validators, validate(). *)
From Verif.Model Require Import Py Core Export Api.
From Verif.Spec Require Import CallSpec ImportSpec.

(** ** Field level validators *)

(** A validator either passes, complains, or complains and asks to stop; anything else it raises is
    not a validation error. *)
Definition passes (g : vldr) (v : pyval) : Prop := g v = None.
Definition complains (g : vldr) (v : pyval) (stop : bool) (ms : list emsg) : Prop := g v = Some (XValid stop ms).
Definition crashes (g : vldr) (v : pyval) (e : exn) : Prop := g v = Some e /\ (forall stop ms, e <> XValid stop ms).

(** Messages of a list of validators that do not ask to stop. *)
Inductive collected (v : pyval) : list vldr -> list emsg -> Prop :=
| col_nil : collected v [] []
| col_pass g gs ms : passes g v -> collected v gs ms -> collected v (g :: gs) ms
| col_fail g gs m ms : complains g v false m -> collected v gs ms -> collected v (g :: gs) (m ++ ms).

(** A field of any type but a union. *)
Definition not_union (f : fspec) : Prop := match fs_type f with TUnion _ => False | _ => True end.

(** ** Model level validators *)

(** What is recorded for an exception of a model level validator: the messages of a field error, the
    error dictionary of a DataError. *)
Inductive recorded : exn -> errnode -> Prop :=
| rec_conv ms : recorded (XConv ms) (NMsgs ms)
| rec_valid stop ms : recorded (XValid stop ms) (NMsgs ms)
| rec_data errs pd : recorded (XData errs pd) (NDict errs).

(** The calls made for the fields [fs] in order: field [n]'s validator is called iff there is one and the
    data then holds a value for it, with the data as its predecessors left it.  The last argument lists
    the fields whose validator raised, with what is recorded. *)
Inductive call_seq (vfs : list (key * mvalidator)) (mut : pyval)
  : list (key * field) -> list (key * pyval) -> list (key * pyval) -> list (key * field * errnode) -> Prop :=
| cs_nil d : call_seq vfs mut [] d d []
| cs_skip n f fs d d' o : dget n vfs = None \/ dget n d = None \/ dget n d = Some VUndef ->
    call_seq vfs mut fs d d' o -> call_seq vfs mut ((n, f) :: fs) d d' o
| cs_pass n f fs vf v d d1 d' o : dget n vfs = Some vf -> dget n d = Some v -> v <> VUndef ->
    vf mut d v = (d1, None) -> call_seq vfs mut fs d1 d' o -> call_seq vfs mut ((n, f) :: fs) d d' o
| cs_object n f fs vf v d d1 d' o e nd : dget n vfs = Some vf -> dget n d = Some v -> v <> VUndef ->
    vf mut d v = (d1, Some e) -> recorded e nd -> call_seq vfs mut fs d1 d' o ->
    call_seq vfs mut ((n, f) :: fs) d d' ((n, f, nd) :: o).

(** Validators that do not write to the data they are given. *)
Definition readonly_validators (vfs : list (key * mvalidator)) : Prop :=
  forall n vf, In (n, vf) vfs -> forall mut data v, fst (vf mut data v) = data.

(** The validator of field [n] is called and raises [e]. *)
Definition objects (vfs : list (key * mvalidator)) (mut : pyval) (data : list (key * pyval)) (n : key) (e : exn) : Prop :=
  exists v vf, dget n data = Some v /\ v <> VUndef /\ dget n vfs = Some vf /\ snd (vf mut data v) = Some e.

(** ** validate() *)

(** No layer of the instance stores the [Undefined] sentinel. *)
Definition defined_layers (m : mdata pyval) : Prop :=
  defined_dict (md_unsafe m) /\ defined_dict (md_converted m) /\ defined_dict (md_valid m).

(** The instance with the lazily stored data removed. *)
Definition vbase (m : mdata pyval) : mdata pyval := MD [] (md_converted m) (md_valid m) (md_hidden m).
(** The data validate() looks at. *)
Definition vinput E c (m : mdata pyval) : list (key * pyval) :=
  dupdate (dupdate (md_unsafe m) (md_converted m)) (model_items E c (vbase m)).
(** The keyword arguments in force. *)
Definition vkw (m : mdata pyval) (w : kwargs) : kwargs :=
  KW (kw_mapping w) (kw_partial w) (kw_strict w) (kw_init_values w) (kw_apply_defaults w)
     (kw_convert w || nonempty (md_unsafe m)) true (kw_recursive w).
Definition vctx m w := call_ctx (vkw m w) (VDict []).
(** The instance as the model level validators see it. *)
Definition vmut E c (m : mdata pyval) : pyval :=
  VModel c (MD [] (match md_unsafe m with [] => vinput E c m | _ => md_converted m end) (md_valid m) (md_hidden m)).

(** No field's alternative input key is the name of another field. *)
Definition separate_names (fs : list (key * field)) (mp : mapping) : Prop :=
  forall n f n' f', In (n, f) fs -> In (n', f') fs ->
    In n' (accepted_names n (fd_spec f) mp) -> n' = n.

(** A program whose classes have distinct field names, no computed fields, and model level validators
    that do not write to the data. *)
Record tidy_env (E : env) : Prop := {
  ti_nodup : forall c, NoDup (dkeys (fields_of E c));
  ti_plain : forall c, plain_fields (fields_of E c);
  ti_readonly : forall c, readonly_validators (mc_validators (e_class E c)) }.

(** A context without trusted data and mapping, converting to model instances. *)
Definition plain_ctx (x : ictx) : Prop :=
  cx_trusted x = VDict [] /\ cx_mapping x = no_mapping /\ cx_convert x = true /\ cx_oo x = true.

(** ** Values that are right at every depth *)
Section Sound.
  Context (E : env).
  (** [part]: missing values are tolerated in model fields; [chk]: validators have been run. *)
  Context (part chk : bool).
  Definition checked (gs : list vldr) (v : pyval) : Prop := chk = true -> forall g, In g gs -> passes g v.

  (** [sound f v]: [v] is nothing and need not be there, or has the form the type prescribes and has
      passed the validators.  [VUndef] stands for an absent value. *)
  Inductive sound : fspec -> pyval -> Prop :=
  | so_nil f v : is_nil v = true ->
      (fo_required (fs_opts f) = true -> fo_named (fs_opts f) = true /\ part = true) -> sound f v
  | so_some f v : fits f v -> sound f v
  with fits : fspec -> pyval -> Prop :=
  | fi_some o t v : shape t v -> (match t with TUnion _ => True | _ => checked (fo_validators o) v end) -> fits (FS o t) v
  with shape : ftype -> pyval -> Prop :=
  | sh_leaf l u v : lf_native l u = Ok v -> shape (TLeaf l) v
  | sh_union ms m v : In m ms -> fits m v -> shape (TUnion ms) v
  | sh_list g l : (forall v, In v l -> sound g v) -> shape (TList g) (VList l)
  | sh_dict g ck d : NoDup (dkeys d) ->
      (forall y v, In (y, v) d -> sound g v /\ exists y0, ck y0 = Ok y) -> shape (TDict g ck) (VDict d)
  | sh_model c c' m : e_issub E c' c = true -> sound_model c' m -> shape (TModel c) (VModel c' m)
  | sh_poly p c m u : find_model E p u = Ok c -> sound_model c m -> shape (TPoly p) (VModel c m)
  | sh_poly_given p v : chk = false -> poly_allowed E p v = true -> shape (TPoly p) v
  with sound_model : cid -> mdata pyval -> Prop :=
  | so_model c data :
      (forall n f, In (n, f) (fields_of E c) ->
         sound (fd_spec f) (match dget n data with Some v => v | None => VUndef end)) ->
      (forall y, In y (dkeys data) -> In y (dkeys (fields_of E c))) ->
      (chk = true -> forall n f e, In (n, f) (fields_of E c) ->
         ~ objects (mc_validators (e_class E c)) (VModel c md_empty) data n e) ->
      sound_model c (MD [] data [] None).
End Sound.

(** No getter raises DataError itself. *)
Definition quiet_getters (E : env) : Prop := forall c n f g v errs pd,
  In (n, f) (fields_of E c) -> fd_get f = Some g -> g v <> Raise (XData errs pd).
