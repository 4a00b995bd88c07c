(** What a mapping argument means: reading data with it is reading renamed data without it. *)
From Verif.Model Require Import Py Core Export Api.
From Verif.Spec Require Import ImportSpec ValidateSpec PrimitiveSpec.

(** The mapping in force inside field [n]: the one listed for it; when others are listed but not this one, the mapping of the
    instance around it; when none is listed, none. *)
Definition mapping_inside (mp : mapping) (n : key) : mapping :=
  match mp with
  | Mapping _ [] => Mapping [] []
  | Mapping _ l => match dget n l with Some m => m | None => mp end
  end.

(** A value that the type refuses whatever it contains, or that has no parts. *)
Definition unfit (t : ftype) (v : pyval) : Prop :=
  match t, v with
  | (TModel _ | TList _ | TDict _ _), VModel _ _ => False
  | TModel _, VDict _ => False
  | TList _, (VList _ | VTuple _ | VBytes _) => False
  | TDict _ _, VDict _ => False
  | TPoly _, _ => False
  | TUnion _, _ => False
  | _, _ => True
  end.

Section Renamed.
  Context (E : env) (strict : bool).

  (** The keys of the data that no field and no mapping mentions, in their order, are the same. *)
  Definition same_unknown (fs : list (key * field)) (mp mp' : mapping) (d e : list (key * pyval)) : Prop :=
    exists b b' : key -> bool, (forall y, b y = true <-> ~ acceptable fs mp y) /\ (forall y, b' y = true <-> ~ acceptable fs mp' y) /\
      filter b (dkeys d) = filter b' (dkeys e).

  (** [carried mp f v w]: [w] is [v] with the keys of data for model fields changed so that what [mp] makes a field find in [v] is
      found in [w] without a mapping.  Polymorphic fields are left out, and unions with members that have parts. *)
  Inductive carried : mapping -> fspec -> pyval -> pyval -> Prop :=
  | ca_nil mp f v : is_nil v = true -> carried mp f v v
  | ca_leaf mp o l v : carried mp (FS o (TLeaf l)) v v
  | ca_union mp o ms v : (forall m, In m ms -> exists o' l, m = FS o' (TLeaf l)) -> carried mp (FS o (TUnion ms)) v v
  | ca_list mp o g l l' : Forall2 (carried mp g) l l' -> carried mp (FS o (TList g)) (VList l) (VList l')
  | ca_tuple mp o g l l' : Forall2 (carried mp g) l l' -> carried mp (FS o (TList g)) (VTuple l) (VTuple l')
  | ca_bytes mp o g b : (forall z, carried mp g (VInt z) (VInt z)) -> carried mp (FS o (TList g)) (VBytes b) (VBytes b)
  | ca_dict mp o g ck d e : Forall2 (fun p q => fst p = fst q /\ carried mp g (snd p) (snd q)) d e ->
      carried mp (FS o (TDict g ck)) (VDict d) (VDict e)
  | ca_model mp o c d e : defined_dict d -> defined_dict e ->
      (strict = true -> same_unknown (fields_of E c) mp no_mapping d e) ->
      (forall n f, In (n, f) (fields_of E c) ->
         (supplied d n (fd_spec f) mp = None /\ supplied e n (fd_spec f) no_mapping = None /\
          carried (mapping_inside mp n) (fd_spec f) (fo_default (fs_opts (fd_spec f))) (fo_default (fs_opts (fd_spec f)))) \/
         exists v w, supplied d n (fd_spec f) mp = Some v /\ supplied e n (fd_spec f) no_mapping = Some w /\
           carried (mapping_inside mp n) (fd_spec f) v w) ->
      carried mp (FS o (TModel c)) (VDict d) (VDict e)
  | ca_other mp f v : unfit (fs_type f) v -> carried mp f v v.

  (** The data of an instance of class [c]. *)
  Definition renamed (mp : mapping) (c : cid) (d e : list (key * pyval)) : Prop :=
    carried mp (FS (FO false false VUndef None [] [] None None) (TModel c)) (VDict d) (VDict e).
End Renamed.

(** Data from outside: no instances and no [Undefined] inside. *)
Inductive external : pyval -> Prop :=
| ex_atom v : plain_object v -> external v
| ex_list l : (forall v, In v l -> external v) -> external (VList l)
| ex_tuple l : (forall v, In v l -> external v) -> external (VTuple l)
| ex_dict d : (forall y v, In (y, v) d -> external v) -> external (VDict d).

(** Programs without polymorphic fields and unions of types with parts; defaults have no parts. *)
Fixpoint mappable (f : fspec) : Prop :=
  match f with FS o t =>
    match t with
    | TLeaf _ | TModel _ => True
    | TUnion ms => forall m, In m ms -> exists o' l, m = FS o' (TLeaf l)
    | TPoly _ => False
    | TList g | TDict g _ => mappable g
    end
  end.
Record mappable_env (E : env) : Prop := {
  mm_names : forall c, NoDup (dkeys (fields_of E c));
  mm_separate : forall c, separate_names (fields_of E c) no_mapping;
  mm_types : forall c n f, In (n, f) (fields_of E c) -> mappable (fd_spec f);
  mm_defaults : forall c n f, In (n, f) (fields_of E c) ->
    plain_object (fo_default (fs_opts (fd_spec f))) \/ fo_default (fs_opts (fd_spec f)) = VUndef }.

(** The same call without the mapping. *)
Definition unmapped (w : kwargs) : kwargs :=
  KW no_mapping (kw_partial w) (kw_strict w) (kw_init_values w) (kw_apply_defaults w) (kw_convert w) (kw_validate w) (kw_recursive w).
