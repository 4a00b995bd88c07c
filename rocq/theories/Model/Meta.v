(** Class definition: schematics/models.py 70-145 (ModelMeta), schema.py 13-53 (Schema,
    SchemaOptions), and what happens to field objects on the way: base.py 229-241
    ([__deepcopy__], [_setup]), compound.py 43-47 ([CompoundType._setup]),
    serializable.py 77-78, 103-104. *)
From Verif.Model Require Import Py Core Export.

(** ** Field objects *)

(** Identity of a field object. (runtime) *)
Definition addr := nat.

(** What a field object is, other than its options: as [ftype] (Core.v), but the element field of
    a ListType or DictType (compound.py 190, 289: [self.field]) is a reference to another object.
    Simplification: the members of a union (union.py 50-55) are held as descriptions, not as references; making
    classes does not touch them ([_setup] is not called for them, and a copy shares them), unless one of them
    is at the same time a field of a class. *)
Inductive kind :=
| KLeaf (l : leaf)
| KUnion (ms : list fspec)
| KModel (c : cid)
| KPoly (p : polyspec)
| KList (i : addr)
| KDict (i : addr) (ck : key -> res key).

(** A field object (base.py 184-215): [_position_hint] (line 206), the options, the kind.
    [name] is represented by [fo_named] (is it None or not; Core.v uses the key of the
    schema's dictionary as the name) and [owner_model] by [fo_owner]. *)
Record fobj := FObj { ob_pos : Z; ob_opts : fopts; ob_kind : kind }.

(** The field objects of the program, in order of creation. (runtime) *)
Definition heap := list fobj.

(** [self.field], where there is one (compound.py 45: [hasattr(self, 'field')]). *)
Definition inner_of (t : kind) : option addr :=
  match t with KList i | KDict i _ => Some i | _ => None end.

(** Change the object at an address. (runtime) *)
Fixpoint hupd (h : heap) (a : addr) (f : fobj -> fobj) : heap :=
  match h, a with
  | [], _ => []
  | o :: r, O => f o :: r
  | o :: r, S b => o :: hupd r b f
  end.

(** [self.name = field_name; self.owner_model = owner_model] (base.py 239-240).  The cached
    [_input_keys] (line 241) is a function of the options and the name. *)
Definition set_up (named : bool) (c : cid) (o : fobj) : fobj :=
  let p := ob_opts o in
  FObj (ob_pos o)
       (FO named (fo_required p) (fo_default p) (fo_sname p) (fo_dfrom p) (fo_validators p) (fo_level p) (Some c))
       (ob_kind o).

(** [_setup(field_name, owner_model)]: BaseType (base.py 235-241) and CompoundType
    (compound.py 43-47), which sets up its element field first, without a name.  ModelType
    (compound.py 133-140) also resolves a model given by name; here models are given as
    classes.  The first argument bounds the depth; an element field is created before the field
    that holds it, so the size of the heap suffices. *)
Fixpoint setup (n : nat) (h : heap) (a : addr) (named : bool) (c : cid) : heap :=
  match n with
  | O => h
  | S m =>
      match nth_error h a with
      | None => h
      | Some o =>
          let h1 := match inner_of (ob_kind o) with Some i => setup m h i false c | None => h end in
          hupd h1 a (set_up named c)
      end
  end.

(** ** Schemas and classes *)

(** A value of [Schema.fields] (schema.py 20): a field object, or a Serializable
    (serializable.py 70-75) with its type object, getter and setter. *)
Record entry := En {
  en_type : addr;
  en_get : option (pyval -> res pyval);
  en_set : option (pyval -> pyval -> pyval * option exn) }.

(** SchemaOptions (schema.py 33-53). *)
Record sopts := SO {
  so_namespace : option pstr;
  so_roles : list (key * rolefn);
  so_level : Z;
  so_order : bool;
  so_extras : list (key * pyval) }.

(** [SchemaOptions()] (schema.py 35-48): also what an empty [options_members] gives. *)
Definition sopts_default : sopts := SO None [] DEFAULT false [].

(** What the metaclass leaves behind: bases, [_schema.fields], [_schema.options],
    [_schema.validators] (models.py 120-121), and the [_claim_polymorphic] attribute. *)
Record cls := Cls {
  cl_bases : list cid;
  cl_fields : list (key * entry);
  cl_opts : sopts;
  cl_validators : list (key * mvalidator);
  cl_claim : option (pyval -> res bool) }.

(** The state of the program: field objects and classes, the n-th class having identity n. *)
Record program := Prog { p_heap : heap; p_classes : list cls }.

(** The class with an identity; [None]: a base without [_schema] (models.py 88). *)
Definition class_at (P : program) (c : cid) : option cls := nth_error (p_classes P) (N.to_nat c).

(** ** Defining a class *)

(** An entry of the class body [attrs] (models.py 94-100): a field, a Serializable, a function
    or classmethod, anything else. *)
Inductive attr :=
| AField (a : addr)
| ACalc (a : addr) (g : pyval -> res pyval) (s : option (pyval -> pyval -> pyval * option exn))
| AFun (v : mvalidator)
| AOther (v : pyval).

(** A member of the class's own [Options] (models.py 130-144), in the order of
    [inspect.getmembers].  Members starting with two underscores are skipped by the code and do
    not occur here; members with one are extras; members unknown to SchemaOptions (a TypeError)
    do not occur. *)
Inductive optmember :=
| OExtra (x : key) (v : pyval)
| ORoles (r : list (key * rolefn))
| OLevel (l : Z)
| OWhenNone (b : option bool)
| OOrder (b : bool)
| ONamespace (s : option pstr).

(** [copy.deepcopy] of a field object: a shallow copy (base.py 229-230), so the element field is
    shared with the original. *)
Definition copy_obj (h : heap) (a : addr) : heap * addr :=
  match nth_error h a with
  | Some o => (h ++ [o], length h)
  | None => (h, a)
  end.

(** [deepcopy(base._schema.fields)] (models.py 89; serializable.py 103-104).  Simplification: an
    object that occurs twice in one dictionary is copied twice. *)
Fixpoint copy_fields (h : heap) (fs : list (key * entry)) : heap * list (key * entry) :=
  match fs with
  | [] => (h, [])
  | (x, e) :: r =>
      let (h1, a) := copy_obj h (en_type e) in
      let (h2, r') := copy_fields h1 r in
      (h2, (x, En a (en_get e) (en_set e)) :: r')
  end.

(** The accumulators of [ModelMeta.__new__] (models.py 82-84). *)
Record acc := Acc {
  ac_heap : heap;
  ac_fields : list (key * entry);
  ac_opts : sopts;
  ac_validators : list (key * mvalidator) }.

(** One round of the loop over the bases (models.py 87-91).  The dictionary of a SchemaOptions
    (schema.py 50-53) has all its members, so the update replaces every option. *)
Definition add_base (P : program) (s : acc) (b : cid) : acc :=
  match class_at P b with
  | None => s
  | Some k =>
      let (h, fs) := copy_fields (ac_heap s) (cl_fields k) in
      Acc h (dupdate (ac_fields s) fs) (cl_opts k) (dupdate (ac_validators s) (cl_validators k))
  end.

(** [key.startswith('validate_')] and [key[9:]] (models.py 95-96). *)
Fixpoint strip (pre s : pstr) : option pstr :=
  match pre, s with
  | [], _ => Some s
  | a :: p, b :: r => if N.eqb a b then strip p r else None
  | _ :: _, [] => None
  end.
(** [key.startswith("validate_")] and [key[9:]] as texts: the rest of the name, models.py 95-96. *)
Definition validates (x : key) : option key :=
  match x with
  | KStr s => option_map KStr (strip (u "validate_") s)
  | KInt _ => None
  end.

(** One round of the loop over the class body (models.py 94-100). *)
Definition add_attr (s : acc) (p : key * attr) : acc :=
  let (x, t) := p in
  match t with
  | AField a => Acc (ac_heap s) (dset x (En a None None) (ac_fields s)) (ac_opts s) (ac_validators s)
  | ACalc a g st => Acc (ac_heap s) (dset x (En a (Some g) st) (ac_fields s)) (ac_opts s) (ac_validators s)
  | AFun v =>
      match validates x with
      | Some y => Acc (ac_heap s) (ac_fields s) (ac_opts s) (dset y v (ac_validators s))
      | None => s
      end
  | AOther _ => s
  end.

(** [_position_hint] of a schema entry (serializable.py 77-78 for a Serializable). *)
Definition pos_at (h : heap) (a : addr) : Z :=
  match nth_error h a with Some o => ob_pos o | None => 0 end.

(** [sorted(fields.items(), key=...)], a stable sort (models.py 103-106). *)
Fixpoint insert_field (h : heap) (p : key * entry) (l : list (key * entry)) : list (key * entry) :=
  match l with
  | [] => [p]
  | q :: r => if Z.leb (pos_at h (en_type (snd p))) (pos_at h (en_type (snd q))) then p :: l
              else q :: insert_field h p r
  end.
(** sorted(..., key=position), models.py 103-106: a stable sort. *)
Definition sort_fields (h : heap) (l : list (key * entry)) : list (key * entry) :=
  fold_right (insert_field h) [] l.

(** [_read_options] (models.py 125-145), the loop over the members. *)
Definition add_option (m : sopts) (o : optmember) : sopts :=
  match o with
  | OExtra x v => SO (so_namespace m) (so_roles m) (so_level m) (so_order m) (dset x v (so_extras m))
  | ORoles r => SO (so_namespace m) (dupdate (so_roles m) r) (so_level m) (so_order m) (so_extras m)
  | OLevel l => SO (so_namespace m) (so_roles m) l (so_order m) (so_extras m)
  | OWhenNone _ => m
  | OOrder b => SO (so_namespace m) (so_roles m) (so_level m) b (so_extras m)
  | ONamespace s => SO s (so_roles m) (so_level m) (so_order m) (so_extras m)
  end.

(** The [serialize_when_none] member, if any: it never survives in a SchemaOptions, so only the
    class's own one is seen (schema.py 40-43). *)
Definition when_none (own : list optmember) : option bool :=
  fold_left (fun r o => match o with OWhenNone b => b | _ => r end) own None.

(** [_read_options] and [SchemaOptions.__init__] (models.py 125-145, schema.py 35-48). *)
Definition read_options (base : sopts) (own : list optmember) : sopts :=
  let m := fold_left add_option own base in
  SO (so_namespace m) (so_roles m)
     (match when_none own with Some true => DEFAULT | Some false => NONEMPTY | None => so_level m end)
     (so_order m) (so_extras m).

(** [Schema.append_field] for every field (schema.py 21-30). *)
Definition setup_all (c : cid) (h : heap) (fs : list (key * entry)) : heap :=
  fold_left (fun h p => setup (length h) h (en_type (snd p)) true c) fs h.

(** The [class] statement: [ModelMeta.__new__] (models.py 75-123).  The descriptors put in the
    class (lines 107-111) are determined by the fields: Core.v reads attributes through them.
    The [_claim_polymorphic] attribute is passed as an argument (inheritance of plain attributes
    is Python's). *)
Definition define_class (P : program) (bases : list cid) (attrs : list (key * attr))
    (own : list optmember) (claim : option (pyval -> res bool)) : program :=
  let c := N.of_nat (length (p_classes P)) in
  let s0 := fold_left (add_base P) (rev bases) (Acc (p_heap P) [] sopts_default []) in
  let s := fold_left add_attr attrs s0 in
  let fs := sort_fields (ac_heap s) (ac_fields s) in
  Prog (setup_all c (ac_heap s) fs)
       (p_classes P ++ [Cls bases fs (read_options (ac_opts s) own) (ac_validators s) claim]).

(** Creating a field object (base.py 184-215): no name, no owner, the next position
    hint.  Copies do not draw a hint from the counter (line 86) but occupy an address here, so the
    hints differ from the real ones; their order does not. *)
Definition new_field (P : program) (o : fopts) (t : kind) : program :=
  Prog (p_heap P ++
          [FObj (Z.of_nat (length (p_heap P)))
                (FO false (fo_required o) (fo_default o) (fo_sname o) (fo_dfrom o) (fo_validators o) (fo_level o) None)
                t])
       (p_classes P).

(** The program after importing the library: the class [Model] (models.py 201-202), without fields. *)
Definition program0 : program := Prog [] [Cls [] [] sopts_default [] None].

(** ** The classes as the rest of the model sees them *)

(** A field that does not exist; never reached in a program made by the operations above. *)
Definition no_field : fspec :=
  FS (FO false false VUndef None [] [] None None)
     (TLeaf (Leaf (fun _ => Raise (XPy EAttributeError)) (fun _ => Raise (XPy EAttributeError)))).

(** The field object at an address with its element fields, as a description (Core.v [fspec]). *)
Fixpoint read (n : nat) (h : heap) (a : addr) : fspec :=
  match n with
  | O => no_field
  | S m =>
      match nth_error h a with
      | None => no_field
      | Some o =>
          FS (ob_opts o)
             (match ob_kind o with
              | KLeaf l => TLeaf l
              | KUnion ms => TUnion ms
              | KModel c => TModel c
              | KPoly p => TPoly p
              | KList i => TList (read m h i)
              | KDict i ck => TDict (read m h i) ck
              end)
      end
  end.
(** The pair that [_fields] holds, as Core.v sees it (schema.py 13-30). *)
Definition field_at (h : heap) (e : entry) : field :=
  Fld (read (length h) h (en_type e)) (en_get e) (en_set e).

(** The description of a class (Core.v [mclass]; schema.py 13-30). *)
Definition class_of (h : heap) (k : cls) : mclass :=
  MC (map (fun p => (fst p, field_at h (snd p))) (cl_fields k))
     (cl_validators k) (so_roles (cl_opts k)) (so_level (cl_opts k)) (cl_claim k).

(** [issubclass] (runtime). *)
Fixpoint issub (n : nat) (P : program) (c d : cid) : bool :=
  N.eqb c d ||
  match n with
  | O => false
  | S m => match class_at P c with
           | None => false
           | Some k => existsb (fun b => issub m P b d) (cl_bases k)
           end
  end.

(** [cls.__subclasses__()] (runtime) and [get_all_subclasses] (util.py 72-79). *)
Definition direct_subs (P : program) (c : cid) : list cid :=
  filter (fun d => match class_at P d with
                   | Some k => existsb (N.eqb c) (cl_bases k)
                   | None => false
                   end)
         (map N.of_nat (seq 0 (length (p_classes P)))).
(** get_all_subclasses (util.py 72-79). *)
Fixpoint all_subs (n : nat) (P : program) (c : cid) : list cid :=
  match n with
  | O => []
  | S m => flat_map (fun d => d :: all_subs m P d) (direct_subs P c)
  end.

(** The classes of the program (Core.v [env]). *)
Definition env_of (P : program) : env :=
  Env (fun c => match class_at P c with
                | Some k => class_of (p_heap P) k
                | None => MC [] [] [] DEFAULT None
                end)
      (issub (length (p_classes P)) P)
      (all_subs (length (p_classes P)) P).
