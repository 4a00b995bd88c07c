(** Models given by name: ModelType and PolyModelType with a text instead of a class (compound.py 89-96, 101-140,
    342-371) and import_string (util.py 129-175).  Names of fields, options and what else a class statement does are
    in Meta.v; here a field object is only what it refers to. *)
From Verif.Model Require Import Py Core Meta.
Local Open Scope N_scope.

(** ** import_string *)

(** What a name of Python may refer to: a model class, a module, something else. (runtime) *)
Inductive pobj := PClass (c : cid) | PModule (m : nat) | POther (n : nat).

(** An import fails with ImportError, or with whatever the module raises. (runtime) *)
Inductive imported := Found (o : pobj) | NotFound | Broken (e : exn).

(** The import system: [__import__(name)] and [sys.modules[name]] afterwards (util.py 150, 155), as a function of
    the name: importing the same name again gives the same result.  [getattr]: attributes of objects (util.py 166). *)
Record importer := Importer {
  im_module : pstr -> imported;
  im_attr : pobj -> pstr -> option pobj }.

(** [import_name.replace(':', '.')] (util.py 147). *)
Definition colons_to_dots (s : pstr) : pstr := map (fun c => if c =? 58 then 46 else c) s.

(** [import_name.rsplit('.', 1)] (util.py 157): the parts before and after the last dot, if there is one. *)
Fixpoint rsplit_dot (s : pstr) : option (pstr * pstr) :=
  match s with
  | [] => None
  | c :: r => match rsplit_dot r with
              | Some (a, b) => Some (c :: a, b)
              | None => if c =? 46 then Some ([], r) else None
              end
  end.

(** import_string (util.py 129-175) with [silent=False]; [NotFound] is ImportStringError, which is an ImportError
    (util.py 82).  The first argument bounds the recursion; the length of the text suffices.  The import of line 159
    names the same module as before, so line 163 begins with an import that fails as well.  Simplification: making the
    message of ImportStringError, which imports the prefixes of the name again (util.py 94-122), has no part. *)
Fixpoint import_dotted (I : importer) (n : nat) (name : pstr) : imported :=
  match im_module I name with
  | Found o => Found o
  | Broken e => Broken e
  | NotFound =>
      match n, rsplit_dot name with
      | S m, Some (mod_name, obj_name) =>
          match (match im_module I mod_name with
                 | NotFound => import_dotted I m mod_name
                 | r => r
                 end) with
          | Found o => match im_attr I o obj_name with Some x => Found x | None => NotFound end
          | r => r
          end
      | _, _ => NotFound
      end
  end.
(** import_string (util.py 129-175). *)
Definition import_string (I : importer) (name : pstr) : imported :=
  let name := colons_to_dots name in import_dotted I (length name) name.

(** ** Field objects *)

(** What a field object refers to.  [NModel cls name]: ModelType with [_model_class] and [model_name]
    (compound.py 115-120); [NPoly]: PolyModelType with [model_classes] (344-349), texts or classes; [NBox]: ListType or
    DictType with its element field; [NUnion]: UnionType with its members; [NPlain]: any other type. *)
Inductive nkind :=
| NModel (cls : option pobj) (name : pstr)
| NPoly (l : list (pstr + cid))
| NBox (i : addr)
| NUnion (ms : list addr)
| NPlain.

(** Change the object at an address. (runtime) *)
Fixpoint nupd (h : list nkind) (a : addr) (t : nkind) : list nkind :=
  match h, a with
  | [], _ => []
  | _ :: r, O => t :: r
  | o :: r, S b => o :: nupd r b t
  end.

(** The loop of PolyModelType._setup (compound.py 361-371). *)
Fixpoint resolve_names (c : cid) (owner : pstr) (l : list (pstr + cid)) : res (list (pstr + cid)) :=
  match l with
  | [] => Ok []
  | inr d :: r => rbind (resolve_names c owner r) (fun r' => Ok (inr d :: r'))
  | inl x :: r => if pstr_eqb x owner then rbind (resolve_names c owner r) (fun r' => Ok (inr c :: r'))
                  else Raise (XPy EGenericException)
  end.

(** [_setup] as far as references go: CompoundType (compound.py 43-47), ModelType (133-140), PolyModelType (359-371);
    UnionType has the one of BaseType (base.py 235-241), which does not reach its members.  See [setup] (Meta.v) for the
    first argument. *)
Fixpoint nsetup (n : nat) (h : list nkind) (a : addr) (c : cid) (owner : pstr) : list nkind * option exn :=
  match n with
  | O => (h, None)
  | S m =>
      match nth_error h a with
      | Some (NModel None x) => (if pstr_eqb x owner then nupd h a (NModel (Some (PClass c)) x) else h, None)
      | Some (NPoly l) => match resolve_names c owner l with
                          | Ok l' => (nupd h a (NPoly l'), None)
                          | Raise e => (h, Some e)
                          end
      | Some (NBox i) => nsetup m h i c owner
      | _ => (h, None)
      end
  end.

(** ** Programs *)

(** A class: [__name__], bases, the field objects (models.py 120-121), and whether its class statement came to an end: the
    class object is there before its fields are set up (models.py 113). *)
Record ncls := NCls { nc_name : pstr; nc_bases : list cid; nc_fields : list (key * addr); nc_done : bool }.

(** Field objects and classes, in order of creation. (runtime) *)
Record nprogram := NProg { np_heap : list nkind; np_classes : list ncls }.

(** The class with this identity. (runtime) *)
Definition nclass_at (P : nprogram) (c : cid) : option ncls := nth_error (np_classes P) (N.to_nat c).

(** Calling a type class (compound.py 110-125, 185-196, 286-291, 342-357; union.py 43-58): [model_name] of a ModelType
    given a class is the name of the class (compound.py 117). *)
Definition nnew (P : nprogram) (t : nkind) : nprogram := NProg (np_heap P ++ [t]) (np_classes P).

(** [deepcopy(base._schema.fields)] (models.py 89); see [copy_fields] (Meta.v). *)
Fixpoint ncopy (h : list nkind) (fs : list (key * addr)) : list nkind * list (key * addr) :=
  match fs with
  | [] => (h, [])
  | (x, a) :: r =>
      match nth_error h a with
      | Some t => let (h2, r') := ncopy (h ++ [t]) r in (h2, (x, length h) :: r')
      | None => ncopy h r
      end
  end.

(** One round of the loop over the bases (models.py 87-91). *)
Definition nadd_base (P : nprogram) (s : list nkind * list (key * addr)) (b : cid) : list nkind * list (key * addr) :=
  match nclass_at P b with
  | None => s
  | Some kl => let (h, fs) := ncopy (fst s) (nc_fields kl) in (h, dupdate (snd s) fs)
  end.

(** [append_field] for the fields (schema.py 21-30) until one fails.  Simplification: the order is that of the dictionary
    before it is sorted (models.py 103-106); it matters only for what is set up before a failure. *)
Fixpoint nsetup_all (c : cid) (owner : pstr) (h : list nkind) (fs : list (key * addr)) : list nkind * option exn :=
  match fs with
  | [] => (h, None)
  | (_, a) :: r => match nsetup (length h) h a c owner with
                   | (h1, None) => nsetup_all c owner h1 r
                   | (h1, Some e) => (h1, Some e)
                   end
  end.

(** The [class] statement (models.py 75-123): the fields of the body, computed ones among them by their types
    (serializable.py 77-78).  If setting up fails, the statement raises and binds no name, but objects set up before
    stay so and may refer to the unfinished class. *)
Definition nclass (P : nprogram) (name : pstr) (bases : list cid) (attrs : list (key * addr)) : nprogram * option exn :=
  let c := N.of_nat (length (np_classes P)) in
  let '(h, inherited) := fold_left (nadd_base P) (rev bases) (np_heap P, []) in
  let fs := fold_left (fun d p => dset (fst p) (snd p) d) attrs inherited in
  match nsetup_all c name h fs with
  | (h', None) => (NProg h' (np_classes P ++ [NCls name bases fs true]), None)
  | (h', Some e) => (NProg h' (np_classes P ++ [NCls name bases fs false]), Some e)
  end.

(** The property [model_class] (compound.py 101-108): the class, imported at the first use and kept.  Simplification: what
    is imported counts as true (line 103). *)
Definition nuse (I : importer) (P : nprogram) (a : addr) : nprogram * imported :=
  match nth_error (np_heap P) a with
  | Some (NModel (Some o) _) => (P, Found o)
  | Some (NModel None x) =>
      match import_string I x with
      | Found o => (NProg (nupd (np_heap P) a (NModel (Some o) x)) (np_classes P), Found o)
      | r => (P, r)
      end
  | _ => (P, Broken (XPy EAttributeError))
  end.
