(** What a class hierarchy should give: independent of how the metaclass computes it. *)
From Verif.Model Require Import Py Core Export Meta.

(** The field [x] of class [c], as the rest of the library sees it. *)
Definition field_of (P : program) (c : cid) (x : key) : option field :=
  dget x (mc_fields (e_class (env_of P) c)).

(** The names of the fields of a class, in order. *)
Definition names_of (P : program) (c : cid) : list key := dkeys (mc_fields (e_class (env_of P) c)).

(** The identity the next class gets. *)
Definition next_class (P : program) : cid := N.of_nat (length (p_classes P)).

(** The same field belonging to another class: options and type are the same, the owner is the
    new class throughout, and only the outermost field has a name. *)
Definition owned (named : bool) (c : cid) (o : fopts) : fopts :=
  FO named (fo_required o) (fo_default o) (fo_sname o) (fo_dfrom o) (fo_validators o) (fo_level o) (Some c).
Fixpoint rebrand (named : bool) (c : cid) (f : fspec) : fspec :=
  match f with
  | FS o t => FS (owned named c o)
                 (match t with
                  | TList g => TList (rebrand false c g)
                  | TDict g ck => TDict (rebrand false c g) ck
                  | _ => t
                  end)
  end.
Definition rebrand_field (c : cid) (f : field) : field :=
  Fld (rebrand true c (fd_spec f)) (fd_get f) (fd_set f).

(** The field a class body declares under a name. *)
Inductive declares (P : program) (attrs : list (key * attr)) (x : key) : field -> Prop :=
| declares_field a :
    In (x, AField a) attrs ->
    declares P attrs x (Fld (read (length (p_heap P)) (p_heap P) a) None None)
| declares_calc a g s :
    In (x, ACalc a g s) attrs ->
    declares P attrs x (Fld (read (length (p_heap P)) (p_heap P) a) (Some g) s).

(** The field a class gets from its bases: that of the leftmost base that has it. *)
Inductive inherits (P : program) : list cid -> key -> field -> Prop :=
| inherits_here b bs x f : field_of P b x = Some f -> inherits P (b :: bs) x f
| inherits_next b bs x f : field_of P b x = None -> inherits P bs x f -> inherits P (b :: bs) x f.

(** An object is a field of some class, or the element field of some list or dict field. *)
Definition in_schema (P : program) (a : addr) : Prop :=
  exists k x e, In k (p_classes P) /\ In (x, e) (cl_fields k) /\ en_type e = a.
Definition is_element (P : program) (a : addr) : Prop :=
  exists b o, nth_error (p_heap P) b = Some o /\ inner_of (ob_kind o) = Some a.

(** [b] is an element field somewhere inside [a]. *)
Inductive inside (h : heap) : addr -> addr -> Prop :=
| inside_here a o i : nth_error h a = Some o -> inner_of (ob_kind o) = Some i -> inside h a i
| inside_deep a o i b : nth_error h a = Some o -> inner_of (ob_kind o) = Some i ->
    inside h i b -> inside h a b.

(** The object an attribute declares. *)
Definition declared_obj (t : attr) : option addr :=
  match t with AField a | ACalc a _ _ => Some a | _ => None end.

(** A class body that can be written: names are distinct, and each field object in it was made
    by calling a type, and is not in use elsewhere. *)
Definition class_body (P : program) (attrs : list (key * attr)) : Prop :=
  NoDup (map fst attrs) /\
  (forall x t a, In (x, t) attrs -> declared_obj t = Some a ->
     (exists o, nth_error (p_heap P) a = Some o /\ ob_pos o = Z.of_nat a) /\
     ~ in_schema P a /\ ~ is_element P a) /\
  (forall x y t s a, In (x, t) attrs -> In (y, s) attrs ->
     declared_obj t = Some a -> declared_obj s = Some a -> x = y).

(** The programs there are: created by calling types and by class statements.  An element field
    is given as an object that is not itself a field of a class. *)
Inductive made : program -> Prop :=
| made_start : made program0
| made_type P o t :
    made P ->
    (forall i, inner_of t = Some i -> i < length (p_heap P) /\ ~ in_schema P i) ->
    made (new_field P o t)
| made_class P bases attrs own claim :
    made P ->
    (forall b, In b bases -> class_at P b <> None) ->
    class_body P attrs ->
    made (define_class P bases attrs own claim).

(** When the field [x] of class [c] was created: calls of types are numbered. *)
Definition created (P : program) (c : cid) (x : key) : option Z :=
  match class_at P c with
  | Some k => option_map (fun e => pos_at (p_heap P) (en_type e)) (dget x (cl_fields k))
  | None => None
  end.

(** [x] comes before [y] in a list. *)
Definition before {A} (x y : A) (l : list A) : Prop :=
  exists l1 l2 l3, l = l1 ++ x :: l2 ++ y :: l3.

(** The option set a class starts from: that of its leftmost base. *)
Definition base_options (P : program) (bases : list cid) : sopts :=
  match bases with
  | b :: _ => match class_at P b with Some k => cl_opts k | None => sopts_default end
  | [] => sopts_default
  end.

(** The validator for [x] of a class and of the leftmost base that has one. *)
Definition validator_of (P : program) (c : cid) (x : key) : option mvalidator :=
  dget x (mc_validators (e_class (env_of P) c)).
Fixpoint inherited_validator (P : program) (bases : list cid) (x : key) : option mvalidator :=
  match bases with
  | [] => None
  | b :: bs => match validator_of P b x with Some v => Some v | None => inherited_validator P bs x end
  end.

(** Being a class or derived from it. *)
Inductive derived (P : program) : cid -> cid -> Prop :=
| derived_self c : derived P c c
| derived_base c b d k : class_at P c = Some k -> In b (cl_bases k) -> derived P b d -> derived P c d.

(** A field without element field. *)
Definition plain (f : fspec) : Prop :=
  match fs_type f with TList _ | TDict _ _ => False | _ => True end.

(** The same field except that, from some level of nesting on, the element fields inside it have
    been given the owner [c]. *)
Inductive elements_owned (c : cid) : fspec -> fspec -> Prop :=
| eo_same f : elements_owned c f f
| eo_list o g : elements_owned c (FS o (TList g)) (FS o (TList (rebrand false c g)))
| eo_dict o g ck : elements_owned c (FS o (TDict g ck)) (FS o (TDict (rebrand false c g) ck))
| eo_in_list o g g' : elements_owned c g g' -> elements_owned c (FS o (TList g)) (FS o (TList g'))
| eo_in_dict o g g' ck : elements_owned c g g' -> elements_owned c (FS o (TDict g ck)) (FS o (TDict g' ck)).

(** The names of the fields a class body declares, in order. *)
Definition own_names (attrs : list (key * attr)) : list key :=
  flat_map (fun p => match declared_obj (snd p) with Some _ => [fst p] | None => [] end) attrs.

(** When the field [x] of the leftmost base that has it was created. *)
Fixpoint inherited_created (P : program) (bases : list cid) (x : key) : option Z :=
  match bases with
  | [] => None
  | b :: bs => match created P b x with Some p => Some p | None => inherited_created P bs x end
  end.

(** The [validate_x] function of a class body. *)
Definition own_validator (attrs : list (key * attr)) (x : key) : option mvalidator :=
  match x with
  | KStr s => match dget (KStr (u "validate_" ++ s)) attrs with Some (AFun v) => Some v | _ => None end
  | KInt _ => None
  end.

(** The members of a class's own Options have distinct names. *)
Definition optname (o : optmember) : key :=
  match o with
  | OExtra x _ => x
  | ORoles _ => k "roles"
  | OLevel _ => k "export_level"
  | OWhenNone _ => k "serialize_when_none"
  | OOrder _ => k "export_order"
  | ONamespace _ => k "namespace"
  end.
Definition options_body (own : list optmember) : Prop :=
  NoDup (map optname own) /\
  forall x v, In (OExtra x v) own -> exists s, x = KStr (u "_" ++ s).

(** The leftmost base of a class. *)
Definition leftmost_class (P : program) (bases : list cid) : mclass :=
  match bases with b :: _ => e_class (env_of P) b | [] => MC [] [] [] DEFAULT None end.
