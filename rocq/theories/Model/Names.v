(** Arguments that name one input key or several: util.py 59-69, and the places that read them, types/base.py 196, 264-278 and
    transforms.py 93, 102-108, 123-127, 145-149.  Core.v takes the names in a mapping as lists; here the mapping is the dictionary
    that the caller gives. *)
From Verif.Model Require Import Py Core.

(** listify (util.py 59-69).  The sequences among the values are lists, tuples, texts and bytes, whose elements are numbers; objects
    of classes of the user are taken not to be sequences. *)
Definition listify (v : pyval) : list pyval :=
  match v with
  | VList l => l
  | VNone => []
  | VStr _ => [v]
  | VTuple l => l
  | VBytes b => map (fun c => VInt (Z.of_N c)) b
  | _ => [v]
  end.

(** A key as a value. (runtime) *)
Definition of_key (y : key) : pyval := match y with KStr s => VStr s | KInt z => VInt z end.
(** The key of a dictionary that a value denotes, if any; lists, dictionaries and instances have no hash (models.py 408 defines
    [__eq__] only).  Simplification: floats, tuples and other objects are taken to equal no key of the data, which are texts and
    integers. *)
Definition name_key (v : pyval) : res (option key) :=
  match v with
  | VStr s => Ok (Some (KStr s))
  | VInt z => Ok (Some (KInt z))
  | VBool b => Ok (Some (KInt (if b then 1 else 0)))
  | VList _ | VDict _ | VModel _ _ => Raise (XPy ETypeError)
  | _ => Ok None
  end.
(** [key == field_name] (transforms.py 125). *)
Definition same_name (v : pyval) (n : key) : bool :=
  match name_key v with Ok (Some y) => key_eqb y n | _ => false end.

(** The keyword that lists the mappings of nested models (transforms.py 93, 107). *)
Definition k_models : key := k "model_mapping".

(** BaseType.get_input_keys (base.py 264-278) for a field called [n] with serialized name [sname] and the argument
    [deserialize_from], which line 196 has listified; an empty mapping takes the keys computed before, which are the same. *)
Definition given_keys (n : key) (sname : option key) (from : pyval) (m : list (key * pyval)) : list pyval :=
  [of_key n]
  ++ match sname with Some s => if key_true s then [of_key s] else [] | None => [] end
  ++ match dget n m with Some v => listify v | None => [] end
  ++ listify from.

(** transforms.py 123-127: the value of a field that is not in the data under its own name. *)
Fixpoint find_named (d : list (key * pyval)) (n : key) (ks : list pyval) : res pyval :=
  match ks with
  | [] => Ok VUndef
  | v :: r => if truthy v && negb (same_name v n)
              then rbind (name_key v) (fun o =>
                   match o with
                   | Some y => match dget y d with Some w => Ok w | None => find_named d n r end
                   | None => find_named d n r
                   end)
              else find_named d n r
  end.

(** [set(...)] of names (transforms.py 105-107): the keys they denote; names without a hash raise. *)
Fixpoint hashed (l : list pyval) : res (list key) :=
  match l with
  | [] => Ok []
  | v :: r => rbind (name_key v) (fun o => rbind (hashed r) (fun ks => Ok (match o with Some y => y :: ks | None => ks end)))
  end.
(** [mapped_keys] (transforms.py 105-107). *)
Definition mapped_keys (m : list (key * pyval)) : res (list key) :=
  hashed (flat_map (fun p => if key_eqb (fst p) k_models then [] else listify (snd p)) m).

(** [submap] (transforms.py 93, 145-148) and what [_branch] makes of it (datastructures.py 135): None keeps the mapping in force. *)
Definition submap (m : list (key * pyval)) (n : key) : res (option pyval) :=
  match dget k_models m with
  | Some (VDict ((_ :: _) as l)) => Ok (match dget n l with Some VNone | None => None | Some v => Some v end)
  | Some v => if truthy v then Raise (XPy EAttributeError) else Ok (Some (VDict []))
  | None => Ok (Some (VDict []))
  end.
