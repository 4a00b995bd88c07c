(** Parts of types/compound.py and types/union.py that are not needed to tie the recursion:
    ListType.check_length, the construction of UnionType and PolyModelType, union resolvers. *)
From Verif.Model Require Import Py Core Text.

(** The message about too few elements, compound.py 238-241; [%d] of a number is its [str] (runtime). *)
Definition m_too_few (a : Z) : emsg :=
  u "Please provide at least " ++ dec_text a ++ (if (a =? 1)%Z then u " item." else u " items.").
(** The message about too many elements, compound.py 245-248. *)
Definition m_too_many (b : Z) : emsg :=
  u "Please provide no more than " ++ dec_text b ++ (if (b =? 1)%Z then u " item." else u " items.").

(** [len(v)]: containers and text; TypeError otherwise. (runtime; models.py 405-406 for a model:
    the number of distinct keys of the layers) *)
Definition distinct_keys (l : list key) : list key :=
  fold_right (fun y acc => if kmem y acc then acc else y :: acc) [] l.
(** [len(value)], compound.py 235. (runtime) *)
Definition py_len (v : pyval) : res Z :=
  match v with
  | VList l | VTuple l => Ok (Z.of_nat (length l))
  | VDict d => Ok (Z.of_nat (length d))
  | VStr s => Ok (Z.of_nat (length s))
  | VBytes s => Ok (Z.of_nat (length s))
  | VModel _ m => Ok (Z.of_nat (length (distinct_keys (dkeys (md_unsafe m) ++ dkeys (md_converted m) ++ dkeys (md_valid m)))))
  | _ => Raise (XPy ETypeError)
  end.

(** The second half of ListType.check_length (compound.py 244-249). *)
Definition too_many (mx : option Z) (n : Z) : option exn :=
  match mx with
  | Some b => if (n >? b)%Z then Some (XValid false [m_too_many b]) else None
  | None => None
  end.
(** ListType.check_length (compound.py 234-249); it is the first validator of the field (compound.py 194). *)
Definition check_length (mn mx : option Z) : vldr := fun v =>
  match (if truthy v then py_len v else Ok 0%Z) with
  | Raise e => Some e
  | Ok n =>
      match mn with
      | Some a => if (n <? a)%Z then Some (XValid false [m_too_few a]) else too_many mx n
      | None => too_many mx n
      end
  end.

(** The options of a ListType field with the given bounds (compound.py 185-196).  Simplification: the
    validators inherited from BaseType ([validate_choices], base.py 198) are part of [vs]; they come before
    [check_length] in the code. *)
Definition list_opts (pre : list vldr) (mn mx : option Z) (o : fopts) : fopts :=
  FO (fo_named o) (fo_required o) (fo_default o) (fo_sname o) (fo_dfrom o)
     (pre ++ check_length mn mx :: fo_validators o) (fo_level o) (fo_owner o).

(** UnionType.__init__ (union.py 43-58): the members in a dictionary keyed by their class (written as a
    [key] here); a later member of the same class replaces the earlier one in its place. *)
Definition member := fspec.
(** The dictionary of members, union.py 50-56. *)
Definition union_init (decl : list (key * member)) : list (key * member) :=
  fold_left (fun acc p => dset (fst p) (snd p) acc) decl [].
(** The members in the order they are tried, union.py 60-68. *)
Definition union_members (decl : list (key * member)) : list member := map snd (union_init decl).

(** What a custom resolver returns (union.py 71-80): one of the classes, a pair, or something else. *)
Inductive resolution := RClass (c : key) | RPair (m : member) (v : pyval) | RNothing.

(** UnionType._resolve with a custom resolver (union.py 70-80); [cvt] is [field.convert] with the context at
    hand. *)
Definition union_resolve_with (cvt : fspec -> pyval -> res pyval) (resolver : pyval -> res resolution) (types : list (key * member)) (v : pyval)
  : res (member * pyval) :=
  rbind (resolver v) (fun r =>
    match r with
    | RPair m w => Ok (m, w)
    | RNothing => Raise (XConv [m_union])
    | RClass c => match dget c types with
                  | None => Raise (XPy EKeyError)
                  | Some m => match cvt m v with
                              | Ok w => Ok (m, w)
                              | Raise (XConv _) => Raise (XConv [m_union])
                              | Raise e => Raise e
                              end
                  end
    end).

(** The argument of PolyModelType: one class or several (compound.py 344-352), and its options. *)
Inductive poly_arg := OneClass (c : cid) | Classes (l : list cid).
(** PolyModelType.__init__, compound.py 342-357. *)
Definition poly_init (a : poly_arg) (claim : option (pyval -> option cid)) (allow : option bool) : polyspec :=
  match a with
  | OneClass c => Poly [c] (match allow with Some b => b | None => true end) claim
  | Classes l => Poly l (match allow with Some b => b | None => false end) claim
  end.
