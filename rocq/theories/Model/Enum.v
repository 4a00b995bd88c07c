(** EnumType, schematics/contrib/enum_type.py. *)
From Verif.Model Require Import Py Core Num Equality Types.

(** An enumeration class: its identity and [__members__], the names in order of declaration with the member each
    denotes (name and value; an alias denotes a member with another name).  Values are text or integers. *)
Record enum_class := EnumClass { ec_id : N; ec_members : list (pstr * (pstr * key)) }.
(** [self._enum_class[value]], enum_type.py 60-63; [None] is KeyError. *)
Fixpoint enum_named (l : list (pstr * (pstr * key))) (s : pstr) : option (pstr * key) :=
  match l with
  | [] => None
  | (x, m) :: r => if pstr_eqb s x then Some m else enum_named r s
  end.
(** The loop of _find_by_value, enum_type.py 68-70.  Iterating over the class skips aliases. *)
Fixpoint enum_valued (l : list (pstr * (pstr * key))) (v : pyval) : option (pstr * key) :=
  match l with
  | [] => None
  | (x, m) :: r => if pstr_eqb x (fst m) && atom_eq (key_val (snd m)) v then Some m else enum_valued r v
  end.
(** The member as a value. *)
Definition enum_member (c : enum_class) (m : pstr * key) : pyval := VEnum (ec_id c) (fst m) (snd m).
(** _find_by_name, enum_type.py 58-63: only for text. *)
Definition find_by_name (c : enum_class) (v : pyval) : option (pstr * key) :=
  match v with VStr s => enum_named (ec_members c) s | _ => None end.
(** _find_by_value, enum_type.py 65-70. *)
Definition find_by_value (c : enum_class) (use_values : bool) (v : pyval) : option (pstr * key) :=
  if use_values then enum_valued (ec_members c) v else None.
(** to_native, enum_type.py 46-56. *)
Definition enum_native (c : enum_class) (use_values : bool) (v : pyval) : res pyval :=
  if match v with VEnum i _ _ => N.eqb i (ec_id c) | _ => false end then Ok v
  else match find_by_name c v with
       | Some m => Ok (enum_member c m)
       | None => match find_by_value c use_values v with
                 | Some m => Ok (enum_member c m)
                 | None => conv_err "convert"
                 end
       end.
(** to_primitive, enum_type.py 72-79. *)
Definition enum_prim (R : runtime) (use_values : bool) (v : pyval) : res pyval :=
  match v with
  | VEnum _ n x => Ok (if use_values then key_val x else VStr n)
  | VStr _ => Ok v
  | VInt z => Ok (VStr (Text.dec_text z))
  | _ => Ok (VStr (rt_str R v))
  end.
(** The class EnumType, enum_type.py 16-44. *)
Definition enum_type (R : runtime) (c : enum_class) (use_values : bool) : leaf :=
  Leaf (enum_native c use_values) (enum_prim R use_values).
