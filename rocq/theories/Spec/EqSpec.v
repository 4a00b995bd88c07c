(** Vocabulary for equality of values. *)
From Verif.Model Require Import Py Core Num Calendar Api Equality.
From Coq Require Import QArith.
From Verif.Spec Require Import ImportSpec FuelSpec TypeSpec.

(** Two containers of the same kind (for models: of the same class), whose parts get compared. *)
Definition same_container (a b : pyval) : Prop :=
  match a, b with
  | VList _, VList _ | VTuple _, VTuple _ | VDict _, VDict _ => True
  | VModel c _, VModel d _ => c = d
  | _, _ => False
  end.

(** At every depth, model instances that get compared hold values for the same fields (dictionaries have
    distinct keys). *)
Inductive same_fields (E : env) : pyval -> pyval -> Prop :=
| sf_other a b : ~ same_container a b -> same_fields E a b
| sf_list l l' : (length l = length l' -> Forall2 (same_fields E) l l') -> same_fields E (VList l) (VList l')
| sf_tuple l l' : (length l = length l' -> Forall2 (same_fields E) l l') -> same_fields E (VTuple l) (VTuple l')
| sf_dict d d' : NoDup (dkeys d) -> NoDup (dkeys d') ->
    (forall x v w, dget x d = Some v -> dget x d' = Some w -> same_fields E v w) -> same_fields E (VDict d) (VDict d')
| sf_model c m m' : (forall x f, In (x, f) (fields_of E c) -> chain_mem m x = chain_mem m' x) ->
    (forall x v w, chain_get m x = Some v -> chain_get m' x = Some w -> same_fields E v w) ->
    same_fields E (VModel c m) (VModel c m').

(** No NaN at any depth (and dictionaries with distinct keys): a value equal to its copies. *)
Inductive no_nan : pyval -> Prop :=
| nn_none : no_nan VNone | nn_undef : no_nan VUndef | nn_bool b : no_nan (VBool b) | nn_int z : no_nan (VInt z)
| nn_float f : f <> S754_nan -> no_nan (VFloat f) | nn_str s : no_nan (VStr s) | nn_bytes s : no_nan (VBytes s)
| nn_list l : Forall no_nan l -> no_nan (VList l) | nn_tuple l : Forall no_nan l -> no_nan (VTuple l)
| nn_dict d : NoDup (dkeys d) -> (forall x v, In (x, v) d -> no_nan v) -> no_nan (VDict d)
| nn_model c m : (forall x v, chain_get m x = Some v -> no_nan v) -> no_nan (VModel c m)
| nn_date d : no_nan (VDate d) | nn_datetime d t o : no_nan (VDateTime d t o) | nn_td z : no_nan (VTimedelta z)
| nn_uuid n : no_nan (VUUID n) | nn_dec c e : no_nan (VDecimal c e) | nn_enum c n v : no_nan (VEnum c n v)
| nn_obj n : no_nan (VObj n).

(** What [m.get(x)] gives: the value held, None without one. *)
Definition held (m : mdata pyval) (x : key) : pyval :=
  match chain_get m x with Some VUndef | None => VNone | Some v => v end.

(** Equal values without parts: the same number, text, day, moment, duration, object.  An enum member is known by its
    class and name. *)
Inductive equal_atoms : pyval -> pyval -> Prop :=
| ea_none : equal_atoms VNone VNone
| ea_undef : equal_atoms VUndef VUndef
| ea_number a b p q : value_of a p -> value_of b q -> (p == q)%Q -> equal_atoms a b
| ea_infinity s : equal_atoms (VFloat (S754_infinity s)) (VFloat (S754_infinity s))
| ea_text s : equal_atoms (VStr s) (VStr s)
| ea_bytes s : equal_atoms (VBytes s) (VBytes s)
| ea_date d : equal_atoms (VDate d) (VDate d)
| ea_naive d t : equal_atoms (VDateTime d t None) (VDateTime d t None)
| ea_aware d t o d' t' o' : instant d t o = instant d' t' o' -> equal_atoms (VDateTime d t (Some o)) (VDateTime d' t' (Some o'))
| ea_delta us : equal_atoms (VTimedelta us) (VTimedelta us)
| ea_uuid n : equal_atoms (VUUID n) (VUUID n)
| ea_enum c n v v' : equal_atoms (VEnum c n v) (VEnum c n v')
| ea_obj n : equal_atoms (VObj n) (VObj n).
