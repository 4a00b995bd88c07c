(** Places in the data, and what is found there in the input, in the result, and in the errors. *)
From Verif.Model Require Import Py Core Export Api.
From Verif.Spec Require Import ImportSpec.

(** A step: to a field of a model, to an element of a list, to an entry of a dictionary. *)
Inductive step := SField (n : key) | SItem (i : nat) | SEntry (y : key).
(** A place, given by the steps that lead to it. *)
Definition place := list step.

(** Classes whose fields have different names, in the program and in public. *)
Definition distinct_names (E : env) : Prop := forall c,
  NoDup (dkeys (fields_of E c)) /\
  (forall n f n' f', In (n, f) (fields_of E c) -> In (n', f') (fields_of E c) -> public_name n f = public_name n' f' -> n = n').

(** No other key of the dictionary is taken for the same. *)
Definition alone (ck : key -> res key) (d : list (key * pyval)) (y : key) : Prop :=
  forall z, In z (dkeys d) -> ck z = ck y -> z = y.

Section Places.
  Context (E : env).

  (** Two inputs for a type that are the same at a place; what they are elsewhere is free. *)
  Inductive same_at : ftype -> place -> pyval -> pyval -> Prop :=
  | sa_here t v : same_at t [] v v
  | sa_field c n f p d e a b : In (n, f) (fields_of E c) -> has_setter f = false -> defined_dict d -> defined_dict e ->
      supplied d n (fd_spec f) no_mapping = Some a -> supplied e n (fd_spec f) no_mapping = Some b ->
      same_at (fs_type (fd_spec f)) p a b -> same_at (TModel c) (SField n :: p) (VDict d) (VDict e)
  | sa_no_field c n f p d e : In (n, f) (fields_of E c) -> has_setter f = false -> defined_dict d -> defined_dict e ->
      supplied d n (fd_spec f) no_mapping = None -> supplied e n (fd_spec f) no_mapping = None ->
      same_at (TModel c) (SField n :: p) (VDict d) (VDict e)
  | sa_item g i p l m a b : nth_error l i = Some a -> nth_error m i = Some b -> same_at (fs_type g) p a b ->
      same_at (TList g) (SItem i :: p) (VList l) (VList m)
  | sa_no_item g i p l m : nth_error l i = None -> nth_error m i = None -> same_at (TList g) (SItem i :: p) (VList l) (VList m)
  | sa_entry g ck y y' p d e a b : NoDup (dkeys d) -> NoDup (dkeys e) -> alone ck d y -> alone ck e y -> ck y = Ok y' ->
      dget y d = Some a -> dget y e = Some b -> same_at (fs_type g) p a b ->
      same_at (TDict g ck) (SEntry y :: p) (VDict d) (VDict e).

  (** The error at a place, in a tree of errors for a value of the given type. *)
  Fixpoint error_node (t : ftype) (p : place) (nd : errnode) : option errnode :=
    match p with
    | [] => Some nd
    | s :: q =>
        match s, t, nd with
        | SField n, TModel c, NDict errs =>
            match dget n (fields_of E c) with
            | Some f => match dget (public_name n f) errs with Some sub => error_node (fs_type (fd_spec f)) q sub | None => None end
            | None => None
            end
        | SItem i, TList g, NDict errs => match dget (KInt (Z.of_nat i)) errs with Some sub => error_node (fs_type g) q sub | None => None end
        | SEntry y, TDict g _, NDict errs => match dget y errs with Some sub => error_node (fs_type g) q sub | None => None end
        | _, _, _ => None
        end
    end.
  (** The error at a place in the outcome of a conversion. *)
  Definition error_at {A} (t : ftype) (p : place) (r : res A) : option errnode :=
    match r with Ok _ => None | Raise e => if collectable e then error_node t p (shown_error e) else None end.

  (** The value at a place in an instance (or its partial data), a list or a dictionary. *)
  Fixpoint value_at (t : ftype) (p : place) (v : pyval) : option pyval :=
    match p with
    | [] => Some v
    | s :: q =>
        match s, t with
        | SField n, TModel c =>
            match dget n (fields_of E c), (match v with VModel _ m => chain_get m n | VDict d => dget n d | _ => None end) with
            | Some f, Some w => value_at (fs_type (fd_spec f)) q w
            | _, _ => None
            end
        | SItem i, TList g => match v with VList l => match nth_error l i with Some w => value_at (fs_type g) q w | None => None end | _ => None end
        | SEntry y, TDict g ck =>
            match v, ck y with
            | VDict d, Ok y' => match dget y' d with Some w => value_at (fs_type g) q w | None => None end
            | _, _ => None
            end
        | _, _ => None
        end
    end.
End Places.

(** The call ends normally or with an error of the library. *)
Definition settled {A} (r : res A) : Prop := forall e, r = Raise e -> collectable e = true.
(** What a call gives: the instance, or the partial data of the error. *)
Definition kept (c : cid) (r : res (mdata pyval)) : option pyval :=
  match r with Ok m => Some (VModel c m) | Raise (XData _ pd) => Some (VDict pd) | Raise _ => None end.
(** A place reached through models only. *)
Definition model_place (p : place) : Prop := forall s, In s p -> exists n, s = SField n.
