(** Which containers conversion and export create and which they hand on: the same functions as in Core.v and Export.v, but
    lists, dictionaries and instances have an identity.
    Simplified: a failure is one value; no roles, levels, names other than the field's, validators or unions; an instance and
    its dictionaries are one object; only lists are sequences; the conversion is the object-oriented one with [convert], which
    construction, import_data and validate() use by default; no fields with setters. *)
From Verif.Model Require Import Py Core.

(** Mutable objects. (runtime) *)
Inductive okind := OList | ODict | OInst (c : nat).
(** Objects: an immutable one, of which 0 is None, or a container at an address. (runtime) *)
Inductive obj := Imm (n : nat) | Obj (a : nat) (kd : okind) (l : list (key * obj)).

(** Types.  [Scalar i]: leaf types whose results are immutable; [Kept]: those that return a container they are given, BaseType
    (base.py 296-305), GeoPointType (1050-1060) and MultilingualStringType (1124-1130); compound types (types/compound.py). *)
Inductive aty := Scalar (i : nat) | Kept | AList (t : aty) | ADict (t : aty) | AModel (c : nat) | APoly (c : nat).

Section Alias.
  (** Conversion and export of the scalar types. *)
  Context (scal : nat -> obj -> option nat).
  (** isinstance of classes. (runtime) PolyModelType.is_allowed_model and find_model (compound.py 371-379, 402-433). *)
  Context (sub : nat -> nat -> bool) (allowed : nat -> nat -> bool) (claim : nat -> obj -> option nat).
  (** Fields of a class with their types and defaults, which are not callable (schema.py 25-60, base.py 280-285). *)
  Context (fields : nat -> list (key * (aty * option obj))).

  (** A new container; [m] is the next free address. (runtime) *)
  Definition alloc (kd : okind) (l : list (key * obj)) (m : nat) : option (obj * nat) := Some (Obj m kd l, S m).
  (** All entries, in order. (runtime) *)
  Fixpoint entries {X} (f : X -> nat -> option (obj * nat)) (l : list (key * X)) (m : nat) : option (list (key * obj) * nat) :=
    match l with
    | [] => Some ([], m)
    | (x, o) :: r =>
        match f o m with
        | Some (o', m1) => match entries f r m1 with Some (r', m2) => Some ((x, o') :: r', m2) | None => None end
        | None => None
        end
    end.
  (** The input of every field: what is given, else the default, else None (transforms.py 120-135). *)
  Definition field_inputs (c : nat) (l : list (key * obj)) : list (key * (aty * obj)) :=
    map (fun f : key * (aty * option obj) =>
           let '(n, (t, d)) := f in
           (n, (t, match dget n l with Some o => o | None => match d with Some o => o | None => Imm 0 end end))) (fields c).

  (** import_converter (transforms.py 378-383) and the compound types: ListType._convert (compound.py 221-232),
      DictType._convert (300-313), ModelType._convert (150-162: a new instance, also from an instance, whose class it has),
      PolyModelType._convert (382-400: an allowed instance is kept unless validating). *)
  Fixpoint aconv (n : nat) (validate : bool) (t : aty) (o : obj) (m : nat) {struct n} : option (obj * nat) :=
    match n with
    | 0 => None
    | S n =>
        let model c l :=
          match entries (fun to : aty * obj => aconv n validate (fst to) (snd to)) (field_inputs c l) m with
          | Some (l', m') => alloc (OInst c) l' m'
          | None => None
          end in
        match o with
        | Imm 0 => Some (Imm 0, m)
        | _ =>
            match t with
            | Scalar i => match scal i o with Some k => Some (Imm k, m) | None => None end
            | Kept => Some (o, m)
            | AList t => match o with
                         | Obj _ OList l => match entries (aconv n validate t) l m with
                                            | Some (l', m') => alloc OList l' m' | None => None end
                         | _ => None end
            | ADict t => match o with
                         | Obj _ ODict l => match entries (aconv n validate t) l m with
                                            | Some (l', m') => alloc ODict l' m' | None => None end
                         | _ => None end
            | AModel c => match o with
                          | Obj _ ODict l => model c l
                          | Obj _ (OInst c') l => if sub c' c then model c' l else None
                          | _ => None end
            | APoly p => match o with
                         | Obj _ ODict l => match claim p o with Some c => model c l | None => None end
                         | Obj _ (OInst c') l =>
                             if validate then match claim p o with Some c => model c l | None => None end
                             else if allowed p c' then Some (o, m) else None
                         | _ => None end
            end
        end
    end.
  (** Model(raw) (models.py 221-238) for a mapping or an instance of any class. *)
  Definition ainstance (n : nat) (validate : bool) (c : nat) (raw : obj) (m : nat) : option (obj * nat) :=
    match raw with
    | Obj _ ODict l | Obj _ (OInst _) l =>
        match entries (fun to : aty * obj => aconv n validate (fst to) (snd to)) (field_inputs c l) m with
        | Some (l', m') => alloc (OInst c) l' m'
        | None => None
        end
    | _ => None
    end.
  (** validate() (models.py 240-266): the instance at [a] stays, its data is converted again; no defaults. *)
  Definition avalidate (n : nat) (o : obj) (m : nat) : option (obj * nat) :=
    match o with
    | Obj a (OInst c) l =>
        match entries (fun to : aty * obj => aconv n true (fst to) (snd to))
                      (map (fun f : key * (aty * option obj) =>
                              (fst f, (fst (snd f), match dget (fst f) l with Some o => o | None => Imm 0 end))) (fields c)) m with
        | Some (l', m') => Some (Obj a (OInst c) l', m')
        | None => None
        end
    | _ => None
    end.
  (** Assignment of a field (models.py 55-61): the value given is stored.  Without the dictionaries given to a ModelType, of
      which pre_setattr makes an instance (compound.py 142-148). *)
  Definition aassign (x : key) (v o : obj) : obj :=
    match o with Obj a kd l => Obj a kd (dset x v l) | Imm _ => o end.

  (** field.export: ListType (compound.py 251-269), DictType (315-333), ModelType (164-169) with export_loop
      (transforms.py 249-296), BaseType (base.py 293-305). *)
  Fixpoint aexport (n : nat) (t : aty) (o : obj) (m : nat) {struct n} : option (obj * nat) :=
    match n with
    | 0 => None
    | S n =>
        let model c l :=
          match entries (fun to : aty * obj => aexport n (fst to) (snd to))
                        (map (fun f : key * (aty * option obj) =>
                                (fst f, (fst (snd f), match dget (fst f) l with Some o => o | None => Imm 0 end))) (fields c)) m with
          | Some (l', m') => alloc ODict l' m'
          | None => None
          end in
        match o with
        | Imm 0 => Some (Imm 0, m)
        | _ =>
            match t with
            | Scalar i => match scal i o with Some k => Some (Imm k, m) | None => None end
            | Kept => Some (o, m)
            | AList t => match o with
                         | Obj _ OList l => match entries (aexport n t) l m with
                                            | Some (l', m') => alloc OList l' m' | None => None end
                         | _ => None end
            | ADict t => match o with
                         | Obj _ ODict l => match entries (aexport n t) l m with
                                            | Some (l', m') => alloc ODict l' m' | None => None end
                         | _ => None end
            | AModel _ => match o with Obj _ (OInst c) l => model c l | _ => None end
            | APoly p => match o with Obj _ (OInst c) l => if allowed p c then model c l else None | _ => None end
            end
        end
    end.
End Alias.
