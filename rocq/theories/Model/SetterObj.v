(** Setters of computed fields.  A Serializable is an object: [Class.name.setter(f)] changes it and returns it (types/serializable.py 96-98), the
    class attribute being the object itself (lines 80-82); a derived class gets a copy (lines 103-104).  Field objects, plain or computed, are at
    addresses; a class refers to them by name.  The order of fields is not considered; element types are copied with their list or dictionary,
    which is not so in the code (base.py 229-230; for that see C109). *)
From Verif.Model Require Import Py Core Build FieldCopy.

(** A setter function (serializable.py 90-94). *)
Definition setfun := pyval -> pyval -> pyval * option exn.
(** The field objects and the classes, with their fields by name (schema.py 20-22). *)
Record sstate := SS { ss_objs : list field; ss_classes : list (list (key * nat)) }.
(** No object; its place is never used. (runtime) *)
Definition sf_none : field := Fld (FS (FO false false VUndef None [] [] None None) (TUnion [])) None None.
(** The object at an address. (runtime) *)
Definition sf_at (objs : list field) (a : nat) : field := nth a objs sf_none.
(** The fields of a class (schema.py 20), as addresses *)
Definition addresses (s : sstate) (c : nat) : list (key * nat) := nth c (ss_classes s) [].
(** and as what is there (models.py 93-98). *)
Definition fields_of (s : sstate) (c : nat) : list (key * field) := map (fun p => (fst p, sf_at (ss_objs s) (snd p))) (addresses s c).

(** [field._setup(name, owner)] (schema.py 28-30, base.py 235-241); a Serializable passes the call to its type (serializable.py 77-78). *)
Definition adopt (c : nat) (f : field) : field := Fld (set_up_field true (N.of_nat c) (fd_spec f)) (fd_get f) (fd_set f).
(** The same on the object at the address. *)
Definition adopt_at (c : nat) (objs : list field) (p : key * nat) : list field := upd_at (snd p) (adopt c) objs.
(** [deepcopy(base._schema.fields)] (models.py 89, base.py 229-230, serializable.py 103-104). *)
Fixpoint copy_all (objs : list field) (fs : list (key * nat)) : list field * list (key * nat) :=
  match fs with
  | [] => (objs, [])
  | (n, a) :: r => let '(o, r') := copy_all (objs ++ [sf_at objs a]) r in (o, (n, length objs) :: r')
  end.
(** The loop over the bases, the last one first (models.py 87-89). *)
Fixpoint inherit_all (objs : list field) (fs : list (key * nat)) (bases : list (list (key * nat))) : list field * list (key * nat) :=
  match bases with
  | [] => (objs, fs)
  | b :: r => let '(o, c) := copy_all objs b in inherit_all o (dupdate fs c) r
  end.
(** A class statement: the bases' fields, the class's own, then the set-up of all (models.py 87-124, schema.py 14-22). *)
Definition class_statement (s : sstate) (bases : list nat) (own : list (key * nat)) : sstate :=
  let '(o, fs) := inherit_all (ss_objs s) [] (map (addresses s) (rev bases)) in
  let fs := dupdate fs own in
  SS (fold_left (adopt_at (length (ss_classes s))) fs o) (ss_classes s ++ [fs]).

(** Serializable.setter (serializable.py 96-98). *)
Definition given_setter (g : setfun) (f : field) : field := Fld (fd_spec f) (fd_get f) (Some g).

(** What programs do: make a field object, declare a class, give a computed field a setter. *)
Inductive sevent :=
| SNew (f : field)
| SClass (bases : list nat) (own : list (key * nat))
| SSetter (a : nat) (g : setfun).
(** One of these (base.py 184-241, models.py 72-126, serializable.py 72-98). *)
Definition sstep (s : sstate) (e : sevent) : sstate :=
  match e with
  | SNew f => SS (ss_objs s ++ [f]) (ss_classes s)
  | SClass bases own => class_statement s bases own
  | SSetter a g => SS (upd_at a (given_setter g) (ss_objs s)) (ss_classes s)
  end.
(** All of them in order (serializable.py 72-98). *)
Definition srun (s : sstate) (es : list sevent) : sstate := fold_left sstep es s.
