(** When the names of a field take effect.  The input keys of a field are computed once, when a class is made of it
    (types/base.py 235-241), and used for imports without a mapping (base.py 264-268) and for the strict check (schema.py 24-26);
    its serialized name is looked up anew for exports and errors (transforms.py 121, 266).  Field objects are at addresses; a class refers to
    them by name.  The order of fields, and a class that uses one object under two names and is then derived from, are not considered. *)
From Verif.Model Require Import Py Core FieldCopy.

(** A field object: its options and type, [name] and [_input_keys] (base.py 209, 238-241); [None]: [_setup] has not run. *)
Record kfield := KF { kf_spec : fspec; kf_setup : option (key * list key) }.
(** The field objects and the classes, with their fields by name (schema.py 20-22). *)
Record kstate := KS { ks_objs : list kfield; ks_classes : list (list (key * nat)) }.

(** No object; its place is never used. (runtime) *)
Definition kf_none : kfield := KF (FS (FO false false VUndef None [] [] None None) (TUnion [])) None.
(** The object at an address. (runtime) *)
Definition kf_at (objs : list kfield) (a : nat) : kfield := nth a objs kf_none.
(** The fields of a class (schema.py 20). *)
Definition class_at (s : kstate) (c : nat) : list (key * nat) := nth c (ks_classes s) [].

(** BaseType._setup (base.py 235-241), called by Schema.append_field (schema.py 28-30). *)
Definition set_up (objs : list kfield) (p : key * nat) : list kfield :=
  upd_at (snd p) (fun o => KF (kf_spec o) (Some (fst p, input_keys (fst p) (kf_spec o) no_mapping))) objs.
(** [deepcopy(base._schema.fields)] (models.py 89, base.py 229-230). *)
Fixpoint copy_fields (objs : list kfield) (fs : list (key * nat)) : list kfield * list (key * nat) :=
  match fs with
  | [] => (objs, [])
  | (n, a) :: r => let '(o, r') := copy_fields (objs ++ [kf_at objs a]) r in (o, (n, length objs) :: r')
  end.
(** The loop over the bases, the last one first (models.py 87-89). *)
Fixpoint inherit (objs : list kfield) (fs : list (key * nat)) (bases : list (list (key * nat))) : list kfield * list (key * nat) :=
  match bases with
  | [] => (objs, fs)
  | b :: r => let '(o, c) := copy_fields objs b in inherit o (dupdate fs c) r
  end.
(** A class statement: the bases' fields, the class's own, then the set-up of all (models.py 87-124, schema.py 14-22). *)
Definition declare (s : kstate) (bases : list nat) (own : list (key * nat)) : kstate :=
  let '(o, fs) := inherit (ks_objs s) [] (map (class_at s) (rev bases)) in
  let fs := dupdate fs own in
  KS (fold_left set_up fs o) (ks_classes s ++ [fs]).

(** [field.serialized_name = x] (base.py 192): a plain attribute. *)
Definition with_sname (x : option key) (f : fspec) : fspec :=
  let o := fs_opts f in
  FS (FO (fo_named o) (fo_required o) (fo_default o) x (fo_dfrom o) (fo_validators o) (fo_level o) (fo_owner o)) (fs_type f).
(** [field.deserialize_from = [...]] (base.py 196). *)
Definition with_dfrom (l : list key) (f : fspec) : fspec :=
  let o := fs_opts f in
  FS (FO (fo_named o) (fo_required o) (fo_default o) (fo_sname o) l (fo_validators o) (fo_level o) (fo_owner o)) (fs_type f).

(** What programs do: make a field object, declare a class, assign names. *)
Inductive kevent :=
| KNew (f : fspec)
| KClass (bases : list nat) (own : list (key * nat))
| KSname (a : nat) (x : option key)
| KFrom (a : nat) (l : list key).
(** One of these (base.py 184-241, models.py 72-126). *)
Definition kstep (s : kstate) (e : kevent) : kstate :=
  match e with
  | KNew f => KS (ks_objs s ++ [KF f None]) (ks_classes s)
  | KClass bases own => declare s bases own
  | KSname a x => KS (upd_at a (fun o => KF (with_sname x (kf_spec o)) (kf_setup o)) (ks_objs s)) (ks_classes s)
  | KFrom a l => KS (upd_at a (fun o => KF (with_dfrom l (kf_spec o)) (kf_setup o)) (ks_objs s)) (ks_classes s)
  end.
(** All of them in order (base.py 184-241). *)
Definition krun (s : kstate) (es : list kevent) : kstate := fold_left kstep es s.

(** The truth of a mapping (base.py 265, transforms.py 104). *)
Definition any_mapping (m : mapping) : bool := match m with Mapping [] [] => false | _ => true end.
(** get_input_keys (base.py 264-278). *)
Definition get_input_keys (o : kfield) (m : mapping) : list key :=
  match kf_setup o with
  | Some (n, ks) => if any_mapping m then input_keys n (kf_spec o) m else ks
  | None => []
  end.
(** The loop over the input keys (transforms.py 124-127), on a dictionary. *)
Fixpoint first_key (raw : list (key * pyval)) (n : key) (ks : list key) : pyval :=
  match ks with
  | [] => VUndef
  | x :: r => if key_true x && negb (key_eqb x n) then match dget x raw with Some v => v | None => first_key raw n r end else first_key raw n r
  end.
(** The value a field takes from the data (transforms.py 120-127). *)
Definition value_of (raw : list (key * pyval)) (n : key) (ks : list key) : pyval :=
  match dget n raw with Some v => if is_undef v then first_key raw n ks else v | None => first_key raw n ks end.
(** The same for a field of a class. *)
Definition class_value (s : kstate) (c : nat) (m : mapping) (raw : list (key * pyval)) (n : key) : pyval :=
  match dget n (class_at s c) with
  | Some a => value_of raw n (get_input_keys (kf_at (ks_objs s) a) m)
  | None => VUndef
  end.
(** The keys that are refused with [strict] (transforms.py 101-114, schema.py 24-26). *)
Definition class_rogues (s : kstate) (c : nat) (m : mapping) (raw : list (key * pyval)) : list key :=
  let known := flat_map (fun p => get_input_keys (kf_at (ks_objs s) (snd p)) no_mapping) (class_at s c) ++ flat_map snd (map_keys m) in
  filter (fun x => negb (kmem x known)) (dkeys raw).
(** The key of a field in exports and errors (transforms.py 121, 266). *)
Definition class_output (s : kstate) (c : nat) (n : key) : option key :=
  option_map (fun a => sname_of n (kf_spec (kf_at (ks_objs s) a))) (dget n (class_at s c)).
