(** Adding a field, plain or computed, to a class that exists: Model._append_field (models.py 345-358) on the classes and field objects of
    SetterObj.v.  The class gets the descriptor of a plain field (line 358) whatever is added. *)
From Verif.Model Require Import Py Core Build FieldCopy SetterObj.

(** Classes and objects, and where a descriptor of a plain field was put on a class (models.py 358). *)
Record astate := AS { as_base : sstate; as_plain : list (nat * key) }.

(** [cls._append_field(n, field)] (models.py 357-358, schema.py 28-30); the class and the object exist. *)
Definition append_any (s : astate) (c : nat) (n : key) (a : nat) : astate :=
  AS (SS (adopt_at c (ss_objs (as_base s)) (n, a)) (upd_at c (dset n a) (ss_classes (as_base s)))) ((c, n) :: as_plain s).

(** What programs do: as before, or add a field. *)
Inductive aevent := AStep (e : sevent) | AAppend (c : nat) (n : key) (a : nat).
(** One of these (models.py 72-126, 345-358). *)
Definition astep (s : astate) (e : aevent) : astate :=
  match e with
  | AStep e => AS (sstep (as_base s) e) (as_plain s)
  | AAppend c n a => append_any s c n a
  end.
(** All of them in order (models.py 345-358). *)
Definition arun (s : astate) (es : list aevent) : astate := fold_left astep es s.

(** Whether instances of the class use a plain descriptor for the name that it was given later (models.py 358). *)
Definition is_plain (s : astate) (c : nat) (n : key) : bool := existsb (fun p => Nat.eqb (fst p) c && key_eqb (snd p) n) (as_plain s).
(** FieldDescriptor.__set__ (models.py 55-61) in the form of a setter; [pre_setattr] is applied before (Core.v). *)
Definition store (n : key) : setfun :=
  fun i v => match i with
             | VModel c m => (VModel c (MD (md_unsafe m) (dset n v (md_converted m)) (md_valid m) (md_hidden m)), None)
             | _ => (i, Some (XPy EAttributeError))
             end.
(** The fields as instances of the class see them: for a plain descriptor neither getter nor setter of a Serializable is called (models.py 41-61); that
    there is a setter still matters to the loops (iteration.py 77-85). *)
Definition instance_fields (s : astate) (c : nat) : list (key * field) :=
  map (fun p => (fst p, if is_plain s c (fst p)
                        then Fld (fd_spec (snd p)) None (option_map (fun _ => store (fst p)) (fd_set (snd p)))
                        else snd p)) (fields_of (as_base s) c).
(** Model.__contains__ (models.py 401-403) where [E] has the fields as instances see them: [_serializables] (deprecated.py 58-59) goes by the
    schema. *)
Definition contains (s : astate) (c : nat) (E : env) (m : mdata pyval) (n : key) : bool :=
  (chain_mem m n && match model_getitem E (N.of_nat c) m n with Ok _ => true | Raise _ => false end)
  || match dget n (fields_of (as_base s) c) with Some f => negb (is_none_opt (fd_get f)) | None => false end.
