(** Adding a field to an existing class: models.py 346-358 (Model._append_field), schema.py 28-30
    (Schema.append_field). *)
From Verif.Model Require Import Py Core Export Meta.

(** Change the class at a position. (runtime) *)
Fixpoint cupd (l : list cls) (n : nat) (f : cls -> cls) : list cls :=
  match l, n with
  | [], _ => []
  | k :: r, O => f k :: r
  | k :: r, S m => k :: cupd r m f
  end.

(** [self.fields[field.name] = field.type] (schema.py 29): a new key goes to the end, the value of a
    known one is replaced where it stands. *)
Definition put_field (x : key) (a : addr) (k : cls) : cls :=
  Cls (cl_bases k) (dset x (En a None None) (cl_fields k)) (cl_opts k) (cl_validators k) (cl_claim k).

(** [cls._append_field(x, a)] (models.py 346-358): the entry in the schema of the class, then the set-up of
    the field object (schema.py 30).  The descriptor that is put on the class (line 358) is determined by the
    fields, as in Meta.v.  Simplifications: the field is an instance of BaseType (schema.py 60 also allows a
    Serializable, which would get the descriptor of a plain field); the class exists. *)
Definition append_field (P : program) (c : cid) (x : key) (a : addr) : program :=
  match class_at P c with
  | None => P
  | Some _ => Prog (setup (length (p_heap P)) (p_heap P) a true c)
                   (cupd (p_classes P) (N.to_nat c) (put_field x a))
  end.
