(** Vocabulary for C110. *)
From Verif.Model Require Import Py Core KeyCache.

(** Classes refer to objects that exist. *)
Definition sound (s : kstate) : Prop := forall c n a, In (n, a) (class_at s c) -> a < length (ks_objs s).
(** An event uses objects that exist. *)
Definition in_range (s : kstate) (e : kevent) : Prop :=
  match e with
  | KNew _ => True
  | KClass _ own => forall n a, In (n, a) own -> a < length (ks_objs s)
  | KSname a _ | KFrom a _ => a < length (ks_objs s)
  end.
(** All events of a run do. *)
Fixpoint all_in_range (s : kstate) (es : list kevent) : Prop :=
  match es with [] => True | e :: r => in_range s e /\ all_in_range (kstep s e) r end.
(** The event makes another class of the object itself. *)
Definition redeclares (a : nat) (e : kevent) : Prop := match e with KClass _ own => exists n, In (n, a) own | _ => False end.
(** The event assigns names to the object. *)
Definition renames (a : nat) (e : kevent) : Prop := match e with KSname b _ | KFrom b _ => a = b | _ => False end.
(** The field objects of a class. *)
Definition objects (s : kstate) (c : nat) : list nat := map snd (class_at s c).
(** The fields of a class as the import loop sees them when all is up to date: names, options and types. *)
Definition plain_fields (s : kstate) (c : nat) : list (key * field) :=
  map (fun p => (fst p, Fld (kf_spec (kf_at (ks_objs s) (snd p))) None None)) (class_at s c).
(** Importing, strict check and export are those of fields with these names: the loop of C01 takes the same values, the
    same keys are refused. *)
Definition as_declared (s : kstate) (c : nat) : Prop :=
  (forall E m raw n f, dget n (plain_fields s c) = Some f ->
     (if is_undef (atom_value E (VDict raw) n) then find_alt E (VDict raw) n (input_keys n (fd_spec f) m) else Ok (atom_value E (VDict raw) n))
     = Ok (class_value s c m raw n)) /\
  (forall m raw, class_rogues s c m raw = filter (fun x => negb (kmem x (all_input_keys (plain_fields s c) m))) (dkeys raw)).
(** The first of several dictionaries that has a key gives its value. *)
Fixpoint first_with {A} (n : key) (ds : list (list (key * A))) : option A :=
  match ds with [] => None | d :: r => match dget n d with Some v => Some v | None => first_with n r end end.
(** Serialized name and further names of a field. *)
Definition names (f : fspec) : option key * list key := (fo_sname (fs_opts f), fo_dfrom (fs_opts f)).
