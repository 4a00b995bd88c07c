(** Vocabulary for C111. *)
From Verif.Model Require Import Py Core SetterObj.

(** Classes refer to objects that exist. *)
Definition well_placed (s : sstate) : Prop := forall c n a, In (n, a) (addresses s c) -> a < length (ss_objs s).
(** An event uses objects that exist. *)
Definition possible (s : sstate) (e : sevent) : Prop :=
  match e with
  | SNew _ => True
  | SClass _ own => forall n a, In (n, a) own -> a < length (ss_objs s)
  | SSetter a _ => a < length (ss_objs s)
  end.
(** All events of a run do. *)
Fixpoint all_possible (s : sstate) (es : list sevent) : Prop :=
  match es with [] => True | e :: r => possible s e /\ all_possible (sstep s e) r end.
(** The event uses the object in a class statement or gives it a setter. *)
Definition touches (a : nat) (e : sevent) : Prop :=
  match e with SNew _ => False | SClass _ own => exists n, In (n, a) own | SSetter b _ => a = b end.
(** The object is one of the class's. *)
Definition has_object (s : sstate) (c : nat) (a : nat) : Prop := In a (map snd (addresses s c)).
(** The first of several dictionaries that has a key gives its value. *)
Fixpoint first_having {A} (n : key) (ds : list (list (key * A))) : option A :=
  match ds with [] => None | d :: r => match dget n d with Some v => Some v | None => first_having n r end end.
(** A field of another class: same type, options, getter and setter, owned by the class
    (elements of lists and dictionaries are left open). *)
Definition owned_by (c : nat) (f g : field) : Prop :=
  fd_get g = fd_get f /\ fd_set g = fd_set f /\ fo_owner (fs_opts (fd_spec g)) = Some (N.of_nat c) /\
  let o := fs_opts (fd_spec f) in let o' := fs_opts (fd_spec g) in
  fo_required o' = fo_required o /\ fo_default o' = fo_default o /\ fo_sname o' = fo_sname o /\ fo_dfrom o' = fo_dfrom o /\
  fo_validators o' = fo_validators o /\ fo_level o' = fo_level o /\
  match fs_type (fd_spec f) with TList _ | TDict _ _ => True | t => fs_type (fd_spec g) = t end.
