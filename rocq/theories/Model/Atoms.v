(** Atoms: schematics/iteration.py 20-87, with the generator's laziness.  [W] is everything outside the generator, which
    a mapping, a filter and the code between two requests may change; [X] are the exceptions these may raise.
    Simplified: the fields of the schema do not change between requests; [keys] are texts; a filter answers with a bool. *)
From Verif.Model Require Import Py Core.

(** Atom, iteration.py 20-21. *)
Record atom := At { at_name : option key; at_field : option field; at_value : pyval }.

(** The fields of Atom, iteration.py 20. *)
Definition atom_fields : list pstr := [u "name"; u "field"; u "value"].

(** A generator not yet started, suspended before these fields, or finished. (runtime) *)
Inductive gen := GStart | GAt (rest : list (key * field)) | GEnd.
(** What a request gives: an atom, StopIteration, the TypeError of line 53, or an exception from outside. (runtime) *)
Inductive outcome (X : Type) := Yield (a : atom) | Stop | Invalid | Throw (x : X).
Arguments Yield {X}. Arguments Stop {X}. Arguments Invalid {X}. Arguments Throw {X}.

Section Atoms.
  Context {W X : Type}.
  (** [issubclass(type(x), Exception)]. (runtime) *)
  Context (is_Exception : X -> bool).
  (** [mapping[name]]; None: the mapping is None. *)
  Context (getitem : option (key -> W -> W * (pyval + X))).
  (** [filter(atom)]. *)
  Context (filt : option (atom -> W -> W * (bool + X))).
  Context (keys : list pstr) (fields : list (key * field)).

  (** [x in keys], iteration.py 55-57. *)
  Definition has_key (x : string) : bool := existsb (pstr_eqb (u x)) keys.
  (** iteration.py 52-53. *)
  Definition keys_ok : bool := forallb (fun x => existsb (pstr_eqb x) atom_fields) keys.

  (** iteration.py 57, 60-66; [VUndef] is Undefined. *)
  Definition atom_read (n : key) (w : W) : W * (pyval + X) :=
    match getitem with
    | Some g =>
        if has_key "value" then
          match g n w with
          | (w', inl v) => (w', inl v)
          | (w', inr x) => (w', if is_Exception x then inl VUndef else inr x)
          end
        else (w, inl VUndef)
    | None => (w, inl VUndef)
    end.
  (** iteration.py 68-71. *)
  Definition make_atom (n : key) (f : field) (v : pyval) : atom :=
    At (if has_key "name" then Some n else None) (if has_key "field" then Some f else None) v.
  (** The loop, iteration.py 59-75, up to the next atom or the end. *)
  Fixpoint atoms_loop (fs : list (key * field)) (w : W) : gen * W * outcome X :=
    match fs with
    | [] => (GEnd, w, Stop)
    | (n, f) :: r =>
        match atom_read n w with
        | (w1, inr x) => (GEnd, w1, Throw x)
        | (w1, inl v) =>
            let a := make_atom n f v in
            match filt with
            | None => (GAt r, w1, Yield a)
            | Some p => match p a w1 with
                        | (w2, inl true) => (GAt r, w2, Yield a)
                        | (w2, inl false) => atoms_loop r w2
                        | (w2, inr x) => (GEnd, w2, Throw x)
                        end
            end
        end
    end.
  (** [next(generator)] (runtime; iteration.py 52-75): nothing runs before the first request. *)
  Definition resume (g : gen) (w : W) : gen * W * outcome X :=
    match g with
    | GStart => if keys_ok then atoms_loop fields w else (GEnd, w, Invalid)
    | GAt r => atoms_loop r w
    | GEnd => (GEnd, w, Stop)
    end.
End Atoms.

(** atom_filter.has_setter, iteration.py 81-83; an atom without field has None there, which has no fset. *)
Definition setter_filter (a : atom) : bool := match at_field a with Some f => has_setter f | None => false end.
(** not_setter, iteration.py 85-87. *)
Definition no_setter_filter (a : atom) : bool := negb (setter_filter a).
