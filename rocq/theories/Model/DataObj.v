(** Data objects (schematics/datastructures.py 17-97) as objects at addresses: construction, attributes and subscription,
    [_update], [_setdefaults], [_copy], [_to_dict], [==].
    Simplified: keys are texts or integers; nothing stored in a data object is callable; comparing objects without parts does not
    raise; a source given by address is a data object or a dictionary, pairs are written out. *)
From Verif.Model Require Import Py Core Cyclic.

(** Data objects, dictionaries, lists; parts as in [Cyclic] (runtime; datastructures.py 17). *)
Inductive dobj :=
| DData (d : list (key * hval))
| DDict (d : list (key * hval))
| DList (l : list hval).
(** Objects by address. (runtime) *)
Definition dheap := list dobj.
(** The object at an address. (runtime) *)
Definition obj_at (h : dheap) (a : nat) : option dobj := nth_error h a.
(** Changing the object at an address. (runtime) *)
Fixpoint obj_put (h : dheap) (a : nat) (o : dobj) : dheap :=
  match h, a with
  | [], _ => []
  | _ :: r, O => o :: r
  | p :: r, S a => p :: obj_put r a o
  end.

(** What an operation does to the objects, and its answer. (runtime) *)
Definition act (A : Type) : Type := dheap * res A.

(** The methods and other attributes of the class (datastructures.py 49-97, and those of [object]). *)
Definition class_names : list pstr := map u
  ["__init__"; "__repr__"; "_copy"; "__copy__"; "__eq__"; "__iter__"; "_update"; "_setdefaults"; "_to_dict"; "__setitem__";
   "__getitem__"; "__delitem__"; "__len__"; "__contains__"; "_clear"; "_get"; "_items"; "_keys"; "_pop"; "_setdefault";
   "__delattr__"; "__dir__"; "__doc__"; "__format__"; "__ge__"; "__getattribute__"; "__getstate__"; "__gt__"; "__hash__";
   "__init_subclass__"; "__le__"; "__lt__"; "__module__"; "__ne__"; "__new__"; "__reduce__"; "__reduce_ex__"; "__setattr__";
   "__sizeof__"; "__str__"; "__subclasshook__"]%string.
(** The attributes of the class that come before those of the instance. (runtime) *)
Definition slot_names : list pstr := map u ["__dict__"; "__class__"; "__weakref__"]%string.
(** Membership in a list of names. (runtime) *)
Definition name_in (x : pstr) (l : list pstr) : bool := existsb (pstr_eqb x) l.

(** What [d.x] gives: something stored, or an attribute of the class. (runtime) *)
Inductive attr := AStored (v : hval) | AClass (x : pstr).

Section Ops.
  Context (h : dheap) (a : nat).
  (** [self.__dict__]; the address is that of a data object. (runtime) *)
  Definition dict_of (h : dheap) (a : nat) : list (key * hval) :=
    match obj_at h a with Some (DData d) => d | _ => [] end.
  (** Changing [self.__dict__]. (runtime) *)
  Definition put_dict (d : list (key * hval)) : dheap := obj_put h a (DData d).

  (** [d.x]. (runtime) *)
  Definition obj_getattr (x : pstr) : res attr :=
    if name_in x slot_names then Ok (AClass x)
    else match dget (KStr x) (dict_of h a) with
         | Some v => Ok (AStored v)
         | None => if name_in x class_names then Ok (AClass x) else Raise (XPy EAttributeError)
         end.
  (** Setting or deleting a slot: [__weakref__] is read-only. (runtime) *)
  Definition slot_error (x : pstr) : exn := XPy (if pstr_eqb x (u "__weakref__") then EAttributeError else ETypeError).
  (** [d.x = v]; the values are neither dictionaries nor classes, where the slots are concerned. (runtime) *)
  Definition obj_setattr (x : pstr) (v : hval) : act unit :=
    if name_in x slot_names then (h, Raise (slot_error x)) else (put_dict (dset (KStr x) v (dict_of h a)), Ok tt).
  (** [del d.x]. (runtime) *)
  Definition obj_delattr (x : pstr) : act unit :=
    if name_in x slot_names then (h, Raise (slot_error x))
    else if dmem (KStr x) (dict_of h a) then (put_dict (ddel (KStr x) (dict_of h a)), Ok tt)
    else (h, Raise (XPy EAttributeError)).

  (** __getitem__ (datastructures.py 87). *)
  Definition obj_getitem (x : key) : res hval :=
    match dget x (dict_of h a) with Some v => Ok v | None => Raise (XPy EKeyError) end.
  (** __setitem__ (datastructures.py 86). *)
  Definition obj_setitem (x : key) (v : hval) : act unit := (put_dict (dset x v (dict_of h a)), Ok tt).
  (** __delitem__ (datastructures.py 88). *)
  Definition obj_delitem (x : key) : act unit :=
    if dmem x (dict_of h a) then (put_dict (ddel x (dict_of h a)), Ok tt) else (h, Raise (XPy EKeyError)).
  (** __contains__ (datastructures.py 90). *)
  Definition obj_contains (x : key) : bool := dmem x (dict_of h a).
  (** __len__ (datastructures.py 89). *)
  Definition obj_len : nat := length (dict_of h a).
  (** __iter__ (datastructures.py 64-65). *)
  Definition obj_iter : list (key * hval) := dict_of h a.

  (** Looking up and calling the method [x]: what is stored under its name comes first and cannot be called. (runtime) *)
  Definition method {A} (x : string) (body : act A) : act A :=
    if dmem (k x) (dict_of h a) then (h, Raise (XPy ETypeError)) else body.

  (** [_get(x, default)] (datastructures.py 93). *)
  Definition obj_get (x : key) (dflt : hval) : act hval :=
    method "_get" (h, Ok match dget x (dict_of h a) with Some v => v | None => dflt end).
  (** [_keys()] (datastructures.py 95). *)
  Definition obj_keys : act (list key) := method "_keys" (h, Ok (dkeys (dict_of h a))).
  (** [_clear()] (datastructures.py 92). *)
  Definition obj_clear : act unit := method "_clear" (put_dict [], Ok tt).
  (** [_pop(x)] and [_pop(x, default)] (datastructures.py 96). *)
  Definition obj_pop (x : key) (dflt : option hval) : act hval :=
    method "_pop" match dget x (dict_of h a), dflt with
                  | Some v, _ => (put_dict (ddel x (dict_of h a)), Ok v)
                  | None, Some w => (h, Ok w)
                  | None, None => (h, Raise (XPy EKeyError))
                  end.
  (** [_setdefault(x, default)] (datastructures.py 97). *)
  Definition obj_setdefault (x : key) (dflt : hval) : act hval :=
    method "_setdefault" match dget x (dict_of h a) with
                         | Some v => (h, Ok v)
                         | None => (put_dict (dset x dflt (dict_of h a)), Ok dflt)
                         end.
End Ops.

(** What a source can be: None, an object, pairs of name and value (datastructures.py 67-77). *)
Inductive dsource := SNone | SRef (a : nat) | SPairs (l : list (key * hval)).
(** The pairs [dict.update] takes from a source (datastructures.py 68-70, runtime) and [_setdefaults] goes through (73-75).
    Simplified: lists are written out as pairs, one given by address is refused. *)
Definition source_pairs (h : dheap) (s : dsource) : res (list (key * hval)) :=
  match s with
  | SNone => Raise (XPy ETypeError)
  | SPairs l => Ok l
  | SRef b => match obj_at h b with
              | Some (DData d) | Some (DDict d) => Ok d
              | _ => Raise (XPy ETypeError)
              end
  end.

(** The value given for the keyword [source], as a source. (runtime) *)
Definition as_source (v : hval) : dsource := match v with HAtom _ => SNone | HRef b => SRef b end.

(** _update (datastructures.py 67-70): [source] is given by position, by its name, or not at all; [self] cannot be a keyword. *)
Definition update_args (pos : option dsource) (kw : list (key * hval)) : res (dsource * list (key * hval)) :=
  if dmem (k "self") kw then Raise (XPy ETypeError)
  else match pos, dget (k "source") kw with
       | Some _, Some _ => Raise (XPy ETypeError)
       | Some s, None => Ok (s, kw)
       | None, Some v => Ok (as_source v, ddel (k "source") kw)
       | None, None => Ok (SNone, kw)
       end.
(** The body of _update (datastructures.py 68-70). *)
Definition update_body (h : dheap) (a : nat) (s : dsource) (kw : list (key * hval)) : act unit :=
  match source_pairs h s with
  | Ok l => (put_dict h a (dupdate (dupdate (dict_of h a) l) kw), Ok tt)
  | Raise x => (h, Raise x)
  end.
(** _update (datastructures.py 67-70). *)
Definition obj_update (h : dheap) (a : nat) (pos : option dsource) (kw : list (key * hval)) : act unit :=
  method h a "_update" match update_args pos kw with
                       | Ok (s, kw) => update_body h a s kw
                       | Raise x => (h, Raise x)
                       end.

(** DataObject(...) (datastructures.py 49-51): the new object, whose address is the first that is free.  Only the first positional
    argument is looked at. *)
Definition obj_new (h : dheap) (args : list dsource) (kw : list (key * hval)) : act nat :=
  let a := length h in
  let s := match args with s :: _ => s | [] => SPairs [] end in
  let '(h', r) := if dmem (k "self") kw then (h, Raise (XPy ETypeError))
                  else obj_update (h ++ [DData []]) a (Some s) kw in
  (h', rbind r (fun _ => Ok a)).

(** _copy and __copy__ (datastructures.py 56-59). *)
Definition obj_copy (h : dheap) (a : nat) : act nat := method h a "_copy" (obj_new h [SRef a] []).

(** The loop of _setdefaults (datastructures.py 75-76). *)
Fixpoint setdefaults_loop (h : dheap) (a : nat) (l : list (key * hval)) : act unit :=
  match l with
  | [] => (h, Ok tt)
  | (x, v) :: r => match obj_setdefault h a x v with
                   | (h', Ok _) => setdefaults_loop h' a r
                   | (h', Raise e) => (h', Raise e)
                   end
  end.
(** _setdefaults (datastructures.py 72-77); it answers the object itself. *)
Definition obj_setdefaults (h : dheap) (a : nat) (s : dsource) : act nat :=
  method h a "_setdefaults" match source_pairs h s with
                            | Ok l => let '(h', r) := setdefaults_loop h a l in (h', rbind r (fun _ => Ok a))
                            | Raise x => (h, Raise x)
                            end.

(** Whether something is a data object (datastructures.py 82, runtime). *)
Definition data_at (h : dheap) (v : hval) : option nat :=
  match v with HRef b => match obj_at h b with Some (DData _) => Some b | _ => None end | HAtom _ => None end.

Section ToDict.
  (** The call of _to_dict for a part (datastructures.py 83). *)
  Context (rec : dheap -> nat -> act nat).
  (** The loop of _to_dict (datastructures.py 81-83) over the pairs that are left; [b] is the address of the new dictionary. *)
  Fixpoint to_dict_loop (h : dheap) (b : nat) (l : list (key * hval)) : act unit :=
    match l with
    | [] => (h, Ok tt)
    | (x, v) :: r =>
        match data_at h v with
        | Some c => match rec h c with
                    | (h1, Ok b') =>
                        let d := match obj_at h1 b with Some (DDict d) => d | _ => [] end in
                        to_dict_loop (obj_put h1 b (DDict (dset x (HRef b') d))) b r
                    | (h1, Raise e) => (h1, Raise e)
                    end
        | None => to_dict_loop h b r
        end
    end.
End ToDict.
(** _to_dict (datastructures.py 79-84) with recursion depth at most [n]; it answers the address of the dictionary. *)
Fixpoint to_dict (n : nat) (h : dheap) (a : nat) {struct n} : act nat :=
  match n with
  | O => (h, Raise XFuel)
  | S n =>
      method h a "_to_dict"
        (let b := length h in
         let '(h', r) := to_dict_loop (to_dict n) (h ++ [DDict (dict_of h a)]) b (dict_of h a) in
         (h', rbind r (fun _ => Ok b)))
  end.

Section Eq.
  Context (h : dheap).
  (** [==] of objects without parts. *)
  Context (aeq : nat -> nat -> bool).
  Section Loops.
    (** Comparison of parts. *)
    Context (eq : hval -> hval -> res bool).
    (** Elements of containers are compared by identity first. (runtime) *)
    Definition eq_part (x y : hval) : res bool := if same_obj x y then Ok true else eq x y.
    (** Elementwise, stopping at the first difference. (runtime) *)
    Fixpoint lists_eq (l l' : list hval) : res bool :=
      match l, l' with
      | x :: r, y :: r' => rbind (eq_part x y) (fun b => if b then lists_eq r r' else Ok false)
      | _, _ => Ok true
      end.
    (** Every entry of the first dictionary has an equal one in the second. (runtime) *)
    Fixpoint dicts_eq (d d' : list (key * hval)) : res bool :=
      match d with
      | [] => Ok true
      | (x, v) :: r => match dget x d' with
                       | None => Ok false
                       | Some w => rbind (eq_part v w) (fun b => if b then dicts_eq r d' else Ok false)
                       end
      end.
  End Loops.
  (** [x == y] (datastructures.py 61-62 for data objects) with recursion depth at most [n]. *)
  Fixpoint data_eq (n : nat) (x y : hval) {struct n} : res bool :=
    match n with
    | O => Raise XFuel
    | S n =>
        match x, y with
        | HAtom i, HAtom j => Ok (aeq i j)
        | HRef a, HRef b =>
            match obj_at h a, obj_at h b with
            | Some (DData d), Some (DData d') | Some (DDict d), Some (DDict d') =>
                if Nat.eqb (length d) (length d') then dicts_eq (data_eq n) d d' else Ok false
            | Some (DList l), Some (DList l') =>
                if Nat.eqb (length l) (length l') then lists_eq (data_eq n) l l' else Ok false
            | _, _ => Ok false
            end
        | _, _ => Ok false
        end
    end.
End Eq.
