(** Error objects: schematics/exceptions.py 24-232 and the frozen containers of
    schematics/datastructures.py 285-346. *)
From Verif.Model Require Import Py.

(** The concrete error classes: ConversionError (exceptions.py 200-202), ValidationError (205-207),
    StopValidationError (210-212), CompoundError (215-225), DataError (228-232).  [BaseError] and
    [FieldError] are abstract: the latter refuses to be instantiated (line 155-156). *)
Inductive ecls := CConv | CValid | CStop | CCompound | CData.

(** Identity of classes. (runtime) *)
Definition ecls_eqb (a b : ecls) : bool :=
  match a, b with
  | CConv, CConv | CValid, CValid | CStop, CStop | CCompound, CCompound | CData, CData => true
  | _, _ => false
  end.

(** [issubclass(a, b)] among these (exceptions.py 200, 205, 210, 215, 228). *)
Definition subclass (a b : ecls) : bool :=
  ecls_eqb a b ||
  match a, b with CStop, CValid | CData, CCompound => true | _, _ => false end.

(** Subclasses of FieldError (exceptions.py 149). *)
Definition is_field_cls (c : ecls) : bool :=
  match c with CConv | CValid | CStop => true | CCompound | CData => false end.

(** ErrorMessage (exceptions.py 102-107): [type] is [None] until a FieldError takes the message.
    Simplification: the summary is a text (anything is accepted there by the code). *)
Record message := Msg { ms_summary : pstr; ms_type : option ecls; ms_info : pyval }.

(** The objects that occur in errors.  [OLazy s] is a LazyText whose [str] is [s] (translator.py 6-13, the
    translator being fixed); [OVal] is any other object that is neither a text nor a container.
    [OErr c e] is an exception object of class [c] whose [errors] (exceptions.py 44-46) is [e]; the
    [partial_data] of a DataError (line 232) takes no part in what is modelled here. *)
Inductive eobj :=
| OStr (s : pstr)
| OLazy (s : pstr)
| OMsg (m : message)
| OTuple (l : list eobj)
| OList (l : list eobj)
| ODict (d : list (key * eobj))
| OFrozenList (l : list eobj)
| OFrozenDict (d : list (key * eobj))
| OErr (c : ecls) (errors : eobj)
| OVal (v : pyval).

(** BaseError._freeze (exceptions.py 57-65): only the outermost container. *)
Definition freeze (o : eobj) : eobj :=
  match o with
  | ODict d => OFrozenDict d
  | OList l => OFrozenList l
  | _ => o
  end.

(** BaseError.__init__ (exceptions.py 27-42). *)
Definition base_error (c : ecls) (errors : eobj) : eobj := OErr c (freeze errors).

(** An object used as the [info] of a message: only texts and plain values are modelled. *)
Definition info_of (o : eobj) : option pyval :=
  match o with
  | OStr s => Some (VStr s)
  | OVal v => Some v
  | _ => None
  end.

(** [ErrorMessage( *args )] and [ErrorMessage( *args, info=..)] (exceptions.py 104-107): one or two arguments,
    the keyword excludes the second.  Not modelled: a summary that is not a text, other keywords;
    these are answered by TypeError here. *)
Definition error_message (args : list eobj) (kw : option pyval) : res message :=
  match args, kw with
  | [OStr s], None | [OLazy s], None => Ok (Msg s None VNone)
  | [OStr s], Some v | [OLazy s], Some v => Ok (Msg s None v)
  | [OStr s; i], None | [OLazy s; i], None =>
      match info_of i with Some v => Ok (Msg s None v) | None => Raise (XPy ETypeError) end
  | _, _ => Raise (XPy ETypeError)
  end.

(** The messages held by an [errors] attribute when it is iterated over. (runtime) *)
Fixpoint messages_of (l : list eobj) : list message :=
  match l with
  | [] => []
  | OMsg m :: r => m :: messages_of r
  | _ :: r => messages_of r
  end.

(** One round of the loop in FieldError.__init__ (exceptions.py 170-181).  [errors] of a field error is always a
    frozen list of messages. *)
Definition item_messages (c : ecls) (item : eobj) : res (list message) :=
  match item with
  | OStr s | OLazy s => Ok [Msg s None VNone]
  | OTuple l => rbind (error_message l None) (fun m => Ok [m])
  | OMsg m => Ok [m]
  | OErr c' (OFrozenList l) => if subclass c' c then Ok (messages_of l) else Raise (XPy ETypeError)
  | _ => Raise (XPy ETypeError)
  end.

(** The loop (exceptions.py 169-181). *)
Fixpoint items_messages (c : ecls) (items : list eobj) : res (list message) :=
  match items with
  | [] => Ok []
  | i :: r => rbind (item_messages c i) (fun ms => rbind (items_messages c r) (fun rest => Ok (ms ++ rest)))
  end.

(** [self.type or type(self)] (exceptions.py 151, 183, 212). *)
Definition message_type (c : ecls) : ecls := match c with CStop => CValid | _ => c end.

(** [error.type = ...] (exceptions.py 182-183).  Simplification: messages are values, so the change does not
    show in other errors that hold the same message object. *)
Definition set_type (c : ecls) (m : message) : message :=
  Msg (ms_summary m) (Some (message_type c)) (ms_info m).

(** The choice of the items (exceptions.py 157-168); [kw] is the keyword [info]. *)
Definition field_items (args : list eobj) (kw : option pyval) : res (list eobj) :=
  match args, kw with
  | [], _ => Raise (XPy ETypeError)
  | _, Some v => rbind (error_message args kw) (fun m => Ok [OMsg m])
  | [OList l], None => Ok l
  | _, None => Ok args
  end.

(** FieldError.__init__ (exceptions.py 153-185) for a concrete class. *)
Definition field_error (c : ecls) (args : list eobj) (kw : option pyval) : res eobj :=
  rbind (field_items args kw) (fun items =>
  rbind (items_messages c items) (fun ms =>
  Ok (base_error c (OList (map OMsg (map (set_type c) ms)))))).

(** The replacement of nested compound errors (exceptions.py 220-224). *)
Definition embed (o : eobj) : eobj :=
  match o with
  | OErr CCompound e | OErr CData e => e
  | _ => o
  end.

(** CompoundError.__init__ (exceptions.py 217-225) and DataError.__init__ (230-232).  The replacement is also
    seen by the caller, whose dictionary it happens in: [compound_error_arg]. *)
Definition compound_error_arg (d : list (key * eobj)) : list (key * eobj) :=
  map (fun p => (fst p, embed (snd p))) d.
(** CompoundError.__init__ (exceptions.py 217-225) as a function of its argument. *)
Definition compound_error (c : ecls) (errors : eobj) : res eobj :=
  match errors with
  | ODict d => Ok (base_error c (ODict (compound_error_arg d)))
  | _ => Raise (XPy ETypeError)
  end.

(** What the runtime provides: [str] of an object, [json.dumps] of a primitive structure, equality of plain
    values, and hashes.  [h_val] is [None] where [hash] raises TypeError. (runtime) *)
Record runtime := Runtime {
  r_str : pyval -> pstr;
  r_dumps : pyval -> pstr;
  r_eq : pyval -> pyval -> bool;
  h_str : pstr -> Z;
  h_int : Z -> Z;
  h_type : option ecls -> Z;
  h_val : pyval -> option Z;
  h_tuple : list Z -> Z }.

Section Errors.
  Context (R : runtime).

  (** ErrorMessage._info_as_str (exceptions.py 122-128). *)
  Definition info_as_str (v : pyval) : pstr :=
    match v with
    | VStr s => 34%N :: s ++ [34%N]
    | _ => r_str R v
    end.

  (** ErrorMessage.__str__ (exceptions.py 116-120). *)
  Definition message_str (m : message) : pstr :=
    if truthy (ms_info m) then ms_summary m ++ u ": " ++ info_as_str (ms_info m) else ms_summary m.

  (** BaseError._to_primitive (exceptions.py 67-79).  A field error is a Sequence (149, 190-197), a frozen
      list too (datastructures.py 315), a frozen dictionary is a Mapping (285); a compound error is neither, its
      [str] is lines 81-82. *)
  Fixpoint to_prim (o : eobj) : pyval :=
    match o with
    | OStr s => VStr s
    | OLazy s => VStr s
    | OMsg m => VStr (message_str m)
    | OTuple l | OList l | OFrozenList l => VList (map to_prim l)
    | ODict d | OFrozenDict d => VDict (map (fun p => (fst p, to_prim (snd p))) d)
    | OErr c e => if is_field_cls c then to_prim e else VStr (r_dumps R (to_prim e))
    | OVal v => VStr (r_str R v)
    end.

  (** BaseError.to_primitive (exceptions.py 48-54), the cached result being the same as a fresh one. *)
  Definition to_primitive (o : eobj) : res pyval :=
    match o with
    | OErr _ e => Ok (to_prim e)
    | _ => Raise (XPy EAttributeError)
    end.

  (** [len(o)] and [o[i]] for the operand of FrozenList.__eq__: texts, sequences, mappings (with their
      integer keys) and field errors (exceptions.py 190-197). (runtime) *)
  Definition size_of (o : eobj) : res nat :=
    match o with
    | OStr s => Ok (length s)
    | OTuple l | OList l | OFrozenList l => Ok (length l)
    | ODict d | OFrozenDict d => Ok (length d)
    | OErr c (OFrozenList l) => if is_field_cls c then Ok (length l) else Raise (XPy ETypeError)
    | _ => Raise (XPy ETypeError)
    end.
  (** [obj[i]] for the objects with [__getitem__] (exceptions.py 190-191, datastructures.py 320-321). *)
  Definition item_at (o : eobj) (i : nat) : res eobj :=
    let seq l := match nth_error l i with Some x => Ok x | None => Raise (XPy EIndexError) end in
    match o with
    | OStr s => match nth_error s i with Some x => Ok (OStr [x]) | None => Raise (XPy EIndexError) end
    | OTuple l | OList l | OFrozenList l => seq l
    | ODict d | OFrozenDict d =>
        match dget (KInt (Z.of_nat i)) d with Some x => Ok x | None => Raise (XPy EKeyError) end
    | OErr c (OFrozenList l) => if is_field_cls c then seq l else Raise (XPy ETypeError)
    | _ => Raise (XPy ETypeError)
    end.

  (** ErrorMessage.__eq__ with another message (exceptions.py 131-136). *)
  Definition message_eq (a b : message) : bool :=
    pstr_eqb (ms_summary a) (ms_summary b) &&
    match ms_type a, ms_type b with
    | None, None => true
    | Some x, Some y => ecls_eqb x y
    | _, _ => false
    end && r_eq R (ms_info a) (ms_info b).

  Section Step.
    (** [==] on parts. *)
    Context (eq : eobj -> eobj -> res bool).

    (** FrozenList.__eq__ (datastructures.py 340-346): the loop over the indices from [i] on. *)
    Fixpoint frozen_loop (l : list eobj) (o : eobj) (i : nat) : res bool :=
      match l with
      | [] => Ok true
      | x :: r => rbind (item_at o i) (fun y =>
                  rbind (eq x y) (fun t => if t then frozen_loop r o (S i) else Ok false))
      end.
    (** FrozenList.__eq__ (datastructures.py 340-346). *)
    Definition frozen_eq (l : list eobj) (o : eobj) : res bool :=
      rbind (size_of o) (fun n => if Nat.eqb (length l) n then frozen_loop l o O else Ok false).

    (** [==] of two lists, two tuples, two dictionaries; Mapping.__eq__ compares the dictionaries. (runtime) *)
    Fixpoint seq_eq (l l' : list eobj) : res bool :=
      match l, l' with
      | [], [] => Ok true
      | x :: r, y :: r' => rbind (eq x y) (fun t => if t then seq_eq r r' else Ok false)
      | _, _ => Ok false
      end.
    (** Every key of the first dictionary is in the second with an equal value. (runtime) *)
    Fixpoint map_loop (d d' : list (key * eobj)) : res bool :=
      match d with
      | [] => Ok true
      | (x, v) :: r => match dget x d' with
                       | None => Ok false
                       | Some w => rbind (eq v w) (fun t => if t then map_loop r d' else Ok false)
                       end
      end.
    (** [==] of dictionaries and FrozenDicts (runtime: Mapping.__eq__ compares [dict(self.items())]; datastructures.py 285). *)
    Definition map_eq (d d' : list (key * eobj)) : res bool :=
      if Nat.eqb (length d) (length d') then map_loop d d' else Ok false.

    (** [a == b].  The operands' methods: BaseError.__eq__ (exceptions.py 90-95), ErrorMessage.__eq__
        (130-140), FrozenList.__eq__ (datastructures.py 340-346), Mapping.__eq__ for FrozenDict and the builtin
        ones, which leave an operand of another kind to that operand's method; the right operand's method
        is tried first if its class is a proper subclass of the left one's. Identity of parts (which lists and
        dictionaries test first) is not modelled. *)
    Definition eq_objs (a b : eobj) : res bool :=
      match a, b with
      | OErr c e, OErr c' e' =>
          if ecls_eqb c c' then eq e e'
          else if subclass c' c then eq e' a
          else eq e b
      | OErr _ e, _ => eq e b
      | OMsg m, OMsg m' => Ok (message_eq m m')
      | OMsg m, OStr s => Ok (pstr_eqb (ms_summary m) s)
      | OMsg _, _ => Ok false
      | OFrozenList l, _ => frozen_eq l b
      | OStr s, OMsg m => Ok (pstr_eqb (ms_summary m) s)
      | _, OMsg _ => Ok false
      | _, OFrozenList l => frozen_eq l a
      | _, OErr _ e => eq e a
      | OStr s, OStr t => Ok (pstr_eqb s t)
      | OTuple l, OTuple l' => if Nat.eqb (length l) (length l') then seq_eq l l' else Ok false
      | OList l, OList l' => if Nat.eqb (length l) (length l') then seq_eq l l' else Ok false
      | ODict d, ODict d' => map_eq d d'
      | ODict d, OFrozenDict d' => map_eq d' d
      | OFrozenDict d, ODict d' => map_eq d d'
      | OFrozenDict d, OFrozenDict d' => map_eq d d'
      | OVal v, OVal w => Ok (r_eq R v w)
      | OVal v, OStr s => Ok (r_eq R v (VStr s))
      | OStr s, OVal v => Ok (r_eq R (VStr s) v)
      | _, _ => Ok false
      end.
  End Step.

  (** [a == b] with recursion depth at most [n]. *)
  Fixpoint oeq (n : nat) (a b : eobj) : res bool :=
    match n with
    | O => Raise XFuel
    | S m => eq_objs (oeq m) a b
    end.

  (** [x in exc]: FieldError.__contains__ (exceptions.py 187-188), Sequence.__contains__ on the frozen list. *)
  Fixpoint any_equal (n : nat) (l : list eobj) (x : eobj) : res bool :=
    match l with
    | [] => Ok false
    | e :: r => rbind (oeq n e x) (fun t => if t then Ok true else any_equal n r x)
    end.
  (** FieldError.__contains__ (exceptions.py 187-188). *)
  Definition contains (n : nat) (o x : eobj) : res bool :=
    match o with
    | OErr c (OFrozenList l) => if is_field_cls c then any_equal n l x else Raise (XPy ETypeError)
    | _ => Raise (XPy ETypeError)
    end.

  (** [hash] of a key. (runtime) *)
  Definition h_key (x : key) : Z := match x with KStr s => h_str R s | KInt z => h_int R z end.

  (** [hash(o)]: BaseError.__hash__ (exceptions.py 87-88), ErrorMessage.__hash__ (145-146), FrozenDict.__hash__
      (datastructures.py 299-306), FrozenList.__hash__ (326-332), the cached value being the same as a fresh one;
      lists and dictionaries are not hashable.  A LazyText has the identity hash of a plain object; it is not
      modelled (TypeError here). *)
  Fixpoint ohash (o : eobj) : res Z :=
    match o with
    | OStr s => Ok (h_str R s)
    | OMsg m => match h_val R (ms_info m) with
                | Some h => Ok (h_tuple R [h_str R (ms_summary m); h_type R (ms_type m); h])
                | None => Raise (XPy ETypeError)
                end
    | OTuple l =>
        rbind ((fix hashes (l : list eobj) : res (list Z) :=
                  match l with
                  | [] => Ok []
                  | x :: r => rbind (ohash x) (fun h => rbind (hashes r) (fun hs => Ok (h :: hs)))
                  end) l) (fun hs => Ok (h_tuple R hs))
    | OFrozenList l =>
        (fix go (acc : Z) (l : list eobj) : res Z :=
           match l with
           | [] => Ok acc
           | x :: r => rbind (ohash x) (fun h => go (Z.lxor acc h) r)
           end) 0%Z l
    | OFrozenDict d =>
        (fix go (acc : Z) (d : list (key * eobj)) : res Z :=
           match d with
           | [] => Ok acc
           | (x, v) :: r => rbind (ohash v) (fun h => go (Z.lxor (Z.lxor acc (h_key x)) h) r)
           end) 0%Z d
    | OErr _ e => ohash e
    | OVal v => match h_val R v with Some h => Ok h | None => Raise (XPy ETypeError) end
    | OList _ | ODict _ | OLazy _ => Raise (XPy ETypeError)
    end.
End Errors.

(** The objects that the abstract errors of the import and export model (Py.v) stand for: messages without info,
    already typed by the exception that took them. *)
Definition msgs_obj (c : ecls) (ms : list emsg) : list eobj :=
  map (fun s => OMsg (Msg s (Some (message_type c)) VNone)) ms.
(** The object behind an error tree of Py.v (transforms.py 100-182, compound.py 221-313, exceptions.py 25-232).
    Simplification: [NMsgs], the bare list left by a model level validator (validate.py 89-96), is given the type of a
    ValidationError also when the validator raised a ConversionError. *)
Fixpoint node_obj (n : errnode) : eobj :=
  match n with
  | NConv ms => OErr CConv (OFrozenList (msgs_obj CConv ms))
  | NValid ms => OErr CValid (OFrozenList (msgs_obj CValid ms))
  | NMsgs ms => OFrozenList (msgs_obj CValid ms)
  | NText s => OStr s
  | NDict d => OFrozenDict (map (fun p => (fst p, node_obj (snd p))) d)
  end.
(** The dictionary of errors (transforms.py 100). *)
Definition nodes_obj (d : list (key * errnode)) : list (key * eobj) :=
  map (fun p => (fst p, node_obj (snd p))) d.
(** The object behind an exception of Py.v (exceptions.py 200-232). *)
Definition exn_obj (e : exn) : option eobj :=
  match e with
  | XConv ms => Some (OErr CConv (OFrozenList (msgs_obj CConv ms)))
  | XValid false ms => Some (OErr CValid (OFrozenList (msgs_obj CValid ms)))
  | XValid true ms => Some (OErr CStop (OFrozenList (msgs_obj CStop ms)))
  | XCompound d => Some (OErr CCompound (OFrozenDict (nodes_obj d)))
  | XData d _ => Some (OErr CData (OFrozenDict (nodes_obj d)))
  | XPy _ | XFuel => None
  end.
