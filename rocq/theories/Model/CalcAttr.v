(** Attributes of computed fields.  A computed field (Serializable) is an object that refers to a type object; attributes that it does not have
    are read from the type (types/serializable.py 73-79), assignments and the attributes of copies are its own (serializable.py defines no
    [__setattr__]; 103-104).  Assignment of [type], [fget] and [fset] themselves is not considered. *)
From Verif.Model Require Import Py Core Types FieldCopy.
Open Scope string_scope.
Open Scope list_scope.

(** A computed field: the attributes assigned to it (none at first), and the type object it refers to by address; objects made by
    [__new__] alone refer to none (serializable.py 73-76). *)
Record calc := Calc { c_own : fattrs; c_type : option nat }.
(** What reading an attribute leads to: a value, a method of Serializable, AttributeError, RecursionError. (runtime) *)
Inductive got := Got (v : pyval) | OwnMethod | NoAttr | TooDeep.

(** What the class Serializable itself defines, serializable.py 71-112; of the names every object has only those that matter here. *)
Definition calc_methods : list key :=
  map k ["__init__"; "__getattr__"; "__get__"; "__set__"; "setter"; "_repr_info"; "__deepcopy__"; "__repr__"; "__class__"; "__dict__"].

Section CalcAttr.
  (** Attributes of the type's class: methods, properties, constants (base.py 131-143 and below). *)
  Context (cls : key -> option pyval).

  (** [type.x]: the attributes of the object, then those of the class. (runtime) *)
  Definition type_read (T : list fattrs) (t : nat) (x : key) : got :=
    match dget x (nth t T []) with
    | Some v => Got v
    | None => match cls x with Some v => Got v | None => NoAttr end
    end.
  (** [field.x]: the attributes of the object, then those of the class, then [__getattr__] (serializable.py 78-79), which reads [self.type]; an object
      without [type] comes to [__getattr__] again.  [depth] calls are possible. *)
  Fixpoint calc_read (depth : nat) (T : list fattrs) (f : calc) (x : key) : got :=
    match dget x (c_own f) with
    | Some v => Got v
    | None =>
        if existsb (key_eqb x) calc_methods then OwnMethod
        else match c_type f with
             | Some t => type_read T t x
             | None => match depth with
                       | O => TooDeep
                       | S depth => match calc_read depth T f (k "type") with Got _ => NoAttr | r => r end
                       end
             end
    end.

  (** The type objects and the computed fields of a program, by address. (runtime) *)
  Record calc_state := CalcState { cs_types : list fattrs; cs_calcs : list calc }.
  (** The computed field at an address; no other addresses occur. (runtime) *)
  Definition calc_at (s : calc_state) (f : nat) : calc := nth f (cs_calcs s) (Calc [] None).

  (** What programs do: make a type object with attributes, make a computed field with a type object (serializable.py 66-67, 73-76), assign an
      attribute of a computed field or of a type object, copy a computed field by deriving a class (models.py 87-89). *)
  Inductive calc_op := QType (kw : fattrs) | QCalc (t : nat) | QSet (f : nat) (x : key) (v : pyval) | QTypeSet (t : nat) (x : key) (v : pyval) | QDerive (f : nat).
  (** One of these; [__deepcopy__] (serializable.py 103-104) constructs a new computed field with a copy of the type (base.py 229-230). *)
  Definition calc_step (o : calc_op) (s : calc_state) : calc_state :=
    match o with
    | QType kw => CalcState (cs_types s ++ [kw]) (cs_calcs s)
    | QCalc t => CalcState (cs_types s) (cs_calcs s ++ [Calc [] (Some t)])
    | QSet f x v => CalcState (cs_types s) (upd_at f (fun c => Calc (dset x v (c_own c)) (c_type c)) (cs_calcs s))
    | QTypeSet t x v => CalcState (upd_at t (dset x v) (cs_types s)) (cs_calcs s)
    | QDerive f =>
        match c_type (calc_at s f) with
        | Some t => CalcState (cs_types s ++ [nth t (cs_types s) []]) (cs_calcs s ++ [Calc [] (Some (length (cs_types s)))])
        | None => s
        end
    end.
  (** All of them, the latest first (serializable.py 71-112). *)
  Fixpoint calc_run (h : list calc_op) : calc_state :=
    match h with [] => CalcState [] [] | o :: h => calc_step o (calc_run h) end.

  (** [copy.copy(field)] and reading a pickled field: an object without attributes is made and asked for [__setstate__]; if there is none it gets the
      attributes of the original.  None is RecursionError. (runtime; serializable.py 78-79) *)
  Definition calc_copy (depth : nat) (T : list fattrs) (f : calc) : option calc :=
    match calc_read depth T (Calc [] None) (k "__setstate__") with
    | TooDeep => None
    | _ => Some f
    end.

  (** The key under which a computed field called [name] is exported, transforms.py 266: [field.serialized_name or field_name]. *)
  Definition export_key (depth : nat) (s : calc_state) (f : nat) (name : pyval) : got :=
    match calc_read depth (cs_types s) (calc_at s f) (k "serialized_name") with
    | Got v => Got (if truthy v then v else name)
    | r => r
    end.
  (** The level, transforms.py 271: [field.get_export_level(context)] is a method of the type object (base.py 253-262); [model] is the level of the
      class and [given] that of the call.  A method assigned in its place is not considered. *)
  Definition export_level_of (s : calc_state) (f : nat) (model given : pyval) : got :=
    match dget (k "get_export_level") (c_own (calc_at s f)), c_type (calc_at s f) with
    | None, Some t =>
        match type_read (cs_types s) t (k "export_level") with
        | Got v => Got (if is_nil given then if is_nil v then model else v else given)
        | r => r
        end
    | _, _ => NoAttr
    end.
End CalcAttr.
