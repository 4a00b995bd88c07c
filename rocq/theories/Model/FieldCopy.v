(** Field objects and their copies in derived classes.  [deepcopy] of a field makes a shallow copy (types/base.py 229-230; models.py
    89), which has the attributes of the original and shares two things with it: the list of validators, and the bound methods in that list and
    in the table of export methods, made when the field was constructed (base.py 198-200, 214-215).  Fields of one type class that
    contains no other type; assignment of the attributes [validators] and [export_mapping] themselves is not considered. *)
From Verif.Model Require Import Py Core Types.
Open Scope string_scope.
Open Scope list_scope.

(** The attributes of a field object (base.py 184-212). *)
Definition fattrs := list (key * pyval).
(** A validator: a method bound to a field object, by address, or a function (base.py 198-200). *)
Inductive fvalidator := VBound (a : nat) (m : key) | VGiven (f : vldr).
(** A field object: its attributes, the list of validators it refers to, the object its export methods are bound to. *)
Record ffield := FFld { ff_attrs : fattrs; ff_list : nat; ff_self : nat }.
(** The objects and the lists of validators, by address. (runtime) *)
Record fheap := FHeap { fh_objs : list ffield; fh_lists : list (list fvalidator) }.

(** [l[n] = f(l[n])] for objects at addresses. (runtime) *)
Fixpoint upd_at {A} (n : nat) (f : A -> A) (l : list A) : list A :=
  match n, l with
  | _, [] => []
  | O, x :: r => f x :: r
  | S n, x :: r => x :: upd_at n f r
  end.
(** The object at an address; no other addresses occur. (runtime) *)
Definition fld_at (h : fheap) (a : nat) : ffield := nth a (fh_objs h) (FFld [] 0 0).

Section FieldCopy.
  (** The type class: conversion and export with the attributes of a field (base.py 296-305), its own validators by name
      (base.py 198; TypeMeta collects the names) and what each checks. *)
  Context (native prim : fattrs -> pyval -> res pyval) (own : list key) (check : key -> fattrs -> vldr).

  (** BaseType.__init__ (base.py 184-215); the arguments become attributes. *)
  Definition field_new (h : fheap) (kw : fattrs) (given : list vldr) : fheap :=
    let a := length (fh_objs h) in
    FHeap (fh_objs h ++ [FFld kw (length (fh_lists h)) a]) (fh_lists h ++ [map (VBound a) own ++ map VGiven given]).
  (** [__deepcopy__] (base.py 229-230). *)
  Definition field_copy (h : fheap) (a : nat) : fheap := FHeap (fh_objs h ++ [fld_at h a]) (fh_lists h).
  (** [field.x = v]: a plain attribute (base.py defines no [__setattr__]). (runtime) *)
  Definition field_assign (h : fheap) (a : nat) (x : key) (v : pyval) : fheap :=
    FHeap (upd_at a (fun o => FFld (dset x v (ff_attrs o)) (ff_list o) (ff_self o)) (fh_objs h)) (fh_lists h).
  (** [field.validators.append(f)] (base.py 198). (runtime) *)
  Definition field_append (h : fheap) (a : nat) (f : vldr) : fheap :=
    FHeap (fh_objs h) (upd_at (ff_list (fld_at h a)) (fun l => l ++ [VGiven f]) (fh_lists h)).

  (** [field.convert(value)] (base.py 290-291). *)
  Definition field_convert (h : fheap) (a : nat) (v : pyval) : res pyval := native (ff_attrs (fld_at h a)) v.
  (** [field.check_required(value, context)] (base.py 335-338) fails; [named] and [partial] as there. *)
  Definition field_missing (h : fheap) (a : nat) (named partial : bool) (v : pyval) : bool :=
    match dget (k "required") (ff_attrs (fld_at h a)) with Some r => truthy r | None => false end && is_nil v && (negb named || negb partial).
  (** Calling a validator of the list (base.py 322-325). *)
  Definition call_validator (h : fheap) (f : fvalidator) : vldr :=
    match f with VBound a m => check m (ff_attrs (fld_at h a)) | VGiven f => f end.
  (** [field.validate(value)] (base.py 307-333), [context.convert] true. *)
  Definition field_validate (h : fheap) (a : nat) (v : pyval) : res pyval :=
    rbind (field_convert h a v)
      (validators_result (map (call_validator h) (nth (ff_list (fld_at h a)) (fh_lists h) []))).
  (** [field.export(value, PRIMITIVE)] (base.py 293-294, 214-215). *)
  Definition field_export (h : fheap) (a : nat) (v : pyval) : res pyval :=
    prim (ff_attrs (fld_at h (ff_self (fld_at h a)))) v.

  (** What programs do with field objects: make one, copy one by deriving a class (models.py 87-89), assign an attribute, append a
      validator. *)
  Inductive fevent := FNew (kw : fattrs) (given : list vldr) | FCopy (a : nat) | FSet (a : nat) (x : key) (v : pyval) | FAppend (a : nat) (f : vldr).
  (** One of these (base.py 184-230). *)
  Definition field_step (h : fheap) (e : fevent) : fheap :=
    match e with
    | FNew kw given => field_new h kw given
    | FCopy a => field_copy h a
    | FSet a x v => field_assign h a x v
    | FAppend a f => field_append h a f
    end.
  (** All of them in order (base.py 184-230). *)
  Definition field_run (es : list fevent) : fheap := fold_left field_step es (FHeap [] []).
End FieldCopy.

(** StringType as such a class: its conversion and export (base.py 412-425, 296-299) use no attribute but the messages, *)
Definition text_native (a : fattrs) (v : pyval) : res pyval := string_native v.
(** [to_primitive], base.py 296-299. *)
Definition text_prim (a : fattrs) (v : pyval) : res pyval := lf_prim string_leaf v.
(** its own validators; validate_choices and validate_regex (base.py 340-343, 435-437) are left out, *)
Definition text_own : list key := [k "validate_length"].
(** [self.max_length], [self.min_length] (base.py 404-405): None or an integer. *)
Definition limit (x : key) (a : fattrs) : option Z := match dget x a with Some (VInt z) => Some z | _ => None end.
(** validate_length (base.py 427-433). *)
Definition text_check (m : key) (a : fattrs) : vldr := validate_length (limit (k "min_length") a) (limit (k "max_length") a).
