(** contrib/machine.py: a state machine around the functional interface. *)
From Verif.Model Require Import Py Core Export Api Functional.

(** An entry of [transitions] (machine.py 15-20): [from] may be missing. *)
Record transition := TR { tr_trigger : key; tr_from : option key; tr_to : key }.

(** The table of the class (machine.py 15-20). *)
Definition machine_table : list transition :=
  [ TR (k "init") None (k "raw");
    TR (k "convert") (Some (k "raw")) (k "converted");
    TR (k "validate") (Some (k "converted")) (k "validated");
    TR (k "serialize") (Some (k "validated")) (k "serialized") ].

(** [pred] of machine.py 44-45: a filter that is None matches everything. *)
Definition tr_match (entry var : option key) : bool :=
  match var with
  | None => true
  | Some v => match entry with Some e => key_eqb e v | None => false end
  end.

(** [_transition] and [_transitions] (machine.py 36-50): the first entry that matches. *)
Definition find_transition (table : list transition) (trigger src dst : option key) : option transition :=
  find (fun t => tr_match (Some (tr_trigger t)) trigger && tr_match (tr_from t) src && tr_match (Some (tr_to t)) dst) table.

Section Machine.
  Context {A : Type}.

  (** A machine (machine.py 28-31): its state and its data.  The [args] are part of the callbacks below. *)
  Record machine := Mach { ms_state : key; ms_data : A }.

  (** A callback (machine.py 21-25, 8-9): what it makes of the data, and the data as they are afterwards, for it may
      change them in place. *)
  Definition callback := A -> A * res A.

  Context (table : list transition) (callbacks : list (key * callback)).

  (** Machine(data, ...) (machine.py 28-31). Subscripting the None of a missing transition is a TypeError. *)
  Definition machine_new (d : A) : res machine :=
    match find_transition table (Some (k "init")) None None with
    | Some t => Ok (Mach (tr_to t) d)
    | None => Raise (XPy ETypeError)
    end.

  (** trigger (machine.py 52-58), also reached as a method of that name (33-34).  [callbacks.get(None)] is None. *)
  Definition machine_trigger (m : machine) (name : option key) : machine * option exn :=
    match find_transition table name (Some (ms_state m)) None with
    | None => (m, Some (XPy EAttributeError))
    | Some t =>
        match (match name with Some n => dget n callbacks | None => None end) with
        | None => (Mach (tr_to t) (ms_data m), None)
        | Some cb => match cb (ms_data m) with
                     | (_, Ok d) => (Mach (tr_to t) d, None)
                     | (d, Raise e) => (Mach (ms_state m) d, Some e)
                     end
        end
    end.

  (** can (machine.py 60-61). *)
  Definition machine_can (m : machine) (state : option key) : bool :=
    match find_transition table None (Some (ms_state m)) state with Some _ => true | None => false end.

  (** cannot (machine.py 63-64). *)
  Definition machine_cannot (m : machine) (state : option key) : bool := negb (machine_can m state).
End Machine.
Arguments machine : clear implicits.
Arguments callback : clear implicits.

(** The keyword arguments of the convert and validate callbacks (machine.py 22-23). *)
Definition kw_machine_convert : kwargs := KW no_mapping true false false false true false false.
(** machine.py 23. *)
Definition kw_machine_validate : kwargs := KW no_mapping false false false false false true false.
(** The export context of the serialize callback (machine.py 24; transforms.py 204-206, 238-245). *)
Definition machine_ectx : ectx := ECtx Primitive NoRole true None.

(** A dictionary as a value. *)
Definition as_dict (r : res (list (key * pyval))) : res pyval := rbind r (fun d => Ok (VDict d)).

(** The callbacks of the class for the schema given in [args] (machine.py 8-9, 21-25). *)
Definition machine_callbacks (E : env) (n : nat) (c : cid) : list (key * callback pyval) :=
  [ (k "convert", fun v => let out := fn_convert E (conv_at E n) c v VNone VNone kw_machine_convert in
                           (lo_mut out, as_dict (lo_res out)));
    (k "validate", fun v => let out := fn_validate E (conv_at E n) c v VNone VNone kw_machine_validate in
                            (lo_mut out, as_dict (lo_res out)));
    (k "serialize", fun v => (v, as_dict (fn_export E (export_at E n) machine_ectx c v))) ].
