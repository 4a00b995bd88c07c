(** Copies of instances with the copy module.  Neither Model nor ModelDict says how it is copied (models.py 148-449; [__copy__] of
    ChainMap is for the dictionary itself), so what object does by default applies: [copy.copy] gives a new instance whose [_data] is the same ModelDict (the only
    attribute, models.py 228-231); [copy.deepcopy] and pickle go on to the contents.  Python 3; classes that define [__copy__] and the like are not considered. *)
From Verif.Model Require Import Py Core Export Api FieldCopy.

(** [copy.deepcopy] (runtime): the layers of a ModelDict (models.py 152-157), of which the third is a [MappingProxyType], which cannot be
    copied.  Simplification: all other values can be copied. *)
Fixpoint deepcopy (v : pyval) : res pyval :=
  let each := fix each (l : list pyval) : res (list pyval) :=
    match l with
    | [] => Ok []
    | x :: r => rbind (deepcopy x) (fun y => rbind (each r) (fun s => Ok (y :: s)))
    end in
  let entries := fix entries (d : list (key * pyval)) : res (list (key * pyval)) :=
    match d with
    | [] => Ok []
    | (n, x) :: r => rbind (deepcopy x) (fun y => rbind (entries r) (fun s => Ok ((n, y) :: s)))
    end in
  match v with
  | VList l => rbind (each l) (fun l => Ok (VList l))
  | VTuple l => rbind (each l) (fun l => Ok (VTuple l))
  | VDict d => rbind (entries d) (fun d => Ok (VDict d))
  | VModel c m => rbind (entries (md_unsafe m)) (fun _ => rbind (entries (md_converted m)) (fun _ => Raise (XPy ETypeError)))
  | v => Ok v
  end.

(** The ModelDicts, and the instances with their classes (models.py 202, 228-231).  Values are taken by value; instances within instances are not
    considered here. *)
Record cstate := CS { cs_data : list (mdata pyval); cs_inst : list (cid * nat) }.

(** What is done to an instance: assignment, deletion, import_data, validate. *)
Inductive iop := OSet (x : key) (v : pyval) | ODel (x : key) | OImport (raw : pyval) (w : kwargs) | OValidate (w : kwargs).
(** What programs do: make an instance, copy one, do something to one. *)
Inductive cevent := CNew (c : cid) (m : mdata pyval) | CCopy (i : nat) | COp (i : nat) (o : iop).

Section Copies.
  Context (E : env) (r : conv).
  (** The data afterwards, also if an exception is raised (models.py 55-67, 240-279). *)
  Definition do_op (o : iop) (c : cid) (m : mdata pyval) : mdata pyval :=
    match o with
    | OSet x v => fst (model_setitem E r c m x v)
    | ODel x => fst (model_delitem E c m x)
    | OImport raw w => fst (model_import_data E r c m raw w)
    | OValidate w => fst (model_validate E r c m w)
    end.
  (** One event (models.py 221-279; copy.copy by default). *)
  Definition cstep (s : cstate) (e : cevent) : cstate :=
    match e with
    | CNew c m => CS (cs_data s ++ [m]) (cs_inst s ++ [(c, length (cs_data s))])
    | CCopy i => match nth_error (cs_inst s) i with Some p => CS (cs_data s) (cs_inst s ++ [p]) | None => s end
    | COp i o => match nth_error (cs_inst s) i with
                 | Some (c, a) => CS (upd_at a (do_op o c) (cs_data s)) (cs_inst s)
                 | None => s
                 end
    end.
  (** The state after a history, the latest event first. (runtime) *)
  Fixpoint after (h : list cevent) : cstate := match h with [] => CS [] [] | e :: r => cstep (after r) e end.
End Copies.

(** Class and data of an instance (models.py 228-231). *)
Definition instance_at (s : cstate) (i : nat) : option (cid * mdata pyval) :=
  match nth_error (cs_inst s) i with
  | Some (c, a) => option_map (pair c) (nth_error (cs_data s) a)
  | None => None
  end.
