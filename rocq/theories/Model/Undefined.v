(** The value [Undefined]: undefined.py.  Objects and classes have identities; class 0 is UndefinedType. *)
From Verif.Model Require Import Py.

(** The attributes [_instance] that classes have of their own ([None] is Python's None), and the class of each object made. *)
Record ustate := US { us_attr : list (N * option N); us_made : list N }.

Section Undefined.
  (** The method resolution order of a class: the class first. (runtime) *)
  Context (mro : N -> list N).

  (** An attribute that a class has of its own. (runtime) *)
  Fixpoint own_attr (l : list (N * option N)) (c : N) : option (option N) :=
    match l with
    | [] => None
    | (d, v) :: r => if N.eqb c d then Some v else own_attr r c
    end.
  (** [cls._instance]: the first class in the order that has the attribute. (runtime) *)
  Fixpoint read_attr (l : list (N * option N)) (cs : list N) : option (option N) :=
    match cs with
    | [] => None
    | c :: r => match own_attr l c with Some v => Some v | None => read_attr l r end
    end.
  (** [object.__new__(cls)]: a new object. (runtime) *)
  Definition object_new (s : ustate) (c : N) : ustate * N :=
    (US (us_attr s) (us_made s ++ [c]), N.of_nat (length (us_made s))).

  (** UndefinedType.__new__ (undefined.py 46-51). *)
  Definition undefined_new (s : ustate) (c : N) : ustate * res N :=
    match read_attr (us_attr s) (mro c) with
    | None => (s, Raise (XPy EAttributeError))
    | Some None => let '(s1, o) := object_new s c in (US ((c, Some o) :: us_attr s1) (us_made s1), Ok o)
    | Some (Some o) => if N.eqb c 0 then (s, Ok o) else (s, Raise (XPy ETypeError))
    end.
  (** [cls( *args)]: [__new__], then [__init__] (53-54), which takes no arguments. *)
  Definition undefined_call (s : ustate) (c : N) (args : nat) : ustate * res N :=
    let '(s1, r) := undefined_new s c in
    (s1, match r with Ok o => if Nat.eqb args 0 then Ok o else Raise (XPy ETypeError) | Raise e => Raise e end).

  (** What a program can do to make such an object: call a class, define a class (with [_instance = None] in its body or
      not), copy an object, or pickle and read back with a protocol. *)
  Inductive uevent := UCall (c : N) (args : nat) | UDefine (c : N) (own : bool) | UCopy (o : N) | UPickle (protocol : nat) (o : N).

  (** Making a copy: [copy], [deepcopy] and protocols from 2 on call [cls.__new__(cls)] (copyreg.__newobj__); protocols 0 and 1
      call [object.__new__(cls)] (copyreg._reconstructor).  The object has no attributes to be set. (runtime) *)
  Definition undefined_step (s : ustate) (e : uevent) : ustate * option (res N) :=
    match e with
    | UCall c args => let '(s1, r) := undefined_call s c args in (s1, Some r)
    | UDefine c own => (if own then US ((c, None) :: us_attr s) (us_made s) else s, None)
    | UCopy o => let '(s1, r) := undefined_new s (nth (N.to_nat o) (us_made s) 0%N) in (s1, Some r)
    | UPickle p o =>
        let c := nth (N.to_nat o) (us_made s) 0%N in
        if Nat.leb 2 p then let '(s1, r) := undefined_new s c in (s1, Some r)
        else let '(s1, o') := object_new s c in (s1, Some (Ok o'))
    end.
  (** A run: the events in order and what each gives. *)
  Fixpoint undefined_run (s : ustate) (es : list uevent) : ustate * list (option (res N)) :=
    match es with
    | [] => (s, [])
    | e :: r => let '(s1, v) := undefined_step s e in let '(s2, vs) := undefined_run s1 r in (s2, v :: vs)
    end.
End Undefined.

(** The module is loaded (undefined.py 9-11, 60): [_instance = None], then the first call. *)
Definition undefined_load (mro : N -> list N) : ustate * res N := undefined_call mro (US [(0%N, None)] []) 0 0.
(** The state after that (undefined.py 60). *)
Definition undefined_loaded (mro : N -> list N) : ustate := fst (undefined_load mro).
(** [Undefined] (undefined.py 60). *)
Definition the_undefined : N := 0.

(** [__eq__] (undefined.py 19-20): identity. *)
Definition undefined_eq (a b : N) : bool := N.eqb a b.

(** The orderings (undefined.py 30-40). *)
Inductive ordering := Lt | Gt | Le | Ge.
(** The ordering tried on the right operand. (runtime) *)
Definition reflected (op : ordering) : ordering := match op with Lt => Gt | Gt => Lt | Le => Ge | Ge => Le end.
(** [__lt__], [__gt__], [__le__], [__ge__] (undefined.py 30-44): all raise TypeError; None stands for NotImplemented. *)
Definition undefined_cmp (op : ordering) : option (res bool) := Some (Raise (XPy ETypeError)).
(** [a op b] for operands neither of whose classes derives from the other's: the left one is asked, then the right one; without an
    answer the comparison fails. (runtime)  [answer] gives the answers of objects of other classes. *)
Definition compare_as (answer : N -> ordering -> N -> option (res bool)) (a : N) (op : ordering) (b : N) : res bool :=
  let ask x o y := if N.eqb x the_undefined then undefined_cmp o else answer x o y in
  match ask a op b with
  | Some r => r
  | None => match ask b (reflected op) a with Some r => r | None => Raise (XPy ETypeError) end
  end.
(** The smallest object of a list, as min() finds it: each later one is compared with the smallest so far. (runtime) *)
Fixpoint least (answer : N -> ordering -> N -> option (res bool)) (a : N) (l : list N) : res N :=
  match l with
  | [] => Ok a
  | b :: r => rbind (compare_as answer b Lt a) (fun t => least answer (if t then b else a) r)
  end.
