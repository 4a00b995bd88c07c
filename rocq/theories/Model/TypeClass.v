(** Type classes: the metaclass of BaseType (schematics/types/base.py 89-119), prepare_validator
    (schematics/validate.py 120-134), and the validators and messages of a field object (base.py 198-204). *)
From Verif.Model Require Import Py Core Meta.

(** ** Callables *)

(** A function or bound method, seen by the caller. [pf_names] is [len(getfullargspec(f).args)]: the positional
    parameters, the first one of a bound method included. [pf_bound]: the first parameter is already supplied.
    [pf_optional]: how many of the parameters have defaults; [pf_star]: there is a [*args]. The body gets the
    arguments the caller passes. (runtime) *)
Record pyfun (A : Type) := PF {
  pf_names : nat;
  pf_bound : bool;
  pf_optional : nat;
  pf_star : bool;
  pf_body : list A -> option exn }.
Arguments PF {A}. Arguments pf_names {A}. Arguments pf_bound {A}. Arguments pf_optional {A}.
Arguments pf_star {A}. Arguments pf_body {A}.

(** A call: TypeError if the number of arguments is wrong. (runtime)  Keyword arguments do not occur: validators
    are called positionally (base.py 325, validate.py 95). *)
Definition call {A} (f : pyfun A) (args : list A) : option exn :=
  let n := (length args + if pf_bound f then 1 else 0)%nat in
  if (pf_names f - pf_optional f <=? n)%nat && ((n <=? pf_names f)%nat || pf_star f)
  then pf_body f args else Some (XPy ETypeError).

(** prepare_validator (validate.py 120-134); the wrapper (lines 129-132) takes [*args] and drops the last one. *)
Definition prepare {A} (argcount : nat) (f : pyfun A) : pyfun A :=
  if (pf_names f <? argcount)%nat
  then PF 0 false 0 true (fun args => call f (removelast args))
  else f.

(** [getattr(obj, name)] of a function found in the class: the object becomes the first argument. (runtime) *)
Definition bind {A} (self : A) (f : pyfun A) : pyfun A :=
  PF (pf_names f) true (pf_optional f) (pf_star f)
     (fun args => call f (self :: args)).

(** ** Classes *)

(** Classes are numbered in the order of their definition. *)
Definition tid := nat.

(** An attribute of a class body other than MESSAGES: a function or anything else. *)
Inductive tattr (A : Type) := TFun (f : pyfun A) | TOther.
Arguments TFun {A}. Arguments TOther {A}.

(** A class: whether TypeMeta made it, its bases, its linearisation (itself first, [object] left out), and what its own
    namespace holds: MESSAGES, _validators (the keys of the OrderedDict, base.py 98), the other attributes. *)
Record tcls (A : Type) := TCls {
  tc_meta : bool;
  tc_bases : list tid;
  tc_mro : list tid;
  tc_messages : option (list (key * emsg));
  tc_validators : option (list key);
  tc_attrs : list (key * tattr A) }.
Arguments TCls {A}. Arguments tc_meta {A}. Arguments tc_bases {A}. Arguments tc_mro {A}.
Arguments tc_messages {A}. Arguments tc_validators {A}. Arguments tc_attrs {A}.

(** C3 linearisation: the first head that is in no tail comes next. (runtime) *)
Definition good_head (ls : list (list tid)) (h : tid) : bool :=
  forallb (fun l => negb (existsb (Nat.eqb h) (tl l))) ls.
(** Take a class off the front of the sequences that start with it. (runtime) *)
Definition drop_head (h : tid) (l : list tid) : list tid :=
  match l with x :: r => if Nat.eqb x h then r else l | [] => [] end.
(** The merge; [n] bounds the number of classes. (runtime) *)
Fixpoint merge (n : nat) (ls : list (list tid)) : option (list tid) :=
  match concat ls with
  | [] => Some []
  | _ =>
      match n with
      | O => None
      | S n =>
          match find (good_head ls) (concat (map (firstn 1) ls)) with
          | None => None
          | Some h => option_map (cons h) (merge n (map (drop_head h) ls))
          end
      end
  end.

Section Classes.
  Context {A : Type}.

  (** The linearisation of a class. *)
  Definition mro (P : list (tcls A)) (c : tid) : list tid :=
    match nth_error P c with Some k => tc_mro k | None => [] end.

  (** [getattr(cls, name)]: the first class of the linearisation that has it. (runtime) *)
  Fixpoint first_in {B} (get : tcls A -> option B) (P : list (tcls A)) (l : list tid) : option B :=
    match l with
    | [] => None
    | c :: r => match (match nth_error P c with Some k => get k | None => None end) with
                | Some b => Some b
                | None => first_in get P r
                end
    end.
  (** The same from the linearisation of a class. *)
  Definition attr_of {B} (get : tcls A -> option B) (P : list (tcls A)) (c : tid) : option B :=
    first_in get P (mro P c).

  (** [validators[name] = 1] in an OrderedDict: a known key keeps its place (base.py 113). *)
  Definition add_name (l : list key) (x : key) : list key := if kmem x l then l else l ++ [x].

  (** The loop over the bases, last one first (base.py 100-105): messages and validators. *)
  Definition add_type (P : list (tcls A)) (s : list (key * emsg) * list key) (b : tid) : list (key * emsg) * list key :=
    (match attr_of tc_messages P b with Some m => dupdate (fst s) m | None => fst s end,
     match attr_of tc_validators P b with Some l => fold_left add_name l (snd s) | None => snd s end).

  (** [attr_name.startswith("validate_")] (base.py 113). *)
  Definition is_validate (x : key) : bool := match validates x with Some _ => true | None => false end.

  (** The loop over the class body (base.py 112-115): the namespace with prepared validators; a validator that is not
      a function makes prepare_validator raise TypeError. *)
  Fixpoint prepare_attrs (body : list (key * tattr A)) : res (list (key * tattr A)) :=
    match body with
    | [] => Ok []
    | (x, t) :: r =>
        rbind (if is_validate x
               then match t with TFun f => Ok (TFun (prepare 3 f)) | TOther => Raise (XPy ETypeError) end
               else Ok t) (fun t' =>
        rbind (prepare_attrs r) (fun r' => Ok ((x, t') :: r')))
    end.

  (** The [class] statement (TypeMeta.__new__, base.py 96-119, if a base was made by TypeMeta or [meta] says so, as for
      BaseType itself, line 122; [type.__new__] otherwise).  Bases that do not linearise are a TypeError. *)
  Definition define_type (P : list (tcls A)) (meta : bool) (bases : list tid) (messages : option (list (key * emsg)))
      (body : list (key * tattr A)) : res (list (tcls A)) :=
    let c := length P in
    let meta := meta || existsb (fun b => match nth_error P b with Some k => tc_meta k | None => false end) bases in
    rbind (if meta then
             let '(m, vs) := fold_left (add_type P) (rev bases) ([], []) in
             rbind (prepare_attrs body) (fun attrs =>
               Ok (Some (dupdate m (match messages with Some d => d | None => [] end)),
                   Some (fold_left add_name (filter is_validate (map fst body)) vs), attrs))
           else Ok (messages, None, body)) (fun '(m, vs, attrs) =>
    match merge (S (length P)) (map (mro P) bases ++ [bases]) with
    | None => Raise (XPy ETypeError)
    | Some l => Ok (P ++ [TCls meta bases (c :: l) m vs attrs])
    end).

  (** ** Field objects *)

  (** [getattr(self, name)] for a validator (base.py 198). Something that is no function fails when it is called. *)
  Definition method (P : list (tcls A)) (c : tid) (self : A) (x : key) : pyfun A :=
    match attr_of (fun k => dget x (tc_attrs k)) P c with
    | Some (TFun f) => bind self f
    | _ => PF 0 false 0 true (fun _ => Some (XPy ETypeError))
    end.

  (** The names of the validators of a class. *)
  Definition validator_names (P : list (tcls A)) (c : tid) : list key :=
    match attr_of tc_validators P c with Some l => l | None => [] end.

  (** [self.validators] (base.py 198-200): the methods, then the [validators] argument, prepared. *)
  Definition field_validators (P : list (tcls A)) (c : tid) (self : A) (given : list (pyfun A)) : list (pyfun A) :=
    map (method P c self) (validator_names P c) ++ map (prepare 2) given.

  (** [self.messages] (base.py 204). *)
  Definition field_messages (P : list (tcls A)) (c : tid) (given : list (key * emsg)) : list (key * emsg) :=
    dupdate (match attr_of tc_messages P c with Some m => m | None => [] end) given.

  (** A validator as the rest of the model sees it: called with the value and the context (base.py 325). *)
  Definition as_vldr (val : pyval -> A) (ctx : A) (f : pyfun A) : vldr := fun v => call f [val v; ctx].
End Classes.
