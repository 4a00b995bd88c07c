(** Roles: schematics/role.py and the factories of transforms.py 304-329. *)
From Verif.Model Require Import Py Core.

(** [set(fields)] as a list without repetition; the order of a set is not specified and nothing depends on it.
    (runtime) *)
Fixpoint to_set (l : list key) : list key :=
  match l with
  | [] => []
  | x :: r => if kmem x r then to_set r else x :: to_set r
  end.
(** [a == b] for sets. (runtime) *)
Definition set_eqb (a b : list key) : bool :=
  forallb (fun x => kmem x b) a && forallb (fun x => kmem x a) b.

(** Role (role.py 11-28): the filter function with its [__name__], and the fields. *)
Record roleobj := RoleObj {
  ro_name : pstr;
  ro_function : key -> pyval -> list key -> bool;
  ro_fields : list key }.

(** Role.__init__ (role.py 26-28). *)
Definition role_init (name : pstr) (f : key -> pyval -> list key -> bool) (fields : list key) : roleobj :=
  RoleObj name f (to_set fields).

(** Role._from_iterable (role.py 30-31). *)
Definition from_iterable (r : roleobj) (fields : list key) : roleobj := role_init (ro_name r) (ro_function r) fields.

(** Role.__contains__ (role.py 33-34). *)
Definition role_contains (r : roleobj) (x : key) : bool := kmem x (ro_fields r).

(** Role.__eq__ (role.py 42-44) with another role. *)
Definition role_eq (a b : roleobj) : bool :=
  pstr_eqb (ro_name a) (ro_name b) && set_eqb (ro_fields a) (ro_fields b).

(** Role.__add__ (role.py 54-56) and Role.__sub__ (58-60); [other] is any iterable of names, among them a role
    (__iter__, 36-37). *)
Definition role_add (r : roleobj) (other : list key) : roleobj :=
  from_iterable r (to_set (ro_fields r ++ other)).
(** Role.__sub__ (role.py 58-60). *)
Definition role_sub (r : roleobj) (other : list key) : roleobj :=
  from_iterable r (filter (fun x => negb (kmem x other)) (ro_fields r)).

(** [&], [|] and [^] are inherited from collections.abc.Set, through _from_iterable of the left operand; [^] is
    [(self - other) | (other - self)]. (runtime; role.py 11) *)
Definition role_and (r : roleobj) (other : list key) : roleobj :=
  from_iterable r (filter (role_contains r) other).
(** Set.__or__. (runtime; role.py 11) *)
Definition role_or (r : roleobj) (other : list key) : roleobj := from_iterable r (ro_fields r ++ other).
(** Set.__xor__. (runtime; role.py 11) *)
Definition role_xor (r : roleobj) (other : list key) : roleobj :=
  role_or (role_sub r other) (filter (fun x => negb (role_contains r x)) other).

(** Role.__call__ (role.py 63-64). *)
Definition role_call (r : roleobj) : rolefn := fun name v => ro_function r name v (ro_fields r).

(** Role.wholelist (role.py 67-81), Role.whitelist (83-99), Role.blacklist (101-116); [seq] is never None here. *)
Definition f_wholelist (name : key) (v : pyval) (seq : list key) : bool := false.
(** Role.whitelist (role.py 83-99). *)
Definition f_whitelist (name : key) (v : pyval) (seq : list key) : bool :=
  if Nat.ltb 0 (length seq) then negb (kmem name seq) else true.
(** Role.blacklist (role.py 101-116). *)
Definition f_blacklist (name : key) (v : pyval) (seq : list key) : bool :=
  if Nat.ltb 0 (length seq) then kmem name seq else false.

(** transforms.py 304-309, 312-319, 322-329. *)
Definition wholelist (fields : list key) : roleobj := role_init (u "wholelist") f_wholelist fields.
(** transforms.py 312-319. *)
Definition whitelist (fields : list key) : roleobj := role_init (u "whitelist") f_whitelist fields.
(** transforms.py 322-329. *)
Definition blacklist (fields : list key) : roleobj := role_init (u "blacklist") f_blacklist fields.
