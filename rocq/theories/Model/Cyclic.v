(** [==] of instances that may refer to each other (schematics/models.py 408-424): objects at addresses, and the set [memo] of
    comparisons in progress, a default argument that all calls and threads share.
    Simplified: an instance is its set fields with their values (models.py 336-343); no computed fields; an object without parts
    is unequal to containers and instances. *)
From Verif.Model Require Import Py Core.

(** Objects without parts, by identity; 0 is None.  Containers and instances, by address. (runtime) *)
Inductive hval := HAtom (i : nat) | HRef (a : nat).
(** Lists and tuples, dictionaries, instances. (runtime) *)
Inductive hobj :=
| HSeq (tuple : bool) (l : list hval)
| HDict (d : list (key * hval))
| HInst (c : nat) (d : list (key * hval)).
(** Objects by address. (runtime) *)
Definition heap := list hobj.
(** The object at an address; no other addresses occur. (runtime) *)
Definition at_addr (h : heap) (a : nat) : hobj := nth a h (HSeq false []).
(** [a is b]. (runtime) *)
Definition same_obj (x y : hval) : bool :=
  match x, y with HAtom i, HAtom j => Nat.eqb i j | HRef a, HRef b => Nat.eqb a b | _, _ => false end.

(** A comparison in progress: the identities and the thread (models.py 413). *)
Definition entry : Type := nat * nat * nat.
(** Equality of these tuples. (runtime) *)
Definition entry_eqb (e f : entry) : bool :=
  let '(a, b, t) := e in let '(a', b', t') := f in Nat.eqb a a' && Nat.eqb b b' && Nat.eqb t t'.
(** [key in memo] (models.py 414). *)
Definition in_memo (e : entry) (M : list entry) : bool := existsb (entry_eqb e) M.
(** [memo.remove(key)] (models.py 424). *)
Definition leave (e : entry) (M : list entry) : list entry := filter (fun f => negb (entry_eqb e f)) M.

Section Eq.
  Context (h : heap).
  (** [==] of objects without parts: anything, it may raise. *)
  Context (aeq : nat -> nat -> res bool).
  (** This thread. *)
  Context (th : nat).

  Section Loops.
    (** Comparison of parts: the answer and the set afterwards. *)
    Context (eq : hval -> hval -> list entry -> res bool * list entry).
    (** Elements of containers are compared by identity first. (runtime) *)
    Definition eq_item (x y : hval) (M : list entry) : res bool * list entry :=
      if same_obj x y then (Ok true, M) else eq x y M.
    (** Elementwise, stopping at the first difference. (runtime) *)
    Fixpoint seq_loop (l l' : list hval) (M : list entry) : res bool * list entry :=
      match l, l' with
      | x :: r, y :: r' => match eq_item x y M with
                           | (Ok true, M') => seq_loop r r' M'
                           | p => p
                           end
      | _, _ => (Ok true, M)
      end.
    (** Every entry of the first dictionary has an equal one in the second. (runtime) *)
    Fixpoint dict_loop (d d' : list (key * hval)) (M : list entry) : res bool * list entry :=
      match d with
      | [] => (Ok true, M)
      | (x, v) :: r => match dget x d' with
                       | None => (Ok false, M)
                       | Some w => match eq_item v w M with
                                   | (Ok true, M') => dict_loop r d' M'
                                   | p => p
                                   end
                       end
      end.
    (** models.py 419-422: the names that are set in [self]; [get] gives None by default (342-343). *)
    Fixpoint field_loop (d d' : list (key * hval)) (M : list entry) : res bool * list entry :=
      match d with
      | [] => (Ok true, M)
      | (x, v) :: r => match eq v (match dget x d' with Some w => w | None => HAtom 0 end) M with
                       | (Ok true, M') => field_loop r d' M'
                       | p => p
                       end
      end.
  End Loops.

  (** [x == y] (models.py 408-424 for instances) with recursion depth at most [n]. *)
  Fixpoint heq (n : nat) (x y : hval) (M : list entry) {struct n} : res bool * list entry :=
    match n with
    | O => (Raise XFuel, M)
    | S n =>
        match x, y with
        | HAtom i, HAtom j => (aeq i j, M)
        | HRef a, HRef b =>
            match at_addr h a, at_addr h b with
            | HSeq t l, HSeq t' l' =>
                if Bool.eqb t t' && Nat.eqb (length l) (length l') then seq_loop (heq n) l l' M else (Ok false, M)
            | HDict d, HDict d' => if Nat.eqb (length d) (length d') then dict_loop (heq n) d d' M else (Ok false, M)
            | HInst c d, HInst c' d' =>
                if Nat.eqb a b then (Ok true, M)
                else if negb (Nat.eqb c c') then (Ok false, M)
                else if in_memo (a, b, th) M then (Ok true, M)
                else let '(r, M') := field_loop (heq n) d d' ((a, b, th) :: M) in (r, leave (a, b, th) M')
            | _, _ => (Ok false, M)
            end
        | _, _ => (Ok false, M)
        end
    end.
End Eq.
