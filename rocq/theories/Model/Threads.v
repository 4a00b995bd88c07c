(** Several threads that compare instances at once: models.py 408-424 again, with each access to the shared set [memo] a step of its
    own, so that other threads may run between any two of them (the interpreter may switch threads anywhere else too, but nothing
    else is shared).  The objects are not changed while they are compared. *)
From Verif.Model Require Import Py Core Cyclic.

(** What a thread still has to do: look whether a comparison is in progress (models.py 414), add one (417), remove it (424). *)
Inductive mprog :=
| Done (r : res bool)
| Ask (e : entry) (f : bool -> mprog)
| Enter (e : entry) (p : mprog)
| Leave (e : entry) (p : mprog).

Section Prog.
  Context (h : heap) (aeq : nat -> nat -> res bool) (th : nat).
  Section Loops.
    (** Comparison of parts, and what is to be done with the answer. *)
    Context (eq : hval -> hval -> (res bool -> mprog) -> mprog).
    (** Elements of containers are compared by identity first. (runtime) *)
    Definition item_prog (x y : hval) (c : res bool -> mprog) : mprog := if same_obj x y then c (Ok true) else eq x y c.
    (** Elementwise, stopping at the first difference. (runtime) *)
    Fixpoint seq_prog (l l' : list hval) (c : res bool -> mprog) : mprog :=
      match l, l' with
      | x :: r, y :: r' => item_prog x y (fun a => match a with Ok true => seq_prog r r' c | _ => c a end)
      | _, _ => c (Ok true)
      end.
    (** Every entry of the first dictionary has an equal one in the second. (runtime) *)
    Fixpoint dict_prog (d d' : list (key * hval)) (c : res bool -> mprog) : mprog :=
      match d with
      | [] => c (Ok true)
      | (x, v) :: r => match dget x d' with
                       | None => c (Ok false)
                       | Some w => item_prog v w (fun a => match a with Ok true => dict_prog r d' c | _ => c a end)
                       end
      end.
    (** models.py 419-422. *)
    Fixpoint field_prog (d d' : list (key * hval)) (c : res bool -> mprog) : mprog :=
      match d with
      | [] => c (Ok true)
      | (x, v) :: r => eq v (match dget x d' with Some w => w | None => HAtom 0 end)
                         (fun a => match a with Ok true => field_prog r d' c | _ => c a end)
      end.
  End Loops.

  (** [x == y] (models.py 408-424) with recursion depth at most [n]; the [finally] (423) comes after answers and exceptions. *)
  Fixpoint eq_prog (n : nat) (x y : hval) (c : res bool -> mprog) {struct n} : mprog :=
    match n with
    | O => c (Raise XFuel)
    | S n =>
        match x, y with
        | HAtom i, HAtom j => c (aeq i j)
        | HRef a, HRef b =>
            match at_addr h a, at_addr h b with
            | HSeq t l, HSeq t' l' =>
                if Bool.eqb t t' && Nat.eqb (length l) (length l') then seq_prog (eq_prog n) l l' c else c (Ok false)
            | HDict d, HDict d' => if Nat.eqb (length d) (length d') then dict_prog (eq_prog n) d d' c else c (Ok false)
            | HInst k d, HInst k' d' =>
                if Nat.eqb a b then c (Ok true)
                else if negb (Nat.eqb k k') then c (Ok false)
                else Ask (a, b, th) (fun t =>
                  if t then c (Ok true)
                  else Enter (a, b, th) (field_prog (eq_prog n) d d' (fun r => Leave (a, b, th) (c r))))
            | _, _ => c (Ok false)
            end
        | _, _ => c (Ok false)
        end
    end.
End Prog.

(** One step of a thread, and the set after it (models.py 414-417, 424). *)
Definition turn (p : mprog) (M : list entry) : mprog * list entry :=
  match p with
  | Done r => (Done r, M)
  | Ask e f => (f (in_memo e M), M)
  | Enter e p => (p, e :: M)
  | Leave e p => (p, leave e M)
  end.
(** The thread with this number takes a step. (runtime) *)
Fixpoint turn_at (i : nat) (ps : list mprog) (M : list entry) : list mprog * list entry :=
  match i, ps with
  | _, [] => ([], M)
  | O, p :: r => let '(p', M') := turn p M in (p' :: r, M')
  | S i, p :: r => let '(r', M') := turn_at i r M in (p :: r', M')
  end.
(** A run: which thread takes the next step, again and again. (runtime) *)
Fixpoint interleave (sch : list nat) (ps : list mprog) (M : list entry) : list mprog * list entry :=
  match sch with
  | [] => (ps, M)
  | i :: r => let '(ps', M') := turn_at i ps M in interleave r ps' M'
  end.
