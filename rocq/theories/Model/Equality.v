(** [==] on values and Model.__eq__ (schematics/models.py 408-427), for two distinct objects: the shortcut
    [self is other] (line 409; also inside lists, tuples and dicts) is [same] below; [memo] (lines 413-417) only
    matters for cyclic object graphs, which the value universe does not have. *)
From Verif.Model Require Import Py Core Num Calendar Api.

(** Fields of dates and times agree. (runtime) *)
Definition date_eqb (a b : pydate) : bool :=
  Z.eqb (d_year a) (d_year b) && Z.eqb (d_month a) (d_month b) && Z.eqb (d_day a) (d_day b).
(** The same for times. (runtime) *)
Definition time_eqb (a b : pytime) : bool :=
  Z.eqb (t_hour a) (t_hour b) && Z.eqb (t_minute a) (t_minute b) && Z.eqb (t_second a) (t_second b) &&
  Z.eqb (t_micro a) (t_micro b).

(** Values without parts. A datetime is never equal to a date; aware datetimes are compared by the
    instant, an aware and a naive one are unequal. (runtime) *)
Definition atom_eq (a b : pyval) : bool :=
  match num_of a, num_of b with
  | Some x, Some y => num_eqb x y
  | _, _ =>
      match a, b with
      | VNone, VNone => true
      | VUndef, VUndef => true
      | VStr s, VStr t => pstr_eqb s t
      | VBytes s, VBytes t => pstr_eqb s t
      | VDate x, VDate y => date_eqb x y
      | VDateTime d t None, VDateTime d' t' None => date_eqb d d' && time_eqb t t'
      | VDateTime d t (Some o), VDateTime d' t' (Some o') => Z.eqb (instant d t o) (instant d' t' o')
      | VTimedelta x, VTimedelta y => Z.eqb x y
      | VUUID x, VUUID y => N.eqb x y
      | VEnum c n _, VEnum c' n' _ => N.eqb c c' && pstr_eqb n n'
      | VObj x, VObj y => N.eqb x y
      | _, _ => false
      end
  end.

Section Eq.
  Context (E : env).
  (** Comparison of parts. *)
  Context (eq : pyval -> pyval -> res bool).

  (** Elementwise, stopping at the first difference. (runtime) *)
  Fixpoint list_eq (a b : list pyval) : res bool :=
    match a, b with
    | [], [] => Ok true
    | x :: a', y :: b' => rbind (eq x y) (fun t => if t then list_eq a' b' else Ok false)
    | _, _ => Ok false
    end.
  (** [a == b] for dictionaries of the same size: every entry of [a] has an equal one in [b]. (runtime) *)
  Fixpoint dict_eq (a b : list (key * pyval)) : res bool :=
    match a with
    | [] => Ok true
    | (x, v) :: r => match dget x b with
                     | None => Ok false
                     | Some w => rbind (eq v w) (fun t => if t then dict_eq r b else Ok false)
                     end
    end.
  (** The loop of Model.__eq__ (models.py 418-421); [get] is models.py 342-343 with default None. *)
  Fixpoint model_eq_loop (c : cid) (a b : mdata pyval) (ks : list key) : res bool :=
    match ks with
    | [] => Ok true
    | x :: r => rbind (model_get E c a x VNone) (fun v =>
                rbind (model_get E c b x VNone) (fun w =>
                rbind (eq v w) (fun t => if t then model_eq_loop c a b r else Ok false)))
    end.
  (** [a == b] with elements compared by [eq]: containers element by element, models by models.py 408-419, everything else at once. (runtime) *)
  Definition eq_step (a b : pyval) : res bool :=
    match a, b with
    | VList l, VList l' => if Nat.eqb (length l) (length l') then list_eq l l' else Ok false
    | VTuple l, VTuple l' => if Nat.eqb (length l) (length l') then list_eq l l' else Ok false
    | VDict d, VDict d' => if Nat.eqb (length d) (length d') then dict_eq d d' else Ok false
    | VModel c m, VModel c' m' => if N.eqb c c' then model_eq_loop c m m' (model_iter E c m) else Ok false
    | _, _ => Ok (atom_eq a b)
    end.
End Eq.

(** [a == b] with recursion depth at most [n]. *)
Fixpoint eq_at (E : env) (n : nat) (a b : pyval) : res bool :=
  match n with
  | O => Raise XFuel
  | S m => eq_step E (eq_at E m) a b
  end.

(** [m1 == m2] and [m1 != m2] (models.py 408-427) for instances; [same]: they are one object. *)
Definition model_eq (E : env) (n : nat) (same : bool) (a b : pyval) : res bool :=
  if same then Ok true else eq_at E n a b.
(** Model.__ne__ (models.py 426-427). *)
Definition model_ne (E : env) (n : nat) (same : bool) (a b : pyval) : res bool :=
  rbind (model_eq E n same a b) (fun t => Ok (negb t)).

(** BaseType.validate_choices (base.py 340-343): [value not in self.choices]. *)
Fixpoint py_in (E : env) (n : nat) (v : pyval) (l : list pyval) : res bool :=
  match l with
  | [] => Ok false
  | w :: r => rbind (eq_at E n w v) (fun t => if t then Ok true else py_in E n v r)
  end.
(** The message key of base.py 176. *)
Definition m_choices : emsg := u "choices".
(** BaseType.validate_choices (base.py 340-343). *)
Definition validate_choices (E : env) (n : nat) (choices : option (list pyval)) : vldr := fun v =>
  match choices with
  | None => None
  | Some l => match py_in E n v l with
              | Ok true => None
              | Ok false => Some (XValid false [m_choices])
              | Raise e => Some e
              end
  end.
