(** Mock values of fields and mock objects of model classes: schematics/models.py 361-382, types/base.py 232-233 and
    345-350, types/compound.py 130-131 and 205-208.

    Randomness is a state of an arbitrary type [St]: every random choice reads the state and returns a new one, so that
    a statement about all states is one about all sequences of random choices. *)
From Verif.Model Require Import Py Core Mock.
Local Open Scope Z_scope.

(** The functions of the module [random] that mock() uses: [random.choice([True, False])], the index chosen by
    [random.choice] of a sequence of a given length, and [random.randint(a, b)]. (runtime) *)
Record rng (St : Type) := Rng {
  rnd_coin : St -> bool * St;
  rnd_index : nat -> St -> nat * St;
  rnd_int : Z -> Z -> St -> Z * St }.
Arguments Rng {St}.
Arguments rnd_coin {St}.
Arguments rnd_index {St}.
Arguments rnd_int {St}.

(** What mock() may raise: MockCreationError (exceptions.py 235-237), or any other exception. *)
Inductive mexn := MockCreation | Other (e : exn).

(** A field type as mock() sees it.
    - [MDraw d]: a type with an own [_mock] that uses random choices only (base.py 369, 409, 464, 567, 618, 665, 806,
      1010, 1039, 1121; net.py 67-278);
    - [MNone m]: a type with the [_mock] of BaseType (base.py 232-233): DictType, UnionType and PolyModelType; [m] is its
      attribute [model_class], if it has one (DictType: compound.py 296-298);
    - [MModel c]: ModelType of [c], compound.py 130-131;
    - [MList lo hi ch t]: ListType with [min_size] and [max_size], compound.py 205-208; [t] is the type of the element
      field and [ch] its option [choices] (which [_mock] of the element field does not look at, base.py 345-350). *)
Inductive mtype (St : Type) :=
| MDraw (d : St -> (mexn + pyval) * St)
| MNone (m : option cid)
| MModel (c : cid)
| MList (lo hi : option Z) (ch : option (list pyval)) (t : mtype St).
Arguments MDraw {St}.
Arguments MNone {St}.
Arguments MModel {St}.
Arguments MList {St}.

(** A field: the options mock() reads (base.py 175-183; [mf_default] is the value of the property [default], lines
    281-285) and its type. *)
Record mfield (St : Type) := MF {
  mf_required : bool;
  mf_default : pyval;
  mf_choices : option (list pyval);
  mf_type : mtype St }.
Arguments MF {St}.
Arguments mf_required {St}.
Arguments mf_default {St}.
Arguments mf_choices {St}.
Arguments mf_type {St}.

(** [getattr(field, 'model_class', None)]: compound.py 89-96 (ModelType), 197-199 (ListType), 296-298 (DictType). *)
Fixpoint model_class_of {St} (t : mtype St) : option cid :=
  match t with
  | MDraw _ => None
  | MNone m => m
  | MModel c => Some c
  | MList _ _ _ t => model_class_of t
  end.

Section Mock.
  Context {St : Type} (R : rng St).

  (** What the code under a call of mock() reads and changes: the set [context.memo] (models.py 368-369) and the random
      state. *)
  Definition world : Type := list cid * St.
  (** A computation with this state that may raise. *)
  Definition mockm (A : Type) : Type := world -> (mexn + A) * world.

  (** [[m() for dummy in range(n)]], compound.py 208. *)
  Fixpoint times {A} (n : nat) (m : mockm A) (w : world) : (mexn + list A) * world :=
    match n with
    | O => (inr [], w)
    | S k =>
        match m w with
        | (inl e, w1) => (inl e, w1)
        | (inr x, w1) =>
            match times k m w1 with
            | (inl e, w2) => (inl e, w2)
            | (inr l, w2) => (inr (x :: l), w2)
            end
        end
    end.

  (** [field._mock(context)]; [gm c] is [c.get_mock_object(context)].  The cases: [MDraw] as above, base.py 232-233,
      compound.py 130-131, compound.py 205-208. *)
  Fixpoint type_mock (gm : cid -> mockm pyval) (t : mtype St) (w : world) : (mexn + pyval) * world :=
    match t with
    | MDraw d => let '(r, s) := d (snd w) in (r, (fst w, s))
    | MNone _ => (inr VNone, w)
    | MModel c => gm c w
    | MList lo hi _ t =>
        match range_endpoints lo hi 0 0 with
        | None => (inl MockCreation, w)
        | Some (a, b) =>
            let '(n, s) := rnd_int R a b (snd w) in
            match times (Z.to_nat n) (type_mock gm t) (fst w, s) with
            | (inl e, w2) => (inl e, w2)
            | (inr l, w2) => (inr (VList l), w2)
            end
        end
    end.

  (** [random.choice(self.choices)]; an empty sequence raises IndexError. (runtime) *)
  Definition choose (l : list pyval) (w : world) : (mexn + pyval) * world :=
    match l with
    | [] => (inl (Other (XPy EIndexError)), w)
    | _ => let '(i, s) := rnd_index R (length l) (snd w) in (inr (nth i l VNone), (fst w, s))
    end.

  (** BaseType.mock, base.py 345-350. *)
  Definition field_mock (gm : cid -> mockm pyval) (f : mfield St) (w : world) : (mexn + pyval) * world :=
    let given (w : world) := match mf_choices f with Some l => choose l w | None => type_mock gm (mf_type f) w end in
    if mf_required f then given w
    else let '(b, s) := rnd_coin R (snd w) in
         if b then given (fst w, s) else (inr (mf_default f), (fst w, s)).

  (** [c in context.memo] (models.py 374). *)
  Definition in_memo (c : cid) (m : list cid) : bool := existsb (N.eqb c) m.
  (** [getattr(field, 'model_class', None) in context.memo], models.py 374; None is not in the set. *)
  Definition seen (f : mfield St) (m : list cid) : bool :=
    match model_class_of (mf_type f) with Some c => in_memo c m | None => false end.

  (** The loop over the fields, models.py 371-379.  Line 379 reads [exc.message], which no exception of Python 3 has: a
      MockCreationError becomes an AttributeError. *)
  Fixpoint field_values (gm : cid -> mockm pyval) (overrides : list (key * pyval)) (fs : list (key * mfield St))
      (values : list (key * pyval)) (w : world) : (mexn + list (key * pyval)) * world :=
    match fs with
    | [] => (inr values, w)
    | (x, f) :: r =>
        if dmem x overrides then field_values gm overrides r values w
        else if seen f (fst w) then field_values gm overrides r values w
        else
          match field_mock gm f w with
          | (inl MockCreation, w1) => (inl (Other (XPy EAttributeError)), w1)
          | (inl (Other e), w1) => (inl (Other e), w1)
          | (inr v, w1) => field_values gm overrides r (dset x v values) w1
          end
    end.

  (** The classes of the program: the fields of each, and its constructor [cls(values)] (models.py 382). *)
  Variable fields : cid -> list (key * mfield St).
  (** The constructor, see Core.v [model_new]. *)
  Variable make : cid -> list (key * pyval) -> res pyval.

  (** get_mock_object, models.py 361-382: [n] bounds the depth of nested calls (RecursionError).  Nested calls
      (compound.py 131) have no overrides. *)
  Fixpoint mock_object (n : nat) (overrides : list (key * pyval)) (c : cid) (w : world) : (mexn + pyval) * world :=
    match n with
    | O => (inl (Other XFuel), w)
    | S k =>
        match field_values (mock_object k []) overrides (fields c) [] (c :: fst w, snd w) with
        | (inl e, w1) => (inl e, w1)
        | (inr values, w1) =>
            match make c (dupdate values overrides) with
            | Ok v => (inr v, w1)
            | Raise e => (inl (Other e), w1)
            end
        end
    end.
End Mock.
