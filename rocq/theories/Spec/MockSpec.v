(** Vocabulary for the properties of mock values and mock objects. *)
From Verif.Model Require Import Py Core MockObject.
From Verif.Spec Require Import EnumSpec.
Local Open Scope Z_scope.

(** Random choices that respect their limits. *)
Definition fair_rng {St} (R : rng St) : Prop :=
  (forall n s, (0 < n)%nat -> (fst (rnd_index R n s) < n)%nat) /\
  (forall a b s, a <= b -> a <= fst (rnd_int R a b s) <= b).

(** The model class whose mock object becomes part of a mock of this type. *)
Inductive refers {St} : mtype St -> cid -> Prop :=
| ref_model c : refers (MModel c) c
| ref_list lo hi ch t c : refers t c -> refers (MList lo hi ch t) c.

(** The random choices made by types that are not models. *)
Inductive draws {St} : mtype St -> (St -> (mexn + pyval) * St) -> Prop :=
| dr_draw d : draws (MDraw d) d
| dr_list lo hi ch t d : draws t d -> draws (MList lo hi ch t) d.

Section Classes.
  Context {St : Type} (fields : cid -> list (key * mfield St)).

  (** [d] is the class of a model nested, at any depth, in an object of class [c]. *)
  Inductive nested_in : cid -> cid -> Prop :=
  | nest_one c d x f : In (x, f) (fields c) -> refers (mf_type f) d -> nested_in c d
  | nest_more c d e : nested_in c d -> nested_in d e -> nested_in c e.

  (** A mock of field [g] contains, at any depth, an object of class [d]. *)
  Definition reached (g : mfield St) (d : cid) : Prop := exists e, refers (mf_type g) e /\ (d = e \/ nested_in e d).

  (** [U] contains all classes nested in classes of [U]. *)
  Definition closed (U : list cid) : Prop :=
    forall c x f d, In c U -> In (x, f) (fields c) -> refers (mf_type f) d -> In d U.

  Variable make : cid -> list (key * pyval) -> res pyval.

  (** What mock data may be: of a type, of a field, an object of a class. *)
  Inductive type_gives : mtype St -> pyval -> Prop :=
  | tg_draw d s s' v : d s = (inr v, s') -> type_gives (MDraw d) v
  | tg_none m : type_gives (MNone m) VNone
  | tg_model c v : object_gives c v -> type_gives (MModel c) v
  | tg_list lo hi ch t l : within lo hi (Z.of_nat (length l)) -> Forall (type_gives t) l ->
      type_gives (MList lo hi ch t) (VList l)
  with field_gives : mfield St -> pyval -> Prop :=
  | fg_default f : mf_required f = false -> field_gives f (mf_default f)
  | fg_choice f l v : mf_choices f = Some l -> In v l -> field_gives f v
  | fg_type f v : mf_choices f = None -> type_gives (mf_type f) v -> field_gives f v
  with object_gives : cid -> pyval -> Prop :=
  | og c args v : make c args = Ok v ->
      (forall x u, dget x args = Some u -> exists f, In (x, f) (fields c) /\ field_gives f u) -> object_gives c v.
End Classes.

(** Characters of [string.hexdigits]. *)
Definition hexdigit (c : N) : Prop := (48 <= c <= 57 \/ 97 <= c <= 102 \/ 65 <= c <= 70)%N.
