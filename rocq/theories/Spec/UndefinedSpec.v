(** What a program that makes Undefined is to see, said without classes' attributes. *)
From Verif.Model Require Import Py Undefined.

(** The programs in question: the classes called are UndefinedType (0) or descend from it, no class puts an [_instance] of its own
    in its body, only Undefined is copied or pickled, and not with the protocols 0 and 1. *)
Definition plain_event (e : uevent) : Prop :=
  match e with
  | UCall _ _ => True
  | UDefine _ own => own = false
  | UCopy o => o = the_undefined
  | UPickle p o => (2 <= p)%nat /\ o = the_undefined
  end.

(** What each event is to give. *)
Definition expected (e : uevent) : option (res N) :=
  match e with
  | UCall c args => if (N.eqb c 0 && Nat.eqb args 0)%bool then Some (Ok the_undefined) else Some (Raise (XPy ETypeError))
  | UDefine _ _ => None
  | UCopy _ | UPickle _ _ => Some (Ok the_undefined)
  end.

(** A class order in which UndefinedType comes before everything else for itself, and which has it for all others. *)
Definition descend (mro : N -> list N) : Prop := (exists r, mro 0%N = 0%N :: r) /\ forall c, In 0%N (mro c).
