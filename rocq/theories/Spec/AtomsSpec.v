(** Iterating over the atoms of a model. *)
From Verif.Model Require Import Py Core Atoms.

Section Spec.
  Context {W X : Type}.
  (** A consumer: for each request what the rest of the program does before it.  Gives what the world was at each request
      and what the request gave. *)
  Fixpoint requests (next : gen -> W -> gen * W * outcome X) (moves : list (W -> W)) (g : gen) (w : W)
    : list (W * outcome X) * gen * W :=
    match moves with
    | [] => ([], g, w)
    | mv :: r =>
        let w0 := mv w in
        let '(g1, w1, o) := next g w0 in
        let '(l, g2, w2) := requests next r g1 w1 in ((w0, o) :: l, g2, w2)
    end.

  (** The atoms received. *)
  Fixpoint received (l : list (W * outcome X)) : list atom :=
    match l with
    | [] => []
    | (_, Yield a) :: r => a :: received r
    | _ :: r => received r
    end.
  (** The keys an atom may have. *)
  Definition atom_key (x : pstr) : Prop := x = u "name" \/ x = u "field" \/ x = u "value".
  Definition asked (keys : list pstr) (x : string) : Prop := In (u x) keys.

  (** An atom of the field [f] named [n] with value [v]: what was not asked for is None. *)
  Definition shown (keys : list pstr) (n : key) (f : field) (v : pyval) (a : atom) : Prop :=
    (asked keys "name" -> at_name a = Some n) /\ (~ asked keys "name" -> at_name a = None) /\
    (asked keys "field" -> at_field a = Some f) /\ (~ asked keys "field" -> at_field a = None) /\ at_value a = v.

  (** Looking [n] up in the world [w]: exceptions deriving from Exception are dropped. *)
  Inductive looked_up (is_Exception : X -> bool) (getitem : option (key -> W -> W * (pyval + X))) (keys : list pstr)
      (n : key) (w : W) : W -> pyval + X -> Prop :=
  | lu_none : getitem = None -> looked_up is_Exception getitem keys n w w (inl VUndef)
  | lu_unasked : ~ asked keys "value" -> looked_up is_Exception getitem keys n w w (inl VUndef)
  | lu_value g w' v : getitem = Some g -> asked keys "value" -> g n w = (w', inl v) ->
      looked_up is_Exception getitem keys n w w' (inl v)
  | lu_dropped g w' x : getitem = Some g -> asked keys "value" -> g n w = (w', inr x) -> is_Exception x = true ->
      looked_up is_Exception getitem keys n w w' (inl VUndef)
  | lu_thrown g w' x : getitem = Some g -> asked keys "value" -> g n w = (w', inr x) -> is_Exception x = false ->
      looked_up is_Exception getitem keys n w w' (inr x).

  (** A part of a list, in the same order. *)
  Inductive part_of {A} : list A -> list A -> Prop :=
  | po_nil : part_of [] []
  | po_keep x l m : part_of l m -> part_of (x :: l) (x :: m)
  | po_skip x l m : part_of l m -> part_of l (x :: m).
End Spec.
