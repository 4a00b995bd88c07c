(** C77: iterating over the atoms of a model, with any mapping, filter and program between two requests. *)
From Verif.Model Require Import Py Core Atoms.
From Verif.Spec Require Import AtomsSpec.
From Verif.Proofs Require Import AtomsFacts.
From Verif.Conformance Require Import Sample.

(** ** C77 *)
(** Without a filter the i-th request gives the i-th field, its value looked up in the world of that request, and after the
    last field StopIteration. *)
Theorem C77_values_are_read_when_requested :
  forall W X (isx : X -> bool) getitem keys fields moves (w : W) l g' w' i w0 o,
    (forall x, In x keys -> atom_key x) ->
    requests (resume isx getitem None keys fields) moves GStart w = (l, g', w') ->
    nth_error l i = Some (w0, o) -> (forall j, j < i -> exists w1 a, nth_error l j = Some (w1, Yield a)) ->
    match nth_error fields i with
    | Some (n, f) => exists w1 res, looked_up isx getitem keys n w0 w1 res /\
        match res with inl v => exists a, o = Yield a /\ shown keys n f v a | inr x => o = Throw x end
    | None => o = Stop
    end.
Proof. exact @unfiltered. Qed.
Print Assumptions C77_values_are_read_when_requested.

(** Over a stable mapping, with a filter that decides by the atom alone, the atoms received are those of all fields that pass,
    in the order of the fields, whatever happens in between; the filter is asked once for every field, in this order. *)
Theorem C77_filtered :
  forall W X (isx : X -> bool) getitem val keys fields q p note moves (w : W) l g' w',
    (forall n w, getitem n w = (w, inl (val n))) -> (forall a w, q a w = (note a w, inl (p a))) -> asked keys "value" ->
    (forall x, In x keys -> atom_key x) -> length fields < length moves ->
    requests (resume isx (Some getitem) (Some q) keys fields) moves GStart w = (l, g', w') ->
    exists all, Forall2 (fun nf a => shown keys (fst nf) (snd nf) (val (fst nf)) a) fields all /\ received l = filter p all /\
      ((forall mv, In mv moves -> forall w, mv w = w) -> w' = fold_left (fun w a => note a w) all w).
Proof.
  exact (fun W X isx gi val keys fields q p note moves w l g' w' Hg Hq Hv =>
    @comprehension W X isx gi val keys fields q p note Hg Hq Hv moves w l g' w').
Qed.
Print Assumptions C77_filtered.

(** With any filter and mapping the names received are some of the names of the fields, in their order, none twice. *)
Theorem C77_names_in_order :
  forall W X (isx : X -> bool) getitem p keys fields moves (w : W) l g' w',
    asked keys "name" -> requests (resume isx getitem p keys fields) moves GStart w = (l, g', w') ->
    part_of (map at_name (received l)) (map (fun nf => Some (fst nf)) fields).
Proof. exact @names. Qed.
Print Assumptions C77_names_in_order.

(** Without the key "value" the mapping is not touched. *)
Theorem C77_mapping_not_read_unless_asked :
  forall W X (isx : X -> bool) getitem p keys fields moves g (w : W), ~ asked keys "value" ->
    requests (resume isx getitem p keys fields) moves g w = requests (resume isx None p keys fields) moves g w.
Proof. exact @unread. Qed.
Print Assumptions C77_mapping_not_read_unless_asked.

(** A wrong key raises at the first request, not at the call, and the iteration is over. *)
Theorem C77_wrong_keys :
  forall W X (isx : X -> bool) getitem p keys fields mv moves (w : W) l g' w',
    ~ (forall x, In x keys -> atom_key x) ->
    requests (resume isx getitem p keys fields) (mv :: moves) GStart w = (l, g', w') ->
    w' = fold_left (fun w m => m w) (mv :: moves) w /\
    exists r, l = (mv w, Invalid) :: r /\ forall w0 o, In (w0, o) r -> o = Stop.
Proof. exact @bad_keys. Qed.
Print Assumptions C77_wrong_keys.

(** After the end, or an exception, there is nothing more. *)
Theorem C77_ended_for_good :
  forall W X (isx : X -> bool) getitem p keys fields moves g (w : W) l g' w' i w0 o j w1 o1,
    requests (resume isx getitem p keys fields) moves g w = (l, g', w') ->
    nth_error l i = Some (w0, o) -> (forall a, o <> Yield a) -> i < j -> nth_error l j = Some (w1, o1) -> o1 = Stop.
Proof. exact @ended_for_good. Qed.
Print Assumptions C77_ended_for_good.

(** Exceptions of the filter are not dropped, unlike those of the mapping. *)
Theorem C77_filter_exceptions_are_raised :
  forall W X (isx : X -> bool) getitem q keys n f r mv (w : W) w1 v a w2 x,
    (forall y, In y keys -> atom_key y) ->
    looked_up isx getitem keys n (mv w) w1 (inl v) -> shown keys n f v a -> q a w1 = (w2, inr x) ->
    requests (resume isx getitem (Some q) keys ((n, f) :: r)) [mv] GStart w = ([(mv w, Throw x)], GEnd, w2).
Proof. exact @filter_throws. Qed.
Print Assumptions C77_filter_exceptions_are_raised.

(** The two ready filters are complementary, but see no setter when the key "field" is not asked for. *)
Theorem C77_setter_filters :
  forall keys n f v a, shown keys n f v a ->
    (asked keys "field" -> (setter_filter a = true <-> exists s, fd_set f = Some s) /\
                           (no_setter_filter a = true <-> fd_set f = None)) /\
    (~ asked keys "field" -> setter_filter a = false /\ no_setter_filter a = true).
Proof. exact setters. Qed.
Print Assumptions C77_setter_filters.

(** Two fields and a counter that every lookup and the program itself change: the second value is of its own request. *)
Example C77_case :
  let fs := [fld "a" (o0 0) (TLeaf int_leaf); fld "b" (o0 0) (TLeaf int_leaf)] in
  let get (n : key) (w : nat) := (S w, if Nat.eqb w 7 then inr tt else inl (VInt (Z.of_nat w)) : pyval + unit) in
  let run p ms := fst (fst (requests (resume (fun _ => true) (Some get) p [u "name"; u "value"] fs) ms GStart 1)) in
  (forall x, In x [u "name"; u "value"] -> atom_key x) /\ asked [u "name"; u "value"] "name" /\
  ~ asked [u "name"; u "value"] "field" /\ ~ (forall x, In x [u "size"] -> atom_key x) /\
  run None [fun w => w; fun w => w + 2; fun w => w; fun w => w]
    = [(1, Yield (At (Some (k "a")) None (VInt 1))); (4, Yield (At (Some (k "b")) None (VInt 4))); (5, Stop); (5, Stop)] /\
  run None [fun _ => 7] = [(7, Yield (At (Some (k "a")) None VUndef))] /\
  run (Some (fun a w => (w, inl (negb (match at_value a with VInt 1%Z => true | _ => false end))))) [fun w => w; fun w => w]
    = [(1, Yield (At (Some (k "b")) None (VInt 2))); (3, Stop)].
Proof.
  cbn zeta. split; [intros x [<-|[<-|[]]]; red; auto|]. split; [now left|].
  split; [intros [H|[H|[]]]; discriminate H|].
  split; [intros H; destruct (H _ (or_introl eq_refl)) as [E|[E|E]]; discriminate E|].
  repeat split; reflexivity.
Qed.
(** The hypotheses of the stable case: a value for every name, a filter that keeps a log. *)
Example C77_stable_case :
  let fs := [fld "a" (o0 0) (TLeaf int_leaf); fld "b" (o0 0) (TLeaf int_leaf)] in
  let val (n : key) := if key_eqb n (k "a") then VInt 1 else VInt 2 in
  let get (n : key) (w : list atom) := (w, inl (val n) : pyval + unit) in
  let p a := match at_value a with VInt 2%Z => true | _ => false end in
  let q a (w : list atom) := (w ++ [a], inl (p a) : bool + unit) in
  let a1 := At (Some (k "a")) None (VInt 1) in let a2 := At (Some (k "b")) None (VInt 2) in
  exists l g', requests (resume (fun _ => true) (Some get) (Some q) [u "value"; u "name"] fs) (repeat (fun w => w) 3) GStart []
    = (l, g', [a1; a2]) /\ received l = [a2].
Proof. cbn zeta. eexists. eexists. split; reflexivity. Qed.
