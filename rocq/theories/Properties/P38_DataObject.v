(** C91 (data objects). *)
From Verif.Model Require Import Py Core Cyclic DataObj.
From Verif.Spec Require Import DataObjSpec.
From Verif.Proofs Require Import DataObjFacts.

(** A name that does not begin with an underscore can be read both ways: the value if there is one, otherwise AttributeError and
    KeyError.  No attribute of the class gets in the way. *)
Theorem C91_attributes_and_subscription : forall h a d x, is_data h a d -> public x ->
  (forall v, dget (KStr x) d = Some v -> obj_getattr h a x = Ok (AStored v) /\ obj_getitem h a (KStr x) = Ok v) /\
  (dget (KStr x) d = None -> obj_getattr h a x = Raise (XPy EAttributeError) /\ obj_getitem h a (KStr x) = Raise (XPy EKeyError)).
Proof. exact (fun h a d x H => public_attr h a d H x). Qed.
Print Assumptions C91_attributes_and_subscription.

(** Setting and deleting such an attribute is setting and deleting the entry. *)
Theorem C91_assignment : forall h a d x v, is_data h a d -> public x ->
  obj_setattr h a x v = obj_setitem h a (KStr x) v /\
  (In (KStr x) (dkeys d) -> obj_delattr h a x = obj_delitem h a (KStr x)).
Proof. exact (fun h a d x v H P => conj (public_set h a x v P) (public_del h a d H x P)). Qed.
Print Assumptions C91_assignment.
(** Deleting what is not there raises AttributeError; [__dict__], [__class__] and [__weakref__] are neither set to such values nor
    deleted. *)
Theorem C91_deleting_nothing : forall h a d x, is_data h a d -> ~ In (KStr x) (dkeys d) -> name_in x slot_names = false ->
  obj_delattr h a x = (h, Raise (XPy EAttributeError)).
Proof. exact del_absent. Qed.
Print Assumptions C91_deleting_nothing.
Theorem C91_slots : forall h a v,
  obj_setattr h a (u "__dict__") v = (h, Raise (XPy ETypeError)) /\ obj_delattr h a (u "__dict__") = (h, Raise (XPy ETypeError)) /\
  obj_setattr h a (u "__class__") v = (h, Raise (XPy ETypeError)) /\ obj_delattr h a (u "__class__") = (h, Raise (XPy ETypeError)) /\
  obj_setattr h a (u "__weakref__") v = (h, Raise (XPy EAttributeError)) /\ obj_delattr h a (u "__weakref__") = (h, Raise (XPy EAttributeError)).
Proof. exact slots_fixed. Qed.
Print Assumptions C91_slots.

(** Setting an entry changes that entry of that object and nothing else. *)
Theorem C91_setting : forall h a d x v, is_data h a d ->
  exists h' d', obj_setitem h a x v = (h', Ok tt) /\ only_at h h' a /\ is_data h' a d' /\
    forall y, dget y d' = if key_eqb y x then Some v else dget y d.
Proof. exact (fun h a d x v H => set_item h a d H x v). Qed.
Print Assumptions C91_setting.

(** Deleting an entry removes it and nothing else; without it there is a KeyError. *)
Theorem C91_deleting : forall h a d x, is_data h a d -> NoDup (dkeys d) ->
  (In x (dkeys d) -> exists h' d', obj_delitem h a x = (h', Ok tt) /\ only_at h h' a /\ is_data h' a d' /\
     forall y, dget y d' = if key_eqb y x then None else dget y d) /\
  (~ In x (dkeys d) -> obj_delitem h a x = (h, Raise (XPy EKeyError))).
Proof. exact (fun h a d x H => del_item h a d H x). Qed.
Print Assumptions C91_deleting.

(** Length, iteration, membership, [_keys] and [_clear]. *)
Theorem C91_contents : forall h a d, is_data h a d ->
  obj_len h a = length d /\ obj_iter h a = d /\ (forall x, obj_contains h a x = true <-> exists v, In (x, v) d) /\
  (dget (k "_keys") d = None -> obj_keys h a = (h, Ok (map fst d))) /\
  (dget (k "_clear") d = None -> exists h', obj_clear h a = (h', Ok tt) /\ only_at h h' a /\ is_data h' a []).
Proof. exact contents. Qed.
Print Assumptions C91_contents.

(** [_get], [_pop] and [_setdefault] as those of a dictionary. *)
Theorem C91_dictionary_methods : forall h a d x w o, is_data h a d -> NoDup (dkeys d) ->
  dget (k "_get") d = None -> dget (k "_pop") d = None -> dget (k "_setdefault") d = None ->
  obj_get h a x w = (h, Ok match dget x d with Some v => v | None => w end) /\
  (forall v, dget x d = Some v ->
     obj_setdefault h a x w = (h, Ok v) /\
     exists h' d', obj_pop h a x o = (h', Ok v) /\ only_at h h' a /\ is_data h' a d' /\
       forall y, dget y d' = if key_eqb y x then None else dget y d) /\
  (dget x d = None ->
     obj_pop h a x o = (h, match o with Some v => Ok v | None => Raise (XPy EKeyError) end) /\
     exists h' d', obj_setdefault h a x w = (h', Ok w) /\ only_at h h' a /\ is_data h' a d' /\ d' = d ++ [(x, w)]).
Proof.
  exact (fun h a d x w o H N G P S =>
    conj (get_item_default h a d H x w G)
      (conj (fun v E => conj (proj1 (setdefault_item h a d H x w S) v E) (proj1 (pop_item h a d H x o N P) v E))
            (fun E => conj (proj2 (pop_item h a d H x o N P) E) (proj2 (setdefault_item h a d H x w S) E)))).
Qed.
Print Assumptions C91_dictionary_methods.

(** A new object has what the source and the keywords say, the last one wins; all other objects are as before. *)
Theorem C91_construction : forall h args kw l, ~ In (k "self") (dkeys kw) -> ~ In (k "source") (dkeys kw) ->
  match args with [] => l = [] | s :: _ => source_pairs h s = Ok l end ->
  exists h' d, obj_new h args kw = (h', Ok (length h)) /\ length h' = S (length h) /\ kept h h' /\ is_data h' (length h) d /\
    forall x, dget x d = dget x (rev (l ++ kw)).
Proof. exact new_spec. Qed.
Print Assumptions C91_construction.

(** An update from a source changes what the source and the keywords name, the last one wins, and nothing else. *)
Theorem C91_update : forall h a d s kw l, is_data h a d -> dget (k "_update") d = None ->
  ~ In (k "self") (dkeys kw) -> ~ In (k "source") (dkeys kw) -> source_pairs h s = Ok l ->
  exists h' d', obj_update h a (Some s) kw = (h', Ok tt) /\ only_at h h' a /\ is_data h' a d' /\
    forall x, dget x d' = match dget x (rev (l ++ kw)) with Some v => Some v | None => dget x d end.
Proof. exact update_spec. Qed.
Print Assumptions C91_update.

(** Defaults never replace an attribute; of several for the same name the first one counts. *)
Theorem C91_defaults : forall h a d s l, is_data h a d -> dget (k "_setdefaults") d = None -> dget (k "_setdefault") d = None ->
  source_pairs h s = Ok l -> ~ In (k "_setdefault") (dkeys l) ->
  exists h' d', obj_setdefaults h a s = (h', Ok a) /\ only_at h h' a /\ is_data h' a d' /\
    forall x, dget x d' = match dget x d with Some v => Some v | None => dget x l end.
Proof. exact setdefaults_spec. Qed.
Print Assumptions C91_defaults.

(** A copy is a new object with the same attributes, the values being the same objects; it equals the original, whatever the
    values are. *)
Theorem C91_copy : forall h a d, is_data h a d -> NoDup (dkeys d) -> dget (k "_copy") d = None ->
  exists h', obj_copy h a = (h', Ok (length h)) /\ length h' = S (length h) /\ kept h h' /\ is_data h' (length h) d.
Proof. exact copy_spec. Qed.
Print Assumptions C91_copy.
Theorem C91_copies_are_equal : forall h a d h' c n aeq,
  is_data h a d -> NoDup (dkeys d) -> dget (k "_copy") d = None -> obj_copy h a = (h', Ok c) ->
  data_eq h' aeq (S n) (HRef c) (HRef a) = Ok true /\ data_eq h' aeq (S n) (HRef a) (HRef c) = Ok true.
Proof. exact copy_equal. Qed.
Print Assumptions C91_copies_are_equal.

(** [_to_dict] answers a new dictionary, in which data objects are new dictionaries at every depth of data objects; everything else
    is the same object, and no object there was changes. *)
Theorem C91_to_dict : forall n h a d h' b, is_data h a d -> wf h -> to_dict n h a = (h', Ok b) ->
  b = length h /\ kept h h' /\ as_dict (length h) h h' a b.
Proof. exact to_dict_result. Qed.
Print Assumptions C91_to_dict.

(** It answers exactly if no data object contains itself; otherwise it is a RecursionError at every recursion limit. *)
Theorem C91_to_dict_answers : forall h a d, is_data h a d -> wf h ->
  (forall c e, within h a c -> is_data h c e -> dget (k "_to_dict") e = None) ->
  (finite h a <-> exists n0, forall n, n0 <= n -> exists h' b, to_dict n h a = (h', Ok b)).
Proof. exact to_dict_ends. Qed.
Print Assumptions C91_to_dict_answers.
Theorem C91_to_dict_of_cycles : forall h a d, is_data h a d -> wf h ->
  (forall c e, within h a c -> is_data h c e -> dget (k "_to_dict") e = None) ->
  ~ finite h a -> forall n, snd (to_dict n h a) = Raise XFuel.
Proof. exact to_dict_endless. Qed.
Print Assumptions C91_to_dict_of_cycles.

(** Two objects are equal if and only if they have equal attributes, entries or elements and are of the same kind; in whatever
    order the attributes were set. *)
Theorem C91_equality : forall h aeq n v w b, data_eq h aeq n v w = Ok b -> (b = true <-> same_data h aeq v w).
Proof. exact data_eq_answers. Qed.
Print Assumptions C91_equality.
(** There is an answer if nothing contains itself. *)
Theorem C91_equality_answers : forall h aeq rank, ranked_parts h rank -> forall n a w, S (rank a) < n ->
  exists b, data_eq h aeq n (HRef a) w = Ok b.
Proof. exact (fun h aeq rank R n a w => data_eq_total h aeq rank R n (HRef a) w). Qed.
Print Assumptions C91_equality_answers.

(** What is not so. *)

(** The documentation says that [_update] is equivalent to that of a dictionary: with keywords alone it always raises TypeError. *)
Theorem C91_update_by_keywords_refuted : forall h a d kw, is_data h a d -> ~ In (k "source") (dkeys kw) ->
  obj_update h a None kw = (h, Raise (XPy ETypeError)).
Proof. exact update_no_source. Qed.
Print Assumptions C91_update_by_keywords_refuted.

(** No keyword can be [source] or [self]. *)
Theorem C91_reserved_keywords_refuted : forall h args kw, In (k "self") (dkeys kw) \/ In (k "source") (dkeys kw) ->
  snd (obj_new h args kw) = Raise (XPy ETypeError).
Proof. exact new_reserved. Qed.
Print Assumptions C91_reserved_keywords_refuted.

(** An attribute with the name of a method is what reading it gives; a few names always mean those of the class. *)
Theorem C91_attributes_hide_methods : forall h a d x v, is_data h a d -> dget (KStr x) d = Some v ->
  (~ In x slot_names -> obj_getattr h a x = Ok (AStored v)) /\ (In x slot_names -> obj_getattr h a x = Ok (AClass x)).
Proof. exact (fun h a d x v H G => conj (stored_hides h a d H x v G) (slots_first h a x)). Qed.
Print Assumptions C91_attributes_hide_methods.

(** An attribute with the name of a method takes its place, also where the class calls the method itself: the defaults that come after
    it are lost. *)
Theorem C91_method_names_refuted : exists h a l h',
  is_data h a [(k "a", HAtom 1)] /\ l = [(k "b", HAtom 2); (k "_setdefault", HAtom 3); (k "c", HAtom 4)] /\
  obj_setdefaults h a (SPairs l) = (h', Raise (XPy ETypeError)) /\
  is_data h' a [(k "a", HAtom 1); (k "b", HAtom 2); (k "_setdefault", HAtom 3)].
Proof. now exists [DData [(k "a", HAtom 1)]], 0, [(k "b", HAtom 2); (k "_setdefault", HAtom 3); (k "c", HAtom 4)]; eexists. Qed.
Print Assumptions C91_method_names_refuted.

(** [_to_dict] leaves data objects inside lists and dictionaries as they are. *)
Theorem C91_to_dict_in_lists_refuted : exists n h a d h' b l c e,
  is_data h a d /\ wf h /\ finite h a /\ to_dict n h a = (h', Ok b) /\
  nth_error h' b = Some (DDict [(k "items", HRef l)]) /\ nth_error h' l = Some (DList [HRef c]) /\ is_data h' c e.
Proof.
  exists 5, [DData [(k "items", HRef 1)]; DList [HRef 2]; DData [(k "x", HAtom 1)]], 0, [(k "items", HRef 1)].
  eexists _, _, 1, 2, [(k "x", HAtom 1)]. split; [reflexivity|]. split.
  - intros a d. destruct a as [|[|[|a]]]; cbn; intros [H|H]; try discriminate; try (injection H as <-; repeat constructor; cbn; tauto).
    all: rewrite ?nth_error_nil in H; destruct a; discriminate.
  - split; [|repeat split].
    constructor. intros c (d & x & e & H1 & H2 & H3). injection H1 as <-. destruct H2 as [[= _ <-]|[]]. discriminate.
Qed.
Print Assumptions C91_to_dict_in_lists_refuted.

(** A tree of data objects: a shared part becomes two dictionaries.  Then a cycle, equality in another order, and a copy. *)
Example C91_case :
  let d := [(k "l", HRef 1); (k "r", HRef 1); (k "n", HAtom 7)] in
  let h := [DData d; DData [(k "x", HAtom 1)]] in
  is_data h 0 d /\ public (u "update") /\ ~ public (u "_update") /\ holds h 0 1 /\
  to_dict 2 h 0 = (h ++ [DDict [(k "l", HRef 3); (k "r", HRef 4); (k "n", HAtom 7)]; DDict [(k "x", HAtom 1)]; DDict [(k "x", HAtom 1)]], Ok 2) /\
  to_dict 1 h 0 = (h ++ [DDict d], Raise XFuel) /\
  snd (to_dict 9 [DData [(k "me", HRef 0)]] 0) = Raise XFuel /\
  obj_getattr h 0 (u "update") = Raise (XPy EAttributeError) /\ obj_getattr h 0 (u "_update") = Ok (AClass (u "_update")) /\
  obj_copy h 0 = (h ++ [DData d], Ok 2) /\
  obj_new h [SRef 1] [(k "x", HAtom 5); (k "y", HAtom 6)] = (h ++ [DData [(k "x", HAtom 5); (k "y", HAtom 6)]], Ok 2) /\
  data_eq [DData [(k "a", HAtom 1); (k "b", HAtom 2)]; DData [(k "b", HAtom 2); (k "a", HAtom 1)]; DDict [(k "a", HAtom 1); (k "b", HAtom 2)]]
    Nat.eqb 2 (HRef 0) (HRef 1) = Ok true /\
  data_eq [DData [(k "a", HAtom 1); (k "b", HAtom 2)]; DData [(k "b", HAtom 2); (k "a", HAtom 1)]; DDict [(k "a", HAtom 1); (k "b", HAtom 2)]]
    Nat.eqb 2 (HRef 0) (HRef 2) = Ok false /\
  ranked_parts h (fun a => match a with 0 => 1 | _ => 0 end).
Proof.
  cbn zeta. repeat split; try reflexivity; try discriminate.
  - intros P. now apply P.
  - exists [(k "l", HRef 1); (k "r", HRef 1); (k "n", HAtom 7)], (k "l"), [(k "x", HAtom 1)]. repeat split; now left.
  - intros a b. destruct a as [|[|a]]; cbn.
    + intros (x & [[= _ <-]|[[= _ <-]|[[= _]|[]]]]); auto.
    + intros (x & [[= _]|[]]).
    + now destruct a.
Qed.
Example C91_slots_case : is_data [DData [(KStr (u "one"), HAtom 1)]] 0 [(KStr (u "one"), HAtom 1)] /\
  ~ In (KStr (u "two")) (dkeys [(KStr (u "one"), HAtom 1)]) /\ name_in (u "two") slot_names = false.
Proof. split; [reflexivity|]. split; [intros [H|[]]; discriminate H|reflexivity]. Qed.
