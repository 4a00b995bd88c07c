(** C86: equality of instances that refer to each other, directly or through lists and dictionaries.  [heq h aeq th n x y M] is
    [x == y] in thread [th] with recursion depth [n], where [M] are the comparisons in progress; objects without parts are
    compared by any [aeq]. *)
From Verif.Model Require Import Py Core Cyclic Threads.
From Verif.Spec Require Import CyclicSpec ThreadSpec.
From Verif.Proofs Require Import CyclicFacts ThreadFacts.
From Coq Require Import Lia.

(** ** C86 *)
(** Comparison ends, however the instances refer to each other. *)
Theorem C86_comparison_ends :
  forall h aeq, (forall i j, aeq i j <> Raise XFuel) -> forall rank bound, ranked h rank -> (forall a, rank a <= bound) ->
  exists m, forall n th x y M, m <= n -> fst (heq h aeq th n x y M) <> Raise XFuel.
Proof. exact comparison_ends. Qed.
Print Assumptions C86_comparison_ends.

(** It says that objects are equal iff nothing tells them apart. *)
Theorem C86_meaning_of_equality :
  forall h aeq, (forall i j, aeq i j <> Raise XFuel) -> forall rank bound, ranked h rank -> (forall a, rank a <= bound) ->
  exists m, forall n th x y M, m <= n -> (forall e, In e M -> snd e <> th) ->
    (fst (heq h aeq th n x y M) = Ok true <-> equal_graphs h aeq x y).
Proof. exact meaning. Qed.
Print Assumptions C86_meaning_of_equality.

(** Whatever it says is right, for all object graphs. *)
Theorem C86_answers_are_right :
  forall h aeq th n x y M, (forall e, In e M -> snd e <> th) ->
    (fst (heq h aeq th n x y M) = Ok true -> equal_graphs h aeq x y) /\
    (fst (heq h aeq th n x y M) = Ok false -> ~ equal_graphs h aeq x y).
Proof. exact (fun h aeq th n x y M N => conj (true_equal h aeq th n x y M N) (false_differ h aeq th n x y M)). Qed.
Print Assumptions C86_answers_are_right.

(** It leaves no trace, also when a comparison raises. *)
Theorem C86_no_trace : forall h aeq th n x y M, snd (heq h aeq th n x y M) = M.
Proof. exact heq_restores. Qed.
Print Assumptions C86_no_trace.

(** What other threads are comparing does not matter. *)
Theorem C86_threads_do_not_interfere :
  forall h aeq th n x y M M', (forall a b, In (a, b, th) M <-> In (a, b, th) M') ->
    fst (heq h aeq th n x y M) = fst (heq h aeq th n x y M').
Proof. exact heq_blind. Qed.
Print Assumptions C86_threads_do_not_interfere.

(** Lists that contain themselves cannot be compared. *)
Theorem C86_list_cycles_refuted :
  exists h aeq x y, forall th n M, fst (heq h aeq th n x y M) = Raise XFuel.
Proof. exact (ex_intro _ _ (ex_intro _ _ (ex_intro _ (HRef 0) (ex_intro _ (HRef 1) list_cycles)))). Qed.
Print Assumptions C86_list_cycles_refuted.

(** One person who is their own friend; two who are friends of each other, through a list; one with another name. *)
Definition people : heap :=
  [HInst 7 [(k "name", HAtom 1); (k "friends", HRef 1)]; HSeq false [HRef 0];
   HInst 7 [(k "name", HAtom 1); (k "friends", HRef 3)]; HSeq false [HRef 4];
   HInst 7 [(k "name", HAtom 1); (k "friends", HRef 5)]; HSeq false [HRef 2];
   HInst 7 [(k "name", HAtom 2); (k "friends", HRef 7)]; HSeq false [HRef 6]].
Definition by_id (i j : nat) : res bool := Ok (Nat.eqb i j).
Example C86_case :
  ranked people (fun _ => 0) /\ (forall i j, by_id i j <> Raise XFuel) /\
  heq people by_id 1 9 (HRef 0) (HRef 2) [] = (Ok true, []) /\ heq people by_id 1 9 (HRef 2) (HRef 4) [(2, 4, 5)] = (Ok true, [(2, 4, 5)]) /\
  heq people by_id 1 9 (HRef 2) (HRef 6) [] = (Ok false, []) /\
  heq people (fun i j => if Nat.eqb j 2 then Raise (XPy EValueError) else Ok true) 1 9 (HRef 2) (HRef 6) [] = (Raise (XPy EValueError), []).
Proof.
  split; [|repeat split; discriminate].
  intros a b. unfold at_addr. do 8 (destruct a as [|a]; [cbn; intros H; repeat (destruct H as [[= <-]|H]; [exact I|]); contradiction|]).
  cbn. destruct a; intros [].
Qed.

(** ** C86 with threads that take turns between any two accesses to the set of comparisons in progress *)
(** Whichever thread runs when, each gets the answer it would get on its own, which is the right one; *)
Theorem C86_interleaved_answers : forall h aeq n jobs sch i r, NoDup (map job_thread jobs) ->
  nth_error (fst (interleave sch (map (start h aeq n) jobs) [])) i = Some (Done r) ->
  exists th x y, nth_error jobs i = Some (th, x, y) /\ r = fst (heq h aeq th n x y []) /\
    (r = Ok true -> equal_graphs h aeq x y) /\ (r = Ok false -> ~ equal_graphs h aeq x y).
Proof. exact threads_right. Qed.
Print Assumptions C86_interleaved_answers.

(** each finishes after a number of turns that does not depend on the others; *)
Theorem C86_interleaved_end : forall h aeq n M j, exists b, forall jobs i sch, nth_error jobs i = Some j -> b <= count_occ Nat.eq_dec sch i ->
  exists r, nth_error (fst (interleave sch (map (start h aeq n) jobs) M)) i = Some (Done r).
Proof. exact threads_finish. Qed.
Print Assumptions C86_interleaved_end.

(** and when all have finished no trace is left. *)
Theorem C86_interleaved_no_trace : forall h aeq n M jobs sch, NoDup (map job_thread jobs) ->
  (forall p, In p (fst (interleave sch (map (start h aeq n) jobs) M)) -> exists r, p = Done r) ->
  forall e, In e (snd (interleave sch (map (start h aeq n) jobs) M)) <-> In e M.
Proof. exact threads_no_trace. Qed.
Print Assumptions C86_interleaved_no_trace.

(** Two threads compare the same instances in turn, a third one others. *)
Example C86_interleaved_case :
  let jobs := [(1, HRef 2, HRef 4); (2, HRef 2, HRef 4); (3, HRef 2, HRef 6)] in
  NoDup (map job_thread jobs) /\
  interleave (concat (repeat [0; 1; 2] 12)) (map (start people by_id 9) jobs) [] = ([Done (Ok true); Done (Ok true); Done (Ok false)], []) /\
  exists M, snd (interleave [0; 1; 2; 0; 1; 2] (map (start people by_id 9) jobs) []) = M /\ length M = 3.
Proof.
  cbn zeta. split; [repeat (constructor; [cbn; intuition discriminate|]); constructor|]. split; [vm_compute; reflexivity|].
  eexists. split; [reflexivity|]. vm_compute. reflexivity.
Qed.
