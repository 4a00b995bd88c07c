(** C80: ObjectIdType, for every package bson that obeys [bson_laws]. *)
From Verif.Model Require Import Py Core Types Mongo.
From Verif.Spec Require Import MongoSpec.
From Verif.Proofs Require Import MongoFacts.
From Verif.Conformance Require Import TypeSample.

(** ** C80 *)
(** Accepted are ObjectIds, which stay themselves, and whatever has a text that denotes one. *)
Theorem C80_accepts_exactly :
  forall R B v w, lf_native (objectid_type R B) v = Ok w <->
    is_object_id B v /\ w = v \/ ~ is_object_id B v /\ exists n, bs_parse B (rt_str R v) = Some n /\ w = VObj n.
Proof. exact accepted. Qed.
Print Assumptions C80_accepts_exactly.

Theorem C80_rejects_with_a_conversion_error :
  forall R B v e, lf_native (objectid_type R B) v = Raise e -> e = XConv [u "convert"].
Proof. exact rejected. Qed.
Print Assumptions C80_rejects_with_a_conversion_error.

Theorem C80_results_are_object_ids :
  forall R B, bson_laws R B -> forall v w, lf_native (objectid_type R B) v = Ok w -> is_object_id B w /\ lf_native (objectid_type R B) w = Ok w.
Proof. exact (fun R B L v w H => conj (result_is_id R B L v w H) (stable R B L v w H)). Qed.
Print Assumptions C80_results_are_object_ids.

(** The exported text is read back as the same ObjectId. *)
Theorem C80_text_round_trip :
  forall R B, bson_laws R B -> forall v w, lf_native (objectid_type R B) v = Ok w ->
    exists s, lf_prim (objectid_type R B) w = Ok (VStr s) /\ lf_native (objectid_type R B) (VStr s) = Ok w.
Proof. exact (fun R B L v w H => ex_intro _ (rt_str R w) (conj eq_refl (round R B L v w H))). Qed.
Print Assumptions C80_text_round_trip.

(** Ids are written with one letter a, followed by their number in unary. *)
Definition toy_runtime : runtime :=
  Runtime (rt_uni rt0) (fun v => match v with VStr s => s | VObj n => u "a" ++ repeat 49%N (N.to_nat n) | _ => u "None" end) true.
Definition toy_bson : bson :=
  Bson (fun _ => true) (fun s => match s with
                                 | 97%N :: r => if forallb (N.eqb 49) r then Some (N.of_nat (length r)) else None
                                 | _ => None end).
Example C80_case :
  bson_laws toy_runtime toy_bson /\
  lf_native (objectid_type toy_runtime toy_bson) (VStr (u "a111")) = Ok (VObj 3) /\
  lf_prim (objectid_type toy_runtime toy_bson) (VObj 3) = Ok (VStr (u "a111")) /\
  lf_native (objectid_type toy_runtime toy_bson) (VStr (u "b1")) = Raise (XConv [u "convert"]).
Proof.
  split; [|repeat split]. split; [reflexivity|]. split; [|reflexivity]. intros n _. cbn.
  rewrite repeat_length, N2Nat.id. replace (forallb (N.eqb 49) (repeat 49%N (N.to_nat n))) with true; [reflexivity|].
  induction (N.to_nat n); cbn; auto.
Qed.
