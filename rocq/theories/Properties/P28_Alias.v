(** C81: which containers are shared between data given, instances and exports.  The oracles: conversion of scalar types, subclass
    relation, classes allowed in and found for polymorphic fields. *)
From Verif.Model Require Import Py Core Alias.
From Verif.Spec Require Import AliasSpec.
From Verif.Proofs Require Import AliasFacts.

(** ** C81 *)
(** A new instance is separate from the data given and from everything else, when no field keeps what it is given. *)
Theorem C81_instances_are_separate_from_their_data :
  forall scal sub allowed claim fields n validate c raw m r m', copying_fields validate fields ->
    ainstance scal sub allowed claim fields n validate c raw m = Some (r, m') -> separate m m' r.
Proof. exact import_separate. Qed.
Print Assumptions C81_instances_are_separate_from_their_data.

(** Two instances, also of the same data or of the same defaults, are separate from each other. *)
Theorem C81_instances_are_separate_from_each_other :
  forall scal sub allowed claim fields n validate validate' c c' raw raw' m r m1 m2 r' m',
    copying_fields validate fields -> copying_fields validate' fields ->
    ainstance scal sub allowed claim fields n validate c raw m = Some (r, m1) -> m1 <= m2 ->
    ainstance scal sub allowed claim fields n validate' c' raw' m2 = Some (r', m') ->
    (forall a new, In a (addrs r) -> change a new r' = r') /\ (forall a new, In a (addrs r') -> change a new r = r).
Proof. exact two_instances. Qed.
Print Assumptions C81_instances_are_separate_from_each_other.

(** They are nevertheless equal: what an instance holds depends on the contents of the data alone. *)
Theorem C81_instances_of_equal_data_are_equal :
  forall scal sub allowed claim fields n validate c raw raw' m m1 r m', by_content scal -> by_content claim -> alike raw raw' ->
    ainstance scal sub allowed claim fields n validate c raw m = Some (r, m') ->
    exists r' m1', ainstance scal sub allowed claim fields n validate c raw' m1 = Some (r', m1') /\ alike r r'.
Proof. exact instances_alike. Qed.
Print Assumptions C81_instances_of_equal_data_are_equal.

(** Exported data is separate from the instance. *)
Theorem C81_exports_are_separate_from_the_instance :
  forall scal allowed fields n c o m r m', copying_fields true fields ->
    aexport scal allowed fields n (AModel c) o m = Some (r, m') -> separate m m' r.
Proof. exact export_separate. Qed.
Print Assumptions C81_exports_are_separate_from_the_instance.

(** validate() keeps the instance and replaces every container it holds: containers taken out of it before, or assigned to it,
    no longer belong to it. *)
Theorem C81_validation_replaces_all_containers :
  forall scal sub allowed claim fields n o m r m', copying_fields true fields -> exists_at m o ->
    avalidate scal sub allowed claim fields n o m = Some (r, m') ->
    exists a c l, o = Obj a (OInst c) l /\ NoDup (addrs r) /\ (forall b, In b (addrs r) -> b = a \/ m <= b) /\
      forall b new, b < m -> b <> a -> change b new r = r.
Proof. exact validation_replaces. Qed.
Print Assumptions C81_validation_replaces_all_containers.

(** BaseType, GeoPointType and MultilingualStringType keep the container they are given, with validation as well, *)
Theorem C81_separate_for_all_types_refuted :
  exists fields c raw a r m', exists_at 5 raw /\ In a (addrs raw) /\
    ainstance scal0 sub0 sub0 claim0 fields 3 true c raw 5 = Some (r, m') /\ exists new, change a new r <> r.
Proof. exact kept_shared. Qed.
Print Assumptions C81_separate_for_all_types_refuted.

(** so their mutable defaults are shared by all instances. *)
Theorem C81_defaults_are_copied_refuted :
  exists fields c a r r' m1 m2, ainstance scal0 sub0 sub0 claim0 fields 3 false c (Obj 1 ODict []) 5 = Some (r, m1) /\
    ainstance scal0 sub0 sub0 claim0 fields 3 false c (Obj 2 ODict []) m1 = Some (r', m2) /\ In a (addrs r) /\
    exists new, change a new r' <> r'.
Proof. exact default_shared. Qed.
Print Assumptions C81_defaults_are_copied_refuted.

(** Polymorphic fields keep instances unless validating. *)
Theorem C81_separate_without_validation_refuted :
  exists fields c raw a r m', copying_fields true fields /\ exists_at 5 raw /\ In a (addrs raw) /\
    ainstance scal0 sub0 sub0 claim0 fields 3 false c raw 5 = Some (r, m') /\ exists new, change a new r <> r.
Proof. exact poly_shared. Qed.
Print Assumptions C81_separate_without_validation_refuted.

(** Assigned containers are shared. *)
Theorem C81_assignment_copies_refuted :
  exists o v a, ~ In a (addrs o) /\ In a (addrs v) /\ (exists new, change a new (aassign (k "tags") v o) <> aassign (k "tags") v o).
Proof. exact assigned_shared. Qed.
Print Assumptions C81_assignment_copies_refuted.

(** A post with tags by default, notes and a parent, and its export. *)
Example C81_case_import :
  copying_fields true posts /\
  exists r m', ainstance scal0 sub0 sub0 claim0 posts 4 true 0
    (Obj 1 ODict [(k "notes", Obj 2 ODict [(k "a", Obj 3 OList [(KInt 0, Imm 7)])]); (k "parent", Obj 4 (OInst 0) [])]) 5 = Some (r, m')
    /\ length (addrs r) = 6.
Proof. split; [exact posts_copying|]. eexists. eexists. split; reflexivity. Qed.
Example C81_case_export :
  exists r m', aexport scal0 sub0 posts 4 (AModel 0)
    (Obj 1 (OInst 0) [(k "tags", Obj 2 OList [(KInt 0, Imm 9)]); (k "parent", Obj 4 (OInst 0) [])]) 5 = Some (r, m')
    /\ addrs r = [7; 5; 6].
Proof. eexists. eexists. split; reflexivity. Qed.
Example C81_case_validation :
  exists r m', exists_at 5 (Obj 1 (OInst 0) [(k "tags", Obj 2 OList [(KInt 0, Imm 9)])]) /\
    avalidate scal0 sub0 sub0 claim0 posts 4 (Obj 1 (OInst 0) [(k "tags", Obj 2 OList [(KInt 0, Imm 9)])]) 5 = Some (r, m')
    /\ addrs r = [1; 5].
Proof. eexists. eexists. split; [intros a [<-|[<-|[]]]; repeat constructor|]. split; reflexivity. Qed.
Example C81_case_contents : by_content scal0 /\ by_content claim0.
Proof. split; [|now intros x o o' H]. intros x [i|a kd l] [i'|a' kd' l'] H; try discriminate H; [now injection H as <-|reflexivity]. Qed.
