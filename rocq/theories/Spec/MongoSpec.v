(** What is known of the package bson. *)
From Verif.Model Require Import Py Core Types Mongo.

(** An ObjectId object. *)
Definition is_object_id (B : bson) (v : pyval) : Prop := exists n, v = VObj n /\ bs_is_id B n = true.
(** bson makes ObjectIds, str() of one denotes it, and str() of a text is that text. *)
Definition bson_laws (R : runtime) (B : bson) : Prop :=
  (forall s n, bs_parse B s = Some n -> bs_is_id B n = true) /\
  (forall n, bs_is_id B n = true -> bs_parse B (rt_str R (VObj n)) = Some n) /\
  (forall s, rt_str R (VStr s) = s).
