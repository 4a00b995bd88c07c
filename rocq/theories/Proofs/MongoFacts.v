(** Facts about ObjectIdType. *)
From Verif.Model Require Import Py Core Types Mongo.
From Verif.Spec Require Import MongoSpec.

Section Facts.
  Context (R : runtime) (B : bson) (L : bson_laws R B).
  Lemma native_cases v : is_object_id B v /\ objectid_native R B v = Ok v \/
    ~ is_object_id B v /\ objectid_native R B v = match bs_parse B (rt_str R v) with Some n => Ok (VObj n) | None => Raise (XConv [u "convert"]) end.
  Proof.
    assert (N : forall v, (forall n, v <> VObj n) -> ~ is_object_id B v) by (intros w H (n & -> & _); now apply (H n)).
    destruct v; try (right; split; [apply N; discriminate|reflexivity]).
    cbn. destruct (bs_is_id B n) eqn:E; [left; split; [now exists n|reflexivity]|right; split; [|reflexivity]].
    intros (m & [= <-] & H). congruence.
  Qed.
  Lemma accepted v w : objectid_native R B v = Ok w <-> is_object_id B v /\ w = v \/
    ~ is_object_id B v /\ exists n, bs_parse B (rt_str R v) = Some n /\ w = VObj n.
  Proof.
    destruct (native_cases v) as [[H ->]|[H ->]].
    - split; [intros [= <-]; now left|intros [[_ ->]|[H' _]]; [reflexivity|contradiction]].
    - split.
      + intros E. right. split; [exact H|]. destruct (bs_parse B (rt_str R v)) as [n|]; [|discriminate]. injection E as <-. now exists n.
      + intros [[H' _]|[_ (n & -> & ->)]]; [contradiction|reflexivity].
  Qed.
  Lemma rejected v e : objectid_native R B v = Raise e -> e = XConv [u "convert"].
  Proof.
    destruct (native_cases v) as [[_ ->]|[_ ->]]; [discriminate|]. destruct (bs_parse B (rt_str R v)); [discriminate|]. now intros [= <-].
  Qed.
  Lemma result_is_id v w : objectid_native R B v = Ok w -> is_object_id B w.
  Proof using L.
    intros H. apply accepted in H as [[H ->]|[_ (n & P & ->)]]; [exact H|]. exists n. split; [reflexivity|]. now apply L in P.
  Qed.
  Lemma stable v w : objectid_native R B v = Ok w -> objectid_native R B w = Ok w.
  Proof using L. intros H. apply accepted. left. split; [now apply (result_is_id v)|reflexivity]. Qed.
  Lemma round v w : objectid_native R B v = Ok w -> rbind (objectid_prim R w) (objectid_native R B) = Ok w.
  Proof using L.
    intros H. apply result_is_id in H as (n & -> & H). destruct L as (_ & L2 & L3). cbn. now rewrite L3, L2.
  Qed.
End Facts.
