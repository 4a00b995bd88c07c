(** Witnesses for the leaf types. *)
From Verif.Model Require Import Py Core Num Text Types Enum Mock.
From Verif.Spec Require Import TextSpec TypeSpec EnumSpec.
From Verif.Proofs Require Import TextLemmas IntText TypeLemmas EnumLemmas DictLemmas EqLemmas.
From Verif.Conformance Require Import TypeSample.
Open Scope string_scope.
Open Scope list_scope.

Lemma hash_odd : forall R, exists s, hash_native R 32 (VStr s) = Ok (VStr s) /\ ~ Forall hex_digit s.
Proof.
  intros R. exists odd_hash. split; [reflexivity|]. intros H. apply Forall_inv_tail, Forall_inv in H.
  change (hex_digit 120) in H. unfold hex_digit in H. lia.
Qed.
Lemma color_good : good_class color.
Proof.
  repeat split.
  - cbn. repeat constructor; cbn; intros K; repeat destruct K as [K|K]; try discriminate K; exact K.
  - intros x m H. cbn in H. unfold is_member. cbn. repeat destruct H as [H|H]; try injection H as <- <-; cbn; auto.
  - intros m m' H H'. unfold is_member in *. vm_compute in H, H'.
    repeat destruct H as [H|H]; repeat destruct H' as [H'|H']; try contradiction; destruct m, m';
      cbn [fst snd]; congruence.
Qed.
Lemma swap_good : good_class swap.
Proof.
  repeat split.
  - cbn. repeat constructor; cbn; intros K; repeat destruct K as [K|K]; try discriminate K; exact K.
  - intros x m H. cbn in H. unfold is_member. cbn. repeat destruct H as [H|H]; try injection H as <- <-; cbn; auto.
  - intros m m' H H'. unfold is_member in *. vm_compute in H, H'.
    repeat destruct H as [H|H]; repeat destruct H' as [H'|H']; try contradiction; destruct m, m';
      cbn [fst snd]; congruence.
Qed.
Lemma enum_value_lost : exists c m, good_class c /\ is_member c m /\ forall R,
  exists w, rbind (enum_prim R true (enum_member c m)) (enum_native c true) = Ok w /\ w <> enum_member c m.
Proof.
  exists swap, (u "A", k "B"). split; [exact swap_good|]. split; [cbn; auto|]. intros R.
  exists (VEnum 8 (u "B") (k "A")). split; [reflexivity|discriminate].
Qed.
Lemma int_overflow : forall R strict s, int_native R strict (VFloat (S754_infinity s)) = Raise (XPy EOverflowError).
Proof. reflexivity. Qed.
Lemma float_overflow : exists z, forall R, float_native R (VInt z) = Raise (XPy EOverflowError).
Proof. exists (2 ^ 1024)%Z. intros R. vm_compute. reflexivity. Qed.
Lemma uuid_attribute : forall R z, uuid_native R (VInt z) = Raise (XPy EAttributeError).
Proof. reflexivity. Qed.
Lemma errors_escape R : exists l v e, basic_leaf R l /\ lf_native l v = Raise e /\ ~ field_error e.
Proof.
  exists (uuid_type R), (VInt 5), (XPy EAttributeError). split; [apply bl_uuid|]. split; [reflexivity|].
  intros (ms & [H|[H|H]]); discriminate H.
Qed.
Lemma geo_nan : exists v, geo_native v = Ok v /\ geo_range v = None /\
  ~ (exists x y p q, point v x y /\ value_of x p /\ value_of y q).
Proof.
  exists (VList [VFloat S754_nan; VInt 0]). split; [reflexivity|]. split; [reflexivity|].
  intros (x & y & p & q & H & V & _). inversion H; subst. inversion V.
Qed.
Lemma mock_refused : exists lo hi n, range_endpoints lo hi 0 0 = None /\ within lo hi n.
Proof.
  exists (Some (-10)%Z), (Some (-5)%Z), (-7)%Z. split; [reflexivity|].
  split; intros m [= <-]; lia.
Qed.
Lemma locale_colon : locale_ok (u "en:_US") = true /\ locale_ok (u "en_US") = true /\ locale_ok (u "en-US") = false.
Proof. repeat split. Qed.
