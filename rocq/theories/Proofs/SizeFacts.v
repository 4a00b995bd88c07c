(** Sizes of values that are not lists. *)
From Verif.Model Require Import Py Core Export Api Text Compound.
From Verif.Spec Require Import ImportSpec ValidateSpec CompoundSpec SizeSpec.
From Verif.Proofs Require Import DictLemmas ApiMore PolyLemmas TextLemmas IntText NumText.

Lemma check_length_instance mn mx c m l : NoDup l -> (forall y, In y l <-> chain_get m y <> None) ->
  (passes (check_length mn mx) (VModel c m) <-> within mn mx (Z.of_nat (length l))).
Proof.
  intros N H. apply check_length_ok.
  assert (L : model_len m = length l).
  { unfold model_len. apply Nat.le_antisymm; apply NoDup_incl_length.
    - apply distinct_NoDup.
    - intros y Hy. apply H, chain_keys, distinct_In. exact Hy.
    - exact N.
    - intros y Hy. apply distinct_In, chain_keys, H. exact Hy. }
  rewrite <- L. unfold model_len. cbn [py_len]. change distinct_keys with distinct. cbn [truthy].
  destruct (md_unsafe m); [|reflexivity]. destruct (md_converted m); [|reflexivity]. destruct (md_valid m); reflexivity.
Qed.
Lemma check_length_none mn mx v : truthy v = true -> (forall l, v <> VList l) -> (forall l, v <> VTuple l) -> (forall d, v <> VDict d) ->
  (forall s, v <> VStr s) -> (forall s, v <> VBytes s) -> (forall c m, v <> VModel c m) ->
  check_length mn mx v = Some (XPy ETypeError).
Proof. intros T A B C D F G. unfold check_length. rewrite T. destruct v; try reflexivity; exfalso; first [now eapply A|now eapply B|now eapply C|now eapply D|now eapply F|now eapply G]. Qed.
Lemma dec_text_writes z : writes (dec_text z) z.
Proof.
  split; [intros U; apply int_text_iff, int_dec_text|].
  assert (D : forall n, Forall (fun c => c = 45%N \/ (48 <= c <= 57)%N) (nat_text 10 n)).
  { intros n. destruct (nat_text_dig n) as (A & _). revert A. apply Forall_impl. intros c Hc. right. now apply dig_iff. }
  destruct z; cbn [dec_text]; auto.
Qed.
Lemma check_length_complains mn mx l : ~ within mn mx (Z.of_nat (length l)) ->
  exists t, size_message mn mx (Z.of_nat (length l)) t /\ complains (check_length mn mx) (VList l) false [t].
Proof.
  intros H. unfold complains. set (n := Z.of_nat (length l)) in *.
  assert (Q : check_length mn mx (VList l) = match mn with Some a => if (n <? a)%Z then Some (XValid false [m_too_few a]) else too_many mx n | None => too_many mx n end).
  { unfold check_length. replace (if truthy (VList l) then py_len (VList l) else Ok 0%Z) with (@Ok Z n) by (destruct l; reflexivity). reflexivity. }
  rewrite Q. clear Q.
  assert (M : (forall a, mn = Some a -> (a <= n)%Z) -> exists t, size_message mn mx n t /\ too_many mx n = Some (XValid false [t])).
  { intros A. unfold too_many. destruct mx as [b|].
    - rewrite Z.gtb_ltb. destruct (Z.ltb_spec b n) as [B|B]; [|exfalso; apply H; split; [exact A|now intros ? [= <-]]].
      eexists. split; [|reflexivity]. unfold m_too_many. destruct (Z.eqb_spec b 1) as [->|N]; [now apply sm_many_one|]. apply (sm_many mn (Some b) n b); auto. apply dec_text_writes.
    - exfalso. apply H. split; [exact A|discriminate]. }
  destruct mn as [a|]; [|apply M; discriminate]. destruct (Z.ltb_spec n a) as [A|A]; [|apply M; now intros ? [= <-]].
  eexists. split; [|reflexivity]. unfold m_too_few. destruct (Z.eqb_spec a 1) as [->|N]; [now apply sm_few_one|]. apply (sm_few (Some a) mx n a); auto. apply dec_text_writes.
Qed.
