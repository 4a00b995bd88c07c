(** Facts about mock data. *)
From Verif.Model Require Import Py Core Num Types Compound Mock.
From Verif.Spec Require Import EnumSpec.
From Verif.Proofs Require Import TypeLemmas.
Local Open Scope Z_scope.

Local Arguments Z.max : simpl never.
Local Arguments Z.sub : simpl never.
Local Arguments Z.mul : simpl never.
Ltac zcases := repeat match goal with
  | |- context [Z.eqb ?a ?b] => let E := fresh in destruct (Z.eqb a b) eqn:E; [apply Z.eqb_eq in E|apply Z.eqb_neq in E]
  | |- context [Z.ltb ?a ?b] => let E := fresh in destruct (Z.ltb a b) eqn:E; [apply Z.ltb_lt in E|apply Z.ltb_ge in E]
  end.
Lemma endpoints_sound lo hi p q a b : 0 <= p -> range_endpoints lo hi p q = Some (a, b) ->
  a <= b /\ forall n, a <= n <= b -> q <= n /\ within lo hi (n + p).
Proof.
  intros Hp. unfold range_endpoints, within. destruct lo as [l|], hi as [h|]; zcases; try discriminate; intros [= <- <-];
    (split; [lia|]); intros n Hn; (split; [lia|split; [intros l' [= <-] || discriminate|intros h' [= <-] || discriminate]]; lia).
Qed.
Lemma endpoints_complete lo h p q : 0 <= p -> 0 <= q ->
  ((exists a b, range_endpoints lo (Some h) p q = Some (a, b)) <-> exists n, q <= n /\ within lo (Some h) (n + p)).
Proof.
  intros Hp Hq. split.
  - intros (a & b & H). apply endpoints_sound in H as [L H]; [|assumption]. exists a. apply H. lia.
  - intros (n & Hn & W1 & W2). specialize (W2 h eq_refl). unfold range_endpoints.
    destruct lo as [l|]; [specialize (W1 l eq_refl)|clear W1]; zcases; eauto; lia.
Qed.
Lemma endpoints_open lo p q : 0 <= p -> 0 <= q -> p + q <= 16 -> exists a b, range_endpoints lo None p q = Some (a, b).
Proof. intros Hp Hq H. unfold range_endpoints. destruct lo as [l|]; zcases; eauto; lia. Qed.

Lemma value_in_sound draw lo hi p q n : fair draw -> 0 <= p -> value_in draw lo hi p q = Some n -> q <= n /\ within lo hi (n + p).
Proof.
  intros F Hp. unfold value_in. destruct (range_endpoints lo hi p q) as [[a b]|] eqn:E; [|discriminate]. intros [= <-].
  apply endpoints_sound in E as [L E]; [|assumption]. apply E. now apply F.
Qed.
Lemma random_length pick n : 0 <= n -> Z.of_nat (length (random_string pick n)) = n.
Proof. intros H. unfold random_string. rewrite map_length, seq_length. lia. Qed.
Lemma string_mock_valid draw pick lo hi s : fair draw -> string_mock draw pick lo hi = Some s -> validate_length lo hi (VStr s) = None.
Proof.
  intros F. unfold string_mock. destruct (value_in draw lo hi 0 0) as [n|] eqn:E; [|discriminate]. intros [= <-].
  apply value_in_sound in E as [H [W1 W2]]; [|assumption|lia]. apply length_iff. rewrite random_length by assumption.
  split; intros m Hm; [specialize (W2 m Hm)|specialize (W1 m Hm)]; lia.
Qed.
Lemma template_valid draw pick x y lo hi s : fair draw -> fill_template draw pick x y lo hi = Some s ->
  validate_length lo hi (VStr s) = None /\ exists r, s = (x ++ r ++ y)%list /\ r <> [].
Proof.
  intros F. unfold fill_template. destruct (value_in draw lo hi _ 1) as [n|] eqn:E; [|discriminate]. intros [= <-].
  apply value_in_sound in E as [H [W1 W2]]; [|assumption|lia]. pose proof (random_length pick n ltac:(lia)) as L. split.
  - apply length_iff. rewrite !app_length. split; intros m Hm; [specialize (W2 m Hm)|specialize (W1 m Hm)]; lia.
  - eexists. split; [reflexivity|]. intros K. rewrite K in L. cbn in L. lia.
Qed.
Lemma int_mock_valid uniform lo hi z :
  (forall a b, a <= b -> let '(n, d) := uniform a b in a * Zpos d <= n <= b * Zpos d) ->
  int_mock uniform lo hi = Some z -> validate_range (option_map VInt lo) (option_map VInt hi) (VInt z) = None.
Proof.
  intros F. unfold int_mock. destruct (range_endpoints lo hi 0 0) as [[a b]|] eqn:E; [|discriminate].
  apply endpoints_sound in E as [L E]; [|lia]. specialize (F a b L). destruct (uniform a b) as [n d]. intros [= <-].
  destruct (E a) as [A0 _]; [lia|]. assert (Q : a <= Z.quot n (Zpos d) <= b).
  { rewrite Z.quot_div_nonneg by nia. split; [apply Z.div_le_lower_bound; lia|apply Z.div_le_upper_bound; lia]. }
  destruct (E _ Q) as [_ [W1 W2]]. unfold validate_range, py_lt. cbn [num_of].
  destruct lo as [l|], hi as [h|]; cbn [option_map num_of num_ltb]; try specialize (W1 _ eq_refl); try specialize (W2 _ eq_refl);
    zcases; try reflexivity; lia.
Qed.
Lemma list_mock_valid draw elem lo hi l : fair draw -> list_mock draw elem lo hi = Some l -> within lo hi (Z.of_nat (length l)).
Proof.
  intros F. unfold list_mock. destruct (value_in draw lo hi 0 0) as [n|] eqn:E; [|discriminate]. intros [= <-].
  apply value_in_sound in E as [H W]; [|assumption|lia]. rewrite map_length, seq_length. now replace (Z.of_nat (Z.to_nat n)) with (n + 0) by lia.
Qed.
