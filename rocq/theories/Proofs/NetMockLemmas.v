(** Mock addresses are valid. *)
From Verif.Model Require Import Py Core Text Types Mock Regex Net NetMock.
From Verif.Spec Require Import NetSpec EnumSpec.
From Verif.Proofs Require Import MockLemmas RegexLemmas NetLemmas MacEmail.
Local Open Scope N_scope.

Lemma digits_short base fuel : 2 <= base -> forall k n, n < base ^ N.of_nat (S k) -> (length (digits_of fuel base n) <= S k)%nat.
Proof.
  intros Hb. induction fuel as [|fuel IH]; intros k n H; cbn; [lia|]. destruct (N.ltb_spec n base); [cbn; lia|].
  rewrite app_length. cbn [length]. destruct k as [|k].
  - change (N.of_nat 1) with 1 in H. rewrite N.pow_1_r in H. lia.
  - enough (length (digits_of fuel base (n / base)) <= S k)%nat by lia. apply IH. apply N.div_lt_upper_bound; [lia|].
    rewrite Nat2N.inj_succ, N.pow_succ_r' in H. exact H.
Qed.
Lemma digits_some base fuel n : (1 <= length (digits_of (S fuel) base n))%nat.
Proof. cbn. destruct (n <? base); [cbn; lia|]. rewrite app_length. cbn. lia. Qed.
Lemma digit_char_dec v : v < 10 -> dec_digit (digit_char v).
Proof. unfold digit_char, dec_digit. intros H. destruct (N.ltb_spec v 10); lia. Qed.
Lemma digit_char_hex v : v < 16 -> hex_digit (digit_char v).
Proof. unfold digit_char, hex_digit. intros H. destruct (N.ltb_spec v 10); lia. Qed.
Lemma digits_all (P : N -> Prop) base fuel : 0 < base -> (forall v, v < base -> P (digit_char v)) -> forall n, Forall P (digits_of fuel base n).
Proof.
  intros Hb H. induction fuel as [|fuel IH]; intros n; cbn; [constructor|]. destruct (N.ltb_spec n base); [constructor; auto|].
  apply Forall_app. split; [apply IH|]. constructor; [|constructor]. apply H. apply N.mod_lt. lia.
Qed.
Lemma dec_value_app a c : dec_value (a ++ [c]) = dec_value a * 10 + (c - 48).
Proof. unfold dec_value. rewrite fold_left_app. reflexivity. Qed.
Lemma digits_value fuel : forall n, n < 2 ^ N.of_nat fuel -> dec_value (digits_of (S fuel) 10 n) = n.
Proof.
  induction fuel as [|fuel IH]; intros n H.
  - change (2 ^ N.of_nat 0) with 1 in H. assert (n = 0) as -> by lia. reflexivity.
  - remember (S fuel) as f. cbn [digits_of]. destruct (N.ltb_spec n 10).
    + unfold dec_value, digit_char. cbn [fold_left]. destruct (N.ltb_spec n 10); lia.
    + subst f. rewrite dec_value_app, IH.
      * assert (L : n mod 10 < 10) by (apply N.mod_lt; lia). unfold digit_char. destruct (N.ltb_spec (n mod 10) 10); [|lia].
        pose proof (N.div_mod n 10 ltac:(discriminate)) as Q. revert Q. generalize (n mod 10) (n / 10). intros a b Q. lia.
      * rewrite Nat2N.inj_succ, N.pow_succ_r' in H. apply N.div_lt_upper_bound; [lia|]. lia.
Qed.
Lemma nat_value n : dec_value (nat_text 10 n) = n.
Proof.
  unfold nat_text. apply digits_value. destruct n as [|p]; [reflexivity|]. cbn [N.size_nat].
  pose proof (Pos.size_nat_monotone p p) as _. induction p as [p IH|p IH|]; cbn [Pos.size_nat]; [..|reflexivity].
  all: rewrite Nat2N.inj_succ, N.pow_succ_r'; lia.
Qed.
Lemma octet_text n : n < 256 -> octet (nat_text 10 n).
Proof.
  intros H. split; [split; [apply digits_some|apply (digits_short 10); [lia|]; change (10 ^ N.of_nat 3) with 1000; lia]|].
  split; [apply digits_all; [lia|exact digit_char_dec]|]. rewrite nat_value. lia.
Qed.
Lemma group_text n : n < 65536 -> group16 (nat_text 16 n).
Proof.
  intros H. split; [split; [apply digits_some|apply (digits_short 16); [lia|]; exact H]|].
  apply digits_all; [lia|exact digit_char_hex].
Qed.
Theorem ipv4_mock_valid d : (forall i, d i < 256) -> ipv4_text (ipv4_mock d).
Proof.
  intros H. exists (nat_text 10 (d 0%nat)), (nat_text 10 (d 1%nat)), (nat_text 10 (d 2%nat)), (nat_text 10 (d 3%nat)).
  repeat (split; [apply octet_text, H|]). reflexivity.
Qed.
Lemma hex2 n : n < 256 -> hexn 2 (padded 2 16 n).
Proof.
  intros H. cbn [padded]. split; [reflexivity|]. cbn [app].
  apply Forall_cons; [apply digit_char_hex, N.mod_lt; lia|]. apply Forall_cons; [apply digit_char_hex, N.mod_lt; lia|constructor].
Qed.
Theorem ipv6_mock_valid d : (forall i, d i < 65536) -> ipv6_text (ipv6_mock d).
Proof.
  intros H. left. apply un_groups. unfold ipv6_mock.
  change (u "2001:db8:"%string) with ([50; 48; 48; 49] ++ 58 :: [100; 98; 56] ++ [58])%list.
  assert (G : forall l, Forall hex_digit l -> (1 <= length l <= 4)%nat -> group16 l) by (intros l; split; auto).
  rewrite <- app_assoc. cbn [app map seq join]. cbn [app].
  change (groups 8 ([50; 48; 48; 49] ++ 58 :: [100; 98; 56] ++ 58 :: nat_text 16 (d 0%nat) ++ 58 :: nat_text 16 (d 1%nat) ++ 58 :: nat_text 16 (d 2%nat) ++ 58 :: nat_text 16 (d 3%nat) ++ 58 :: nat_text 16 (d 4%nat) ++ 58 :: nat_text 16 (d 5%nat))).
  apply gr_more; [apply G; [repeat (apply Forall_cons; [unfold hex_digit; lia|]); constructor|cbn; lia]|].
  apply gr_more; [apply G; [repeat (apply Forall_cons; [unfold hex_digit; lia|]); constructor|cbn; lia]|].
  repeat (apply gr_more; [apply group_text, H|]). apply gr_one, group_text, H.
Qed.
Theorem ip_mock_valid (four : bool) d : (forall i, d i < if four then 256 else 65536) -> valid_ip IPany (ip_mock four d) = true.
Proof.
  intros H. apply ip_valid. destruct four.
  - left. exists (ipv4_mock d), []. rewrite app_nil_r. split; [now apply ipv4_mock_valid|reflexivity].
  - right. exists (ipv6_mock d). split; [now apply ipv6_mock_valid|now left].
Qed.
Theorem mac_mock_valid d : (forall i, d i < 256) -> exists ds, mac_text (mac_mock d) ds.
Proof.
  intros H. eexists. apply (mt_pairs 58 (padded 2 16 (d 0%nat)) (padded 2 16 (d 1%nat)) (padded 2 16 (d 2%nat)) (padded 2 16 (d 3%nat)) (padded 2 16 (d 4%nat)) (padded 2 16 (d 5%nat))); [auto|].
  repeat (apply Forall_cons; [apply hex2, H|]). constructor.
Qed.
Theorem email_mock_valid U draw pick lo hi s :
  fair draw -> (forall i, atom_char (pick i)) ->
  email_mock draw pick lo hi = Some s -> email_text U s /\ validate_length lo hi (VStr s) = None.
Proof.
  intros Hd Hp H. split; [|eapply template_valid; [exact Hd|exact H]]. revert H.
  unfold email_mock, fill_template. destruct (value_in _ _ _ _ _) as [n|] eqn:E; [|discriminate].
  intros [= <-].
  assert (Hn : (1 <= n)%Z) by (eapply value_in_sound; [exact Hd| |exact E]; lia).
  cbn [app]. exists (random_string pick n), (u "example.com"%string). split; [left|split; [|reflexivity]].
  - unfold random_string. apply da_one.
    + destruct (Z.to_nat n) eqn:E'; [lia|discriminate].
    + induction (seq 0 (Z.to_nat n)); cbn; constructor; auto.
  - change (u "example.com"%string) with (u "example"%string ++ 46 :: u "com"%string)%list. apply dm_last.
    + split; [cbn; lia|]. split; [|split; discriminate]. repeat (apply Forall_cons; [left; unfold letter; cbn; lia|]). constructor.
    + cbn. lia.
    + repeat (apply Forall_cons; [unfold letter; cbn; lia|]). constructor.
Qed.
