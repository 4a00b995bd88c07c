(** Decoding and encoding of UTF-8 are inverse. *)
From Verif.Model Require Import Py Num Text.
From Verif.Proofs Require Import TextLemmas.
Local Open Scope N_scope.

Lemma split64 x y : y < 64 -> (x * 64 + y) / 64 = x /\ (x * 64 + y) mod 64 = y.
Proof.
  intros H. split; symmetry.
  - apply N.div_unique with y; [assumption|]. lia.
  - apply N.mod_unique with x; [assumption|]. lia.
Qed.
Lemma join64 c : c / 64 * 64 + c mod 64 = c.
Proof. rewrite N.mul_comm. symmetry. apply N.div_mod'. Qed.
Lemma div4096 c : c / 4096 = c / 64 / 64.
Proof. change 4096 with (64 * 64). now rewrite N.div_div. Qed.
Lemma div262144 c : c / 262144 = c / 64 / 64 / 64.
Proof. change 262144 with (64 * 64 * 64). now rewrite !N.div_div. Qed.
Lemma mod64_lt c : c mod 64 < 64.
Proof. now apply N.mod_lt. Qed.

Lemma cont_ok b : cont b = true <-> 128 <= b < 192.
Proof. unfold cont. rewrite andb_true_iff, N.leb_le, N.ltb_lt. tauto. Qed.

Ltac ltb_true H := rewrite (proj2 (N.ltb_lt _ _)) by H.
Ltac decide_tests := repeat (match goal with
  | |- context [?a <? ?b] => first [rewrite (proj2 (N.ltb_lt a b)) by lia | rewrite (proj2 (N.ltb_ge a b)) by lia]
  | |- context [?a <=? ?b] => first [rewrite (proj2 (N.leb_le a b)) by lia | rewrite (proj2 (N.leb_gt a b)) by lia]
  | |- context [?a =? ?b] => first [rewrite (proj2 (N.eqb_eq a b)) by lia | rewrite (proj2 (N.eqb_neq a b)) by lia]
  end; cbn [andb orb negb]).

Lemma char_decode c a r : utf8_char c = Some a -> utf8_decode (a ++ r) = option_map (cons c) (utf8_decode r).
Proof.
  unfold utf8_char. destruct (c <? 128) eqn:A; nb; [intros [= <-]; cbn; apply N.ltb_lt in A; now rewrite A|].
  pose proof (join64 c) as J1. pose proof (mod64_lt c) as M1. rewrite ?div4096, ?div262144 in *.
  pose proof (join64 (c / 64)) as J2. pose proof (mod64_lt (c / 64)) as M2.
  pose proof (join64 (c / 64 / 64)) as J3. pose proof (mod64_lt (c / 64 / 64)) as M3.
  revert J1 J2 J3 M1 M2 M3. generalize (c / 64 / 64 / 64) as q3, (c / 64 / 64 mod 64) as r3, (c / 64 mod 64) as r2, (c mod 64) as r1.
  generalize (c / 64 / 64) as q2. generalize (c / 64) as q1. intros q1 q2 q3 r3 r2 r1 J1 J2 J3 M1 M2 M3.
  destruct (c <? 2048) eqn:B; nb.
  { intros [= <-]. cbn [app utf8_decode]. decide_tests. unfold cont. decide_tests. do 2 f_equal. lia. }
  destruct (c <? 65536) eqn:C; nb.
  { destruct ((55296 <=? c) && (c <? 57344)) eqn:S; [discriminate|]. intros [= <-]. cbn [app utf8_decode].
    assert (Hs : c < 55296 \/ 57344 <= c) by (apply andb_false_iff in S as [S|S]; nb; lia). clear S. decide_tests. unfold cont. decide_tests.
    destruct (224 + q2 =? 224) eqn:E1; destruct (224 + q2 =? 237) eqn:E2; nb; cbn [andb negb]; decide_tests; try (do 2 f_equal; lia); try lia.
  }
  destruct (c <? 1114112) eqn:D; nb; [|discriminate].
  intros [= <-]. cbn [app utf8_decode]. decide_tests. unfold cont. decide_tests.
  destruct (240 + q3 =? 240) eqn:E1; destruct (240 + q3 =? 244) eqn:E2; nb; cbn [andb negb]; decide_tests; try (do 2 f_equal; lia); try lia.
Qed.
Lemma encode_decode s : forall l, utf8_encode s = Some l -> utf8_decode l = Some s.
Proof.
  induction s as [|c s IH]; intros l; cbn; [intros [= <-]; reflexivity|].
  destruct (utf8_char c) as [a|] eqn:A; [|discriminate]. destruct (utf8_encode s) as [b|]; [|discriminate]. intros [= <-].
  rewrite (char_decode _ _ _ A), (IH _ eq_refl). reflexivity.
Qed.

Lemma enc_cons c a r s : utf8_char c = Some a -> utf8_encode s = Some r -> utf8_encode (c :: s) = Some (a ++ r)%list.
Proof. intros A B. cbn. now rewrite A, B. Qed.
Lemma decode_encode l : forall s, utf8_decode l = Some s -> utf8_encode s = Some l.
Proof.
  induction l as [l IH] using (well_founded_induction (Wf_nat.well_founded_ltof _ (@length N))). unfold Wf_nat.ltof in IH.
  intros s. destruct l as [|a r]; [intros [= <-]; reflexivity|]. cbn [utf8_decode].
  destruct (a <? 128) eqn:A.
  { destruct (utf8_decode r) as [t|] eqn:R; [|discriminate]. intros [= <-]. apply IH in R; [|cbn; lia].
    apply (enc_cons a [a] r); [|assumption]. unfold utf8_char. now rewrite A. }
  destruct (a <? 194) eqn:A1; [discriminate|]. destruct (a <? 224) eqn:A2.
  { destruct r as [|b r]; [discriminate|]. destruct (cont b) eqn:B; [|discriminate]. apply cont_ok in B. nb.
    destruct (utf8_decode r) as [t|] eqn:R; [|discriminate]. intros [= <-]. apply IH in R; [|cbn; lia].
    apply (enc_cons _ [a; b] r); [|assumption]. destruct (split64 (a - 192) (b - 128)) as [Q1 Q2]; [lia|].
    unfold utf8_char. rewrite Q1, Q2. decide_tests. do 2 f_equal; [lia|f_equal; lia]. }
  destruct (a <? 240) eqn:A3.
  { destruct r as [|b [|c r]]; [discriminate..|]. destruct (cont b) eqn:B; [|discriminate]. destruct (cont c) eqn:C; [|discriminate]. cbn [andb].
    apply cont_ok in B, C.
    destruct (negb ((a =? 224) && (b <? 160))) eqn:O; [|discriminate]. destruct (negb ((a =? 237) && (160 <=? b))) eqn:S; [|discriminate]. cbn [andb].
    destruct (utf8_decode r) as [t|] eqn:R; [|discriminate]. intros [= <-]. apply IH in R; [|cbn; lia].
    apply (enc_cons _ [a; b; c] r); [|assumption].
    assert (O' : a = 224 -> 160 <= b) by (apply negb_true_iff in O; apply andb_false_iff in O as [O|O]; nb; lia).
    assert (S' : a = 237 -> b < 160) by (apply negb_true_iff in S; apply andb_false_iff in S as [S|S]; nb; lia). clear O S. nb.
    replace ((a - 224) * 4096 + (b - 128) * 64 + (c - 128)) with (((a - 224) * 64 + (b - 128)) * 64 + (c - 128)) by lia.
    destruct (split64 ((a - 224) * 64 + (b - 128)) (c - 128)) as [Q1 Q2]; [lia|]. destruct (split64 (a - 224) (b - 128)) as [Q3 Q4]; [lia|].
    unfold utf8_char. rewrite div4096, Q1, Q2, Q3, Q4. decide_tests.
    assert (N : (55296 <=? ((a - 224) * 64 + (b - 128)) * 64 + (c - 128)) && (((a - 224) * 64 + (b - 128)) * 64 + (c - 128) <? 57344) = false).
    { destruct (N.lt_ge_cases a 237); [|destruct (N.lt_ge_cases 237 a)]; decide_tests; reflexivity. }
    rewrite N. do 2 f_equal; [lia|f_equal; [lia|f_equal; lia]]. }
  destruct (a <? 245) eqn:A4; [|discriminate].
  { destruct r as [|b [|c [|d r]]]; [discriminate..|]. destruct (cont b) eqn:B; [|discriminate]. destruct (cont c) eqn:C; [|discriminate]. destruct (cont d) eqn:D; [|discriminate]. cbn [andb].
    apply cont_ok in B, C, D.
    destruct (negb ((a =? 240) && (b <? 144))) eqn:O; [|discriminate]. destruct (negb ((a =? 244) && (144 <=? b))) eqn:S; [|discriminate]. cbn [andb].
    destruct (utf8_decode r) as [t|] eqn:R; [|discriminate]. intros [= <-]. apply IH in R; [|cbn; lia].
    apply (enc_cons _ [a; b; c; d] r); [|assumption].
    assert (O' : a = 240 -> 144 <= b) by (apply negb_true_iff in O; apply andb_false_iff in O as [O|O]; nb; lia).
    assert (S' : a = 244 -> b < 144) by (apply negb_true_iff in S; apply andb_false_iff in S as [S|S]; nb; lia). clear O S. nb.
    replace ((a - 240) * 262144 + (b - 128) * 4096 + (c - 128) * 64 + (d - 128)) with ((((a - 240) * 64 + (b - 128)) * 64 + (c - 128)) * 64 + (d - 128)) by lia.
    destruct (split64 (((a - 240) * 64 + (b - 128)) * 64 + (c - 128)) (d - 128)) as [Q1 Q2]; [lia|].
    destruct (split64 ((a - 240) * 64 + (b - 128)) (c - 128)) as [Q3 Q4]; [lia|]. destruct (split64 (a - 240) (b - 128)) as [Q5 Q6]; [lia|].
    unfold utf8_char. rewrite div262144, div4096, Q1, Q2, Q3, Q4, Q5, Q6. decide_tests.
    do 2 f_equal; [lia|f_equal; [lia|f_equal; [lia|f_equal; lia]]]. }
Qed.
Lemma utf8_inverse l s : utf8_decode l = Some s <-> utf8_encode s = Some l.
Proof. split; [apply decode_encode|apply encode_decode]. Qed.
