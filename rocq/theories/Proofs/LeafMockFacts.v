(** Mock values are accepted by their own type. *)
From Verif.Model Require Import Py Core Num Text Types Mock Calendar DateTime LeafMock.
From Verif.Spec Require Import EnumSpec MockSpec TypeSpec DateSpec.
From Verif.Proofs Require Import TextLemmas MockLemmas TypeLemmas DateMore.
From Coq Require Import QArith SpecFloat.
Local Open Scope Z_scope.

Lemma hash_mock_ok R pick len : (forall i, hexdigit (pick i)) -> (0 < len)%nat ->
  lf_native (hash_type R len) (hash_mock pick len) = Ok (hash_mock pick len).
Proof.
  intros H L. unfold hash_mock, hash_type. cbn [lf_native]. unfold hash_native. cbn [string_native rbind].
  assert (E : length (random_string pick (Z.of_nat len)) = len) by (unfold random_string; rewrite map_length, seq_length; lia).
  rewrite E, Nat.eqb_refl. rewrite int_of_digits; [reflexivity| |].
  - unfold random_string. apply Forall_map. apply Forall_forall. intros i _. specialize (H i). unfold base_digit, digit_val.
    set (c := pick i) in *. clearbody c.
    assert (K : exists v, digit_val c = Some v /\ (v < 16)%N).
    { unfold digit_val. destruct H as [H|[H|H]].
      - exists (c - 48)%N. replace ((48 <=? c)%N && (c <=? 57)%N) with true by (symmetry; apply andb_true_intro; split; apply N.leb_le; lia). split; [reflexivity|lia].
      - exists (c - 87)%N. replace ((48 <=? c)%N && (c <=? 57)%N) with false by (symmetry; apply andb_false_intro2; apply N.leb_gt; lia).
        replace ((97 <=? c)%N && (c <=? 122)%N) with true by (symmetry; apply andb_true_intro; split; apply N.leb_le; lia). split; [reflexivity|lia].
      - exists (c - 55)%N. replace ((48 <=? c)%N && (c <=? 57)%N) with false by (symmetry; apply andb_false_intro2; apply N.leb_gt; lia).
        replace ((97 <=? c)%N && (c <=? 122)%N) with false by (symmetry; apply andb_false_intro1; apply N.leb_gt; lia).
        replace ((65 <=? c)%N && (c <=? 90)%N) with true by (symmetry; apply andb_true_intro; split; apply N.leb_le; lia). split; [reflexivity|lia]. }
    destruct K as (v & K & Lv). exists v. fold (digit_val c). rewrite K. now apply N.ltb_lt in Lv as ->.
  - intros K. rewrite K in E. cbn in E. lia.
Qed.
Lemma uuid_mock_ok R n : lf_native (uuid_type R) (uuid_mock n) = Ok (uuid_mock n).
Proof. reflexivity. Qed.
Lemma bool_mock_ok b : lf_native bool_type (bool_mock b) = Ok (bool_mock b).
Proof. reflexivity. Qed.
Lemma mock_date_valid y m d : 0 <= y < 600 -> 0 <= m < 12 -> 0 <= d < 28 -> valid_date (mock_date y m d) = true.
Proof.
  intros Y M D. unfold valid_date, mock_date, MINYEAR, MAXYEAR. cbn [d_year d_month d_day].
  assert (K : 28 <= days_in_month (y + 1900) (m + 1)).
  { unfold days_in_month. repeat (destruct (_ && _) || destruct (_ || _) || destruct (Z.eqb _ _)); try lia.
    all: match goal with |- context [match ?x with _ => _ end] => destruct x end; lia. }
  repeat (apply andb_true_intro; split); apply Z.leb_le; lia.
Qed.
Lemma date_mock_ok R fmts y m d : lf_native (date_type R fmts) (date_mock y m d) = Ok (date_mock y m d).
Proof. reflexivity. Qed.
Lemma dt_mock_ok R o e y m d t naive h mi :
  lf_native (dt_type R o e) (dt_mock o y m d t naive h mi) = Ok (dt_mock o y m d t naive h mi) /\
  validate_tz o (dt_mock o y m d t naive h mi) = None.
Proof.
  unfold dt_mock. destruct o as [p cv dr how]. destruct p, cv, dr, naive; cbn; auto.
Qed.
Lemma delta_mock_ok R p us : lf_native (delta_type R p) (delta_mock us) = Ok (delta_mock us).
Proof. reflexivity. Qed.
Lemma geo_mock_ok lat lon : -90 <= lat < 90 -> -180 <= lon < 180 ->
  lf_native geo_type (geo_mock lat lon) = Ok (geo_mock lat lon) /\ geo_range (geo_mock lat lon) = None.
Proof.
  intros A B. split; [reflexivity|]. unfold geo_range, geo_mock, geo_normalize, geo_check, py_lt. cbn [num_of num_ltb].
  repeat match goal with |- context [(?a <? ?b)] => replace (a <? b) with false by (symmetry; apply Z.ltb_ge; lia) end. reflexivity.
Qed.
Lemma in_range lo hi a b v q : range_endpoints lo hi 0 0 = Some (a, b) -> value_of v q -> (inject_Z a <= q)%Q -> (q <= inject_Z b)%Q ->
  validate_range (option_map VInt lo) (option_map VInt hi) v = None.
Proof.
  intros E V A B. apply endpoints_sound in E as [L E]; [|lia].
  destruct (E a ltac:(lia)) as [_ [W1 _]]. destruct (E b ltac:(lia)) as [_ [_ W2]].
  destruct (range_iff (option_map VInt lo) (option_map VInt hi) v q V) as [K _].
  - intros m Hm. destruct lo as [l|]; [|discriminate]. injection Hm as <-. eexists. constructor.
  - intros m Hm. destruct hi as [h|]; [|discriminate]. injection Hm as <-. eexists. constructor.
  - apply K. split; intros m r Hm Hr.
    + destruct lo as [l|]; [|discriminate]. injection Hm as <-. inversion Hr; subst. specialize (W1 l eq_refl).
      eapply Qle_trans; [|exact A]. rewrite <- Zle_Qle. lia.
    + destruct hi as [h|]; [|discriminate]. injection Hm as <-. inversion Hr; subst. specialize (W2 h eq_refl).
      eapply Qle_trans; [exact B|]. rewrite <- Zle_Qle. lia.
Qed.
Lemma float_mock_ok R uniform lo hi v :
  (forall a b, a <= b -> exists q, value_of (VFloat (uniform a b)) q /\ (inject_Z a <= q)%Q /\ (q <= inject_Z b)%Q) ->
  float_mock uniform lo hi = Some v ->
  lf_native (float_type R) v = Ok v /\ validate_range (option_map VInt lo) (option_map VInt hi) v = None.
Proof.
  intros U. unfold float_mock. destruct (range_endpoints lo hi 0 0) as [[a b]|] eqn:E; [|discriminate]. intros [= <-].
  split; [reflexivity|]. destruct (U a b) as (q & V & A & B); [now apply endpoints_sound in E as [L _]|]. eapply in_range; eassumption.
Qed.
Lemma decimal_mock_ok R uniform lo hi v :
  (forall a b, a <= b -> exists q, value_of (VDecimal (fst (uniform a b)) (snd (uniform a b))) q /\ (inject_Z a <= q)%Q /\ (q <= inject_Z b)%Q) ->
  decimal_mock uniform lo hi = Some v ->
  lf_native (decimal_type R) v = Ok v /\ validate_range (option_map VInt lo) (option_map VInt hi) v = None.
Proof.
  intros U. unfold decimal_mock. destruct (range_endpoints lo hi 0 0) as [[a b]|] eqn:E; [|discriminate].
  destruct (U a b) as (q & V & A & B); [now apply endpoints_sound in E as [L _]|]. destruct (uniform a b) as [c e]. intros [= <-].
  split; [reflexivity|]. eapply in_range; eassumption.
Qed.
Lemma multi_mock_refused ctx dflt draw pick lo hi v : multi_mock draw pick lo hi = Some v ->
  exists e, lf_native (multi_type ctx dflt) v = Raise e /\ field_error e.
Proof.
  unfold multi_mock. destruct (value_in draw lo hi 0 0) as [n|]; [|discriminate]. intros [= <-]. eexists. split; [reflexivity|].
  eexists. left. reflexivity.
Qed.
Lemma date_mock_fine R fmts y m d : 0 <= y < 600 -> 0 <= m < 12 -> 0 <= d < 28 ->
  calendar_date (mock_date y m d) /\ lf_native (date_type R fmts) (date_mock y m d) = Ok (date_mock y m d).
Proof. intros Y M D. split; [|apply date_mock_ok]. apply valid_date_iff. now apply mock_date_valid. Qed.
Lemma simple_mocks_ok R p n b us :
  lf_native (uuid_type R) (uuid_mock n) = Ok (uuid_mock n) /\ lf_native bool_type (bool_mock b) = Ok (bool_mock b) /\
  lf_native (delta_type R p) (delta_mock us) = Ok (delta_mock us).
Proof. repeat split. Qed.
