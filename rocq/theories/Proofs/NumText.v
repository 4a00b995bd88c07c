(** The text forms of UUIDs and Decimals are read back. *)
From Verif.Model Require Import Py Num Text Types.
From Verif.Spec Require Import TextSpec.
From Verif.Proofs Require Import TextLemmas IntText.
Local Open Scope N_scope.

(** ** Removing and stripping *)
Lemma take_text_app w l r : take_text w l = Some r -> l = (w ++ r)%list.
Proof.
  revert l r. induction w as [|x w IH]; intros l r; cbn; [intros [= ->]; reflexivity|].
  destruct l as [|y l]; [discriminate|]. destruct (x =? y) eqn:A; [|discriminate]. nb. subst. intros H. f_equal. auto.
Qed.
Lemma remove_absent w x l : In x w -> ~ In x l -> remove_text w 0 l = l.
Proof.
  intros Hx. induction l as [|c l IH]; intros Hl; [reflexivity|]. cbn [remove_text].
  destruct (take_text w (c :: l)) as [r|] eqn:T.
  - exfalso. apply take_text_app in T. apply Hl. rewrite T. apply in_or_app. auto.
  - f_equal. apply IH. intros H. apply Hl. now right.
Qed.
Lemma drop_none p l : Forall (fun c => p c = false) l -> drop p l = l.
Proof. destruct 1 as [|c l H]; cbn; [reflexivity|now rewrite H]. Qed.
Lemma strip_none p l : Forall (fun c => p c = false) l -> strip p l = l.
Proof.
  intros H. unfold strip. rewrite (drop_none p l H). rewrite drop_none; [apply rev_involutive|].
  apply Forall_rev. assumption.
Qed.
Lemma filter_all {A} p (l : list A) : Forall (fun c => p c = true) l -> filter p l = l.
Proof. induction 1 as [|c l H _ IH]; cbn; [reflexivity|]. rewrite H. congruence. Qed.

(** ** UUIDs *)
Definition undash (l : list N) := filter (fun c => negb (c =? 45)) l.
Lemma firstn_In {A} n (l : list A) x : In x (firstn n l) -> In x l.
Proof. rewrite <- (firstn_skipn n l) at 2. rewrite in_app_iff. auto. Qed.
Lemma skipn_In {A} n (l : list A) x : In x (skipn n l) -> In x l.
Proof. rewrite <- (firstn_skipn n l) at 2. rewrite in_app_iff. auto. Qed.
Lemma Forall_firstn {A} (P : A -> Prop) n l : Forall P l -> Forall P (firstn n l).
Proof. rewrite !Forall_forall. intros H x Hx. apply H. eapply firstn_In; eauto. Qed.
Lemma Forall_skipn {A} (P : A -> Prop) n l : Forall P l -> Forall P (skipn n l).
Proof. rewrite !Forall_forall. intros H x Hx. apply H. eapply skipn_In; eauto. Qed.

Lemma skipn_skipn {A} a : forall b (l : list A), skipn a (skipn b l) = skipn (a + b) l.
Proof.
  intros b. revert a. induction b as [|b IH]; intros a l; [now rewrite Nat.add_0_r|].
  destruct l as [|x l]; [now rewrite !skipn_nil|]. rewrite Nat.add_succ_r. cbn. apply IH.
Qed.
Definition dashed (h : list N) : list N :=
  (firstn 8 h ++ 45 :: firstn 4 (skipn 8 h) ++ 45 :: firstn 4 (skipn 12 h) ++ 45 :: firstn 4 (skipn 16 h) ++ 45 :: skipn 20 h)%list.
Lemma dashed_In h x : In x (dashed h) -> x = 45 \/ In x h.
Proof.
  unfold dashed. repeat (rewrite in_app_iff || cbn [In]). intros H.
  decompose [or] H; auto; right; eauto using firstn_In, skipn_In.
Qed.
Lemma undash_dashed h : Forall (fun c => c <> 45) h -> undash (dashed h) = h.
Proof.
  intros H. assert (K : forall l, Forall (fun c => c <> 45) l -> undash l = l).
  { intros l Hl. apply filter_all. eapply Forall_impl; [|exact Hl]. cbn. intros c Hc. apply negb_true_iff. now apply N.eqb_neq. }
  unfold dashed, undash. repeat (rewrite filter_app || cbn [filter N.eqb Pos.eqb negb]).
  fold (undash (firstn 8 h)) (undash (firstn 4 (skipn 8 h))) (undash (firstn 4 (skipn 12 h))) (undash (firstn 4 (skipn 16 h))) (undash (skipn 20 h)).
  rewrite !K by auto using Forall_firstn, Forall_skipn.
  rewrite <- (firstn_skipn 8 h) at 6. f_equal. rewrite <- (firstn_skipn 4 (skipn 8 h)) at 2. f_equal.
  rewrite skipn_skipn. change (4 + 8)%nat with 12%nat. rewrite <- (firstn_skipn 4 (skipn 12 h)) at 2. f_equal.
  rewrite skipn_skipn. change (4 + 12)%nat with 16%nat. rewrite <- (firstn_skipn 4 (skipn 16 h)) at 2. f_equal.
  rewrite skipn_skipn. reflexivity.
Qed.

(** Characters of 32 hexadecimal digits. *)
Lemma hex_chars l : all_digits 16 l -> Forall (fun c => (48 <= c <= 57 \/ 97 <= c <= 102 \/ 65 <= c <= 70)) l.
Proof.
  intros H. eapply Forall_impl; [|exact H]. cbn. intros c [v Hv]. apply base_digit_some in Hv as [D L]. revert D.
  unfold digit_val. bool_cases; try discriminate; intros [= <-]; nb; lia.
Qed.
(** Everything that uuid.UUID does to a text of digits and dashes without braces and prefixes. *)
Lemma uuid_core U l : Forall (fun c => c = 45 \/ (48 <= c <= 57 \/ 97 <= c <= 102 \/ 65 <= c <= 70)) l ->
  uuid_text U l = (if Nat.eqb (length (undash l)) 32 then
    match int_text U 16 (undash l) with
    | Some z => if (0 <=? z)%Z && (z <? 2 ^ 128)%Z then Some (Z.to_N z) else None | None => None end else None).
Proof.
  intros H. unfold uuid_text.
  assert (H58 : ~ In 58 l).
  { intros K. rewrite Forall_forall in H. apply H in K. lia. }
  rewrite (remove_absent (u "urn:") 58 l) by (cbn; auto). rewrite (remove_absent (u "uuid:") 58 l) by (cbn; auto 10).
  rewrite strip_none; [reflexivity|]. eapply Forall_impl; [|exact H]. cbn. intros c Hc.
  apply orb_false_iff. split; apply N.eqb_neq; lia.
Qed.
Lemma hex32_value U h : all_digits 16 h -> length h = 32%nat ->
  match int_text U 16 h with
  | Some z => if (0 <=? z)%Z && (z <? 2 ^ 128)%Z then Some (Z.to_N z) else None | None => None end = 
  (if dval 16 h 0 <? 2 ^ 128 then Some (dval 16 h 0) else None).
Proof.
  intros H L. rewrite int_of_digits; [|assumption|intros ->; discriminate].
  rewrite (proj2 (Z.leb_le _ _)) by lia. cbn [andb]. rewrite N2Z.id. change (2 ^ 128)%Z with (Z.of_N (2 ^ 128)).
  destruct (dval 16 h 0 <? 2 ^ 128) eqn:A; nb.
  - rewrite (proj2 (Z.ltb_lt _ _)) by lia. reflexivity.
  - rewrite (proj2 (Z.ltb_ge _ _)) by lia. reflexivity.
Qed.
Lemma uuid_dashed U n : n < 2 ^ 128 -> forall l, undash l = padded 32 16 n ->
  Forall (fun c => c = 45 \/ (48 <= c <= 57 \/ 97 <= c <= 102 \/ 65 <= c <= 70)) l -> uuid_text U l = Some n.
Proof.
  intros Hn l Hl HF. rewrite uuid_core by assumption. rewrite Hl.
  destruct (padded_ok 16 32) with (n := n) as (A & B & C); [lia|exact Hn|]. rewrite C. cbn [Nat.eqb].
  rewrite hex32_value by assumption. rewrite B. apply N.ltb_lt in Hn. now rewrite Hn.
Qed.
Lemma uuid_str_text U n : n < 2 ^ 128 -> uuid_text U (uuid_str n) = Some n.
Proof.
  intros Hn. destruct (padded_ok 16 32) with (n := n) as (A & B & C); [lia|exact Hn|].
  apply uuid_dashed; [assumption| |].
  - change (uuid_str n) with (dashed (padded 32 16 n)). apply undash_dashed.
    eapply Forall_impl; [|apply (hex_chars _ A)]. cbn. intros; lia.
  - change (uuid_str n) with (dashed (padded 32 16 n)). apply Forall_forall. intros x Hx. apply dashed_In in Hx as [->|Hx]; [auto|].
    right. pose proof (hex_chars _ A) as F. rewrite Forall_forall in F. now apply F.
Qed.
Lemma uuid_plain_text U n : n < 2 ^ 128 -> uuid_text U (padded 32 16 n) = Some n.
Proof.
  intros Hn. destruct (padded_ok 16 32) with (n := n) as (A & B & C); [lia|exact Hn|].
  apply uuid_dashed; [assumption| |].
  - apply filter_all. eapply Forall_impl; [|apply (hex_chars _ A)]. cbn. intros c Hc. apply negb_true_iff. apply N.eqb_neq. lia.
  - eapply Forall_impl; [|apply (hex_chars _ A)]. cbn. auto.
Qed.
Lemma urn_prefix l : remove_text (u "urn:") 0 (u "urn:uuid:" ++ l) = (u "uuid:" ++ remove_text (u "urn:") 0 l)%list.
Proof. reflexivity. Qed.
Lemma uuid_prefix l : remove_text (u "uuid:") 0 (u "uuid:" ++ l) = remove_text (u "uuid:") 0 l.
Proof. reflexivity. Qed.
Lemma uuid_urn_text U n : n < 2 ^ 128 -> uuid_text U (u "urn:uuid:" ++ uuid_str n) = Some n.
Proof.
  intros Hn. rewrite <- (uuid_str_text U n Hn) at 1. unfold uuid_text.
  assert (H58 : ~ In 58 (uuid_str n)).
  { change (uuid_str n) with (dashed (padded 32 16 n)). intros K. apply dashed_In in K as [K|K]; [lia|].
    destruct (padded_ok 16 32) with (n := n) as (A & _ & _); [lia|exact Hn|].
    pose proof (hex_chars _ A) as F. rewrite Forall_forall in F. apply F in K. lia. }
  rewrite urn_prefix. rewrite (remove_absent (u "urn:") 58 (uuid_str n)) by (cbn; auto).
  now rewrite uuid_prefix.
Qed.

(** ** Decimals *)
Definition dig (c : N) : Prop := is_digit c = true.
Lemma dig_iff c : dig c <-> 48 <= c <= 57.
Proof. unfold dig, is_digit. rewrite andb_true_iff, !N.leb_le. tauto. Qed.
Lemma all_digits_dig l : all_digits 10 l -> Forall dig l.
Proof.
  intros H. eapply Forall_impl; [|exact H]. cbn. intros c [v Hv]. apply base_digit_some in Hv as [D L]. apply dig_iff.
  revert D. unfold digit_val. bool_cases; try discriminate; intros [= <-]; nb; lia.
Qed.
Lemma digits_val_dval l : Forall dig l -> forall acc, fold_left (fun a c => a * 10 + (c - 48)) l acc = dval 10 l acc.
Proof.
  induction 1 as [|c l Hc _ IH]; intros acc; [reflexivity|]. cbn. rewrite IH. f_equal. f_equal.
  apply dig_iff in Hc. unfold digit_val. bool_cases; nb; try reflexivity; lia.
Qed.
Lemma span_digits l r : Forall dig l -> (match r with c :: _ => is_digit c = false | [] => True end) -> span is_digit (l ++ r) = (l, r).
Proof.
  intros H Hr. induction H as [|c l Hc _ IH]; cbn.
  - destruct r as [|c r]; [reflexivity|]. cbn. now rewrite Hr.
  - rewrite Hc, IH. reflexivity.
Qed.
Lemma zeros_dig w : Forall dig (zeros w).
Proof. unfold zeros. apply Forall_forall. intros x Hx. apply repeat_spec in Hx. now subst. Qed.
Lemma zeros_val n : forall acc, fold_left (fun a c => a * 10 + (c - 48)) (repeat 48 n) acc = acc * 10 ^ N.of_nat n.
Proof.
  induction n as [|n IH]; intros acc; [cbn; rewrite N.pow_0_r; lia|]. cbn [repeat fold_left]. rewrite IH.
  rewrite Nat2N.inj_succ, N.pow_succ_r'. lia.
Qed.
Lemma nat_text_dig n : Forall dig (nat_text 10 n) /\ digits_val (nat_text 10 n) = n /\ nat_text 10 n <> [].
Proof.
  destruct (nat_text_ok 10 n) as (A & B & C); [lia|]. apply all_digits_dig in A. repeat split; auto.
  unfold digits_val. now rewrite digits_val_dval.
Qed.
Lemma take_exp_text ex : take_exp (69 :: (if (0 <? ex)%Z then 43 :: dec_text ex else dec_text ex)) = Some ex \/ ex = 0%Z.
Proof.
  destruct ex as [|p|p]; [now right|left..].
  - cbn -[dec_text]. unfold dec_text. destruct (nat_text_dig (Z.to_N (Zpos p))) as (A & B & C).
    rewrite <- (app_nil_r (nat_text 10 (Z.to_N (Zpos p)))). rewrite span_digits by auto.
    destruct (nat_text 10 (Z.to_N (Zpos p))) eqn:E; [congruence|]. rewrite B. reflexivity.
  - cbn -[dec_text]. unfold dec_text. cbn [take_sign]. change (45 =? 43) with false. change (45 =? 45) with true. cbn iota.
    destruct (nat_text_dig (Npos p)) as (A & B & C).
    rewrite <- (app_nil_r (nat_text 10 (Npos p))). rewrite span_digits by auto.
    destruct (nat_text 10 (Npos p)) eqn:E; [congruence|]. rewrite B. reflexivity.
Qed.
Lemma dig_sign c l : dig c -> take_sign (c :: l) = (false, c :: l).
Proof.
  intros H. apply dig_iff in H. cbn. destruct (c =? 43) eqn:A; nb; [lia|]. destruct (c =? 45) eqn:B; nb; [lia|]. reflexivity.
Qed.
(** Reading integer digits, point, fraction digits, exponent part. *)
Lemma parse_point ip fp tl ex : Forall dig ip -> Forall dig fp -> ip <> [] ->
  (match tl with c :: _ => is_digit c = false | [] => True end) -> take_exp tl = Some ex ->
  dec_parse (ip ++ 46 :: fp ++ tl) = Some (false, digits_val (ip ++ fp), (ex - Z.of_nat (length fp))%Z).
Proof.
  intros Hi Hf Hn Ht He. unfold dec_parse. destruct ip as [|c ip]; [congruence|]. inversion Hi as [|? ? Hc Hi']; subst.
  cbn [app]. rewrite dig_sign by assumption. change (c :: ip ++ 46 :: fp ++ tl)%list with ((c :: ip) ++ 46 :: fp ++ tl)%list.
  rewrite span_digits by (auto; reflexivity). change (46 =? 46) with true. cbn iota. rewrite span_digits by assumption.
  cbn [app]. rewrite He. reflexivity.
Qed.
Lemma parse_plain ip tl ex : Forall dig ip -> ip <> [] ->
  (match tl with c :: _ => is_digit c = false /\ c <> 46 | [] => True end) -> take_exp tl = Some ex ->
  dec_parse (ip ++ tl) = Some (false, digits_val ip, ex).
Proof.
  intros Hi Hn Ht He. unfold dec_parse. destruct ip as [|c ip]; [congruence|]. inversion Hi as [|? ? Hc Hi']; subst.
  cbn [app]. rewrite dig_sign by assumption. change (c :: ip ++ tl)%list with ((c :: ip) ++ tl)%list.
  rewrite span_digits; [|assumption|destruct tl; [exact I|now destruct Ht]].
  destruct tl as [|d tl].
  - cbn [app length]. rewrite app_nil_r. rewrite He. now rewrite Z.sub_0_r.
  - destruct Ht as [_ Ht]. apply N.eqb_neq in Ht. rewrite Ht. rewrite app_nil_r. rewrite He. cbn [length Z.of_nat]. now rewrite Z.sub_0_r.
Qed.
Lemma take_exp_nil : take_exp [] = Some 0%Z.
Proof. reflexivity. Qed.
Lemma digits_zero l : digits_val (48 :: l) = digits_val l.
Proof. reflexivity. Qed.
Lemma digits_val_zeros w ds : digits_val (zeros w ++ ds) = digits_val ds.
Proof. unfold digits_val, zeros. rewrite fold_left_app, zeros_val. now rewrite N.mul_0_l. Qed.

Lemma parse_sci ds e : Forall dig ds -> ds <> [] -> dec_parse (sci_text ds e) = Some (false, digits_val ds, e).
Proof.
  intros Hd Hn. unfold sci_text. assert (L : (1 <= Z.of_nat (length ds))%Z) by (destruct ds; [congruence|cbn [length]; lia]).
  set (n := Z.of_nat (length ds)) in *. set (left := (e + n)%Z).
  assert (HL : length ds = Z.to_nat n) by (unfold n; now rewrite Nat2Z.id).
  assert (Split : forall d, (0 < d < n)%Z -> Z.of_nat (length (skipn (Z.to_nat d) ds)) = (n - d)%Z).
  { intros d Hd'. rewrite skipn_length. lia. }
  destruct ((e <=? 0)%Z && (-6 <? left)%Z) eqn:K.
  - apply andb_prop in K as [K1 K2]. apply Z.leb_le in K1. apply Z.ltb_lt in K2.
    rewrite Z.sub_diag. cbn [Z.eqb]. destruct (left <=? 0)%Z eqn:D; [apply Z.leb_le in D|apply Z.leb_gt in D].
    + change (48 :: 46 :: zeros (- left) ++ ds)%list with ([48] ++ 46 :: zeros (- left) ++ ds)%list.
      rewrite <- (app_nil_r (zeros (- left) ++ ds)).
      rewrite (parse_point [48] (zeros (- left) ++ ds) [] 0%Z); [|repeat constructor|apply Forall_app; split; [apply zeros_dig|assumption]|discriminate|exact I|reflexivity].
      cbn [app]. rewrite digits_zero, digits_val_zeros. do 2 f_equal.
      rewrite app_length. unfold zeros. rewrite repeat_length. unfold left in *. lia.
    + destruct (n <=? left)%Z eqn:M; [apply Z.leb_le in M|apply Z.leb_gt in M].
      * assert (e = 0)%Z by (unfold left in *; lia). subst e. replace (left - n)%Z with 0%Z by (unfold left; lia).
        change (zeros 0) with (@nil N). rewrite app_nil_r. rewrite <- (app_nil_r ds) at 1. apply parse_plain; auto. 
      * rewrite <- (app_nil_r (skipn (Z.to_nat left) ds)).
        rewrite (parse_point _ (skipn (Z.to_nat left) ds) [] 0%Z); auto using Forall_firstn, Forall_skipn.
        -- rewrite firstn_skipn. do 2 f_equal. rewrite Split by lia. unfold left. lia.
        -- intros E. apply (f_equal (@length N)) in E. rewrite firstn_length in E. cbn in E. lia.
  - cbn [Z.leb Z.compare]. assert (E0 : left <> 1%Z).
    { apply andb_false_iff in K as [K|K]; [apply Z.leb_gt in K|apply Z.ltb_ge in K]; unfold left in *; lia. }
    replace (left - 1 =? 0)%Z with false by (symmetry; apply Z.eqb_neq; lia).
    destruct (take_exp_text (left - 1)) as [T|T]; [|lia].
    destruct (n <=? 1)%Z eqn:M; [apply Z.leb_le in M|apply Z.leb_gt in M].
    + replace (1 - n)%Z with 0%Z by lia. change (zeros 0) with (@nil N). rewrite app_nil_r.
      rewrite (parse_plain ds _ (left - 1)); auto; [|split; [reflexivity|lia]]. do 2 f_equal. unfold left. lia.
    + rewrite <- app_assoc. cbn [app].
      rewrite (parse_point (firstn (Z.to_nat 1) ds) (skipn (Z.to_nat 1) ds) _ (left - 1)); auto using Forall_firstn, Forall_skipn.
      * rewrite firstn_skipn. do 2 f_equal. rewrite Split by lia. unfold left. lia.
      * intros E. apply (f_equal (@length N)) in E. rewrite firstn_length in E. cbn in E. lia.
Qed.

(** Characters of a Decimal text. *)
Definition dec_ok (c : N) : Prop := dig c \/ c = 43 \/ c = 45 \/ c = 46 \/ c = 69.
Lemma dec_text_ok z : Forall dec_ok (dec_text z).
Proof.
  assert (K : forall n, Forall dec_ok (nat_text 10 n)).
  { intros n. eapply Forall_impl; [|apply (nat_text_dig n)]. unfold dec_ok. auto. }
  unfold dec_text. destruct z; auto. constructor; [unfold dec_ok; auto|auto].
Qed.
Lemma sci_ok ds e : Forall dig ds -> Forall dec_ok (sci_text ds e).
Proof.
  intros H. assert (K : forall l, Forall dig l -> Forall dec_ok l) by (intros l Hl; eapply Forall_impl; [|exact Hl]; unfold dec_ok; auto).
  unfold sci_text. cbv zeta.
  set (dot := if ((e <=? 0)%Z && (-6 <? e + Z.of_nat (length ds))%Z) then (e + Z.of_nat (length ds))%Z else 1%Z). clearbody dot.
  assert (B : Forall dec_ok (if (dot <=? 0)%Z then 48 :: 46 :: zeros (- dot) ++ ds
     else if (Z.of_nat (length ds) <=? dot)%Z then ds ++ zeros (dot - Z.of_nat (length ds))
     else firstn (Z.to_nat dot) ds ++ 46 :: skipn (Z.to_nat dot) ds)).
  { destruct (dot <=? 0)%Z; [|destruct (_ <=? _)%Z].
    - constructor; [left; reflexivity|]. constructor; [unfold dec_ok; auto|]. apply Forall_app. split; [apply K, zeros_dig|auto].
    - apply Forall_app. split; [auto|apply K, zeros_dig].
    - apply Forall_app. split; [apply K, Forall_firstn, H|]. constructor; [unfold dec_ok; auto|]. apply K, Forall_skipn, H. }
  destruct (_ =? 0)%Z; [assumption|]. apply Forall_app. split; [assumption|].
  constructor; [unfold dec_ok; auto 10|]. destruct (0 <? _)%Z; [constructor; [unfold dec_ok; auto|]|]; apply dec_text_ok.
Qed.
Lemma decimal_str_ok c e : Forall dec_ok (decimal_str c e).
Proof.
  unfold decimal_str. destruct c; [apply sci_ok; apply nat_text_dig..|]. constructor; [unfold dec_ok; auto|]. apply sci_ok. apply nat_text_dig.
Qed.
Lemma dec_ok_chars U c : dec_ok c -> is_space U c = false /\ negb (c =? 95) = true /\ dec_char U c = c.
Proof.
  intros H. assert (R : 43 <= c <= 57 \/ c = 69).
  { destruct H as [H|[H|[H|[H|H]]]]; [apply dig_iff in H|..]; lia. }
  repeat split.
  - unfold is_space, is_ws. bool_cases; nb; try reflexivity; lia.
  - apply negb_true_iff, N.eqb_neq. lia.
  - unfold dec_char. rewrite (proj2 (N.ltb_lt 0 c)), (proj2 (N.leb_le c 127)) by lia. reflexivity.
Qed.
Lemma decimal_reads U l : Forall dec_ok l -> map (dec_char U) (filter (fun c => negb (c =? 95)) (strip (is_space U) l)) = l.
Proof.
  intros H. rewrite strip_none by (eapply Forall_impl; [|exact H]; apply dec_ok_chars).
  rewrite filter_all by (eapply Forall_impl; [|exact H]; intros c Hc; now destruct (dec_ok_chars U c Hc)).
  induction H as [|c l Hc _ IH]; [reflexivity|]. cbn. rewrite IH. f_equal. now apply dec_ok_chars.
Qed.
Lemma parse_neg l c e : dec_parse l = Some (false, c, e) -> (match l with d :: _ => dig d | [] => True end) ->
  dec_parse (45 :: l) = Some (true, c, e).
Proof.
  intros H Hd. unfold dec_parse in *. destruct l as [|d l]; [discriminate|]. rewrite dig_sign in H by assumption. cbn [take_sign].
  change (45 =? 43) with false. change (45 =? 45) with true. cbn iota.
  destruct (span is_digit (d :: l)) as [ip r]. destruct (match r with [] => ([], r) | c0 :: r0 => if c0 =? 46 then span is_digit r0 else ([], r) end) as [fp r'].
  destruct (ip ++ fp)%list; [discriminate|]. destruct (take_exp r'); [|discriminate]. injection H as <- <-. reflexivity.
Qed.
Lemma sci_head ds e : Forall dig ds -> ds <> [] -> match sci_text ds e with d :: _ => dig d | [] => True end.
Proof.
  intros H Hn. unfold sci_text. cbv zeta. set (dot := if ((e <=? 0)%Z && (-6 <? e + Z.of_nat (length ds))%Z) then (e + Z.of_nat (length ds))%Z else 1%Z). clearbody dot.
  assert (B : forall tl, match ((if (dot <=? 0)%Z then 48 :: 46 :: zeros (- dot) ++ ds
     else if (Z.of_nat (length ds) <=? dot)%Z then ds ++ zeros (dot - Z.of_nat (length ds))
     else firstn (Z.to_nat dot) ds ++ 46 :: skipn (Z.to_nat dot) ds) ++ tl)%list with d :: _ => dig d | [] => True end).
  { intros tl. destruct ds as [|d ds]; [congruence|]. inversion H; subst. destruct (dot <=? 0)%Z eqn:D; [reflexivity|]. apply Z.leb_gt in D.
    destruct (_ <=? dot)%Z; [assumption|]. destruct (Z.to_nat dot) eqn:Q; [lia|]. assumption. }
  destruct (_ =? 0)%Z; [|apply B]. specialize (B []). now rewrite app_nil_r in B.
Qed.
Lemma decimal_str_text U c e : decimal_text U (decimal_str c e) = Some (DFin c e).
Proof.
  unfold decimal_text. rewrite decimal_reads by apply decimal_str_ok. unfold decimal_str.
  destruct c as [|p|p].
  - destruct (nat_text_dig (Z.to_N 0)) as (A & B & C). rewrite parse_sci by assumption. now rewrite B.
  - destruct (nat_text_dig (Z.to_N (Zpos p))) as (A & B & C). rewrite parse_sci by assumption. now rewrite B.
  - destruct (nat_text_dig (Npos p)) as (A & B & C).
    rewrite (parse_neg _ (digits_val (nat_text 10 (Npos p))) e); [now rewrite B|now apply parse_sci|now apply sci_head].
Qed.
Lemma decimal_of_int U z : decimal_text U (dec_text z) = Some (DFin z 0).
Proof.
  unfold decimal_text. rewrite decimal_reads by apply dec_text_ok. unfold dec_text. destruct z as [|p|p].
  - destruct (nat_text_dig (Z.to_N 0)) as (A & B & C). rewrite <- (app_nil_r (nat_text 10 _)).
    rewrite (parse_plain _ [] 0%Z) by auto. now rewrite B.
  - destruct (nat_text_dig (Z.to_N (Zpos p))) as (A & B & C). rewrite <- (app_nil_r (nat_text 10 _)).
    rewrite (parse_plain _ [] 0%Z) by auto. now rewrite B.
  - destruct (nat_text_dig (Npos p)) as (A & B & C).
    rewrite (parse_neg _ (digits_val (nat_text 10 (Npos p))) 0%Z); [now rewrite B| |].
    + rewrite <- (app_nil_r (nat_text 10 _)) at 1. now rewrite (parse_plain _ [] 0%Z).
    + destruct (nat_text 10 (Npos p)); [exact I|]. now inversion A.
Qed.
