(** Facts about the scanners of Model/Text.v. *)
From Verif.Model Require Import Py Num Text.
From Verif.Spec Require Import TextSpec.
Local Open Scope N_scope.
#[global] Arguments N.add : simpl never.
#[global] Arguments N.sub : simpl never.
#[global] Arguments N.mul : simpl never.
#[global] Arguments N.div : simpl never.
#[global] Arguments N.modulo : simpl never.
#[global] Arguments N.pow : simpl never.

Ltac nb := repeat match goal with
  | H : (_ <? _) = true |- _ => apply N.ltb_lt in H
  | H : (_ <? _) = false |- _ => apply N.ltb_ge in H
  | H : (_ <=? _) = true |- _ => apply N.leb_le in H
  | H : (_ <=? _) = false |- _ => apply N.leb_gt in H
  | H : (_ =? _) = true |- _ => apply N.eqb_eq in H
  | H : (_ =? _) = false |- _ => apply N.eqb_neq in H
  | H : andb _ _ = true |- _ => apply andb_prop in H; destruct H
  | H : andb _ _ = false |- _ => apply andb_false_iff in H; destruct H
  | H : orb _ _ = true |- _ => apply orb_prop in H; destruct H
  | H : orb _ _ = false |- _ => apply orb_false_iff in H; destruct H
  | H : negb _ = true |- _ => apply negb_true_iff in H
  | H : negb _ = false |- _ => apply negb_false_iff in H
  end.
Ltac bool_cases := repeat match goal with
  | |- context [?a <? ?b] => destruct (a <? b) eqn:?
  | |- context [?a <=? ?b] => destruct (a <=? b) eqn:?
  | |- context [?a =? ?b] => destruct (a =? b) eqn:?
  end; cbn [andb orb negb] in *.

(** ** Characters *)
Lemma digit_val_lt c v : digit_val c = Some v -> v < 36.
Proof. unfold digit_val. bool_cases; intros [= <-] || discriminate; nb; lia. Qed.
Lemma digit_val_95 : digit_val 95 = None.
Proof. reflexivity. Qed.
Lemma digit_val_lt123 c v : digit_val c = Some v -> c < 123 /\ is_ws c = false /\ c <> 43 /\ c <> 45.
Proof. unfold digit_val, is_ws. bool_cases; intros [= <-] || discriminate; nb; repeat split; try lia; reflexivity. Qed.
Lemma digit_char_val v : v < 36 -> digit_val (digit_char v) = Some v.
Proof. intros H. unfold digit_char, digit_val. bool_cases; nb; f_equal; lia. Qed.
Lemma base_digit_char base v : base <= 36 -> v < base -> base_digit base (digit_char v) = Some v.
Proof.
  intros Hb Hv. unfold base_digit. rewrite digit_char_val by lia. apply N.ltb_lt in Hv. now rewrite Hv.
Qed.
Lemma base_digit_some base c v : base_digit base c = Some v -> digit_val c = Some v /\ v < base.
Proof. unfold base_digit. destruct (digit_val c); [|discriminate]. bool_cases; [|discriminate]. intros [= <-]. nb. auto. Qed.
Lemma to_ascii_low U c : c < 127 -> to_ascii U c = c.
Proof. intros H. unfold to_ascii. apply N.ltb_lt in H. now rewrite H. Qed.
Lemma map_ascii U l : Forall (fun c => c < 127) l -> map (to_ascii U) l = l.
Proof. induction 1; cbn; [reflexivity|]. rewrite to_ascii_low by assumption. congruence. Qed.

(** What a character becomes. *)
Lemma ascii_blank U c : is_ws (to_ascii U c) = true <-> blank U c.
Proof.
  unfold to_ascii, is_space, udigit, blank. destruct (c <? 127) eqn:A.
  - nb. unfold is_ws. split.
    + intros H. nb; try lia.
    + intros [H|[H|[H _]]]; [|subst; reflexivity|lia]. apply orb_true_intro. left. apply andb_true_intro. split; apply N.leb_le; lia.
  - nb. destruct (c <? 128) eqn:B.
    + nb. assert (c = 127) by lia. subst c. cbn. split; [discriminate|]. intros [H|[H|[H _]]]; lia.
    + nb. destruct (un_space U c) eqn:S.
      * cbn. split; [auto|reflexivity].
      * destruct (un_digit U c) as [d|].
        -- assert (d mod 10 < 10) by (apply N.mod_lt; lia). unfold is_ws. split.
           ++ intros H'. exfalso. generalize dependent (d mod 10); intros; nb; lia.
           ++ intros [H'|[H'|[_ H']]]; [lia|lia|discriminate].
        -- cbn. split; [discriminate|]. intros [H'|[H'|[_ H']]]; [lia|lia|discriminate].
Qed.
Lemma ascii_digit U c v : digit_val (to_ascii U c) = Some v <-> denotes U c v.
Proof.
  unfold to_ascii, is_space, udigit. destruct (c <? 127) eqn:A.
  - nb. split.
    + unfold digit_val. bool_cases; try discriminate; intros [= <-]; nb.
      all: first [apply dn_ascii; lia | apply dn_lower; lia | apply dn_upper; lia | lia].
    + intros H. unfold digit_val. inversion H; subst; bool_cases; nb; try (f_equal; lia); lia.
  - nb. destruct (c <? 128) eqn:B.
    + nb. assert (c = 127) by lia. subst c. cbn. split; [discriminate|]. intros H. inversion H; lia.
    + nb. destruct (un_space U c) eqn:S.
      * cbn. split; [discriminate|]. intros H. inversion H; subst; try lia. congruence.
      * destruct (un_digit U c) as [d|] eqn:D.
        -- assert (d mod 10 < 10) by (apply N.mod_lt; lia). split.
           ++ pose proof (dn_other U c (d mod 10) d A S D eq_refl) as K || pose proof (dn_other U c (d mod 10) d B S D eq_refl) as K.
              generalize dependent (d mod 10). intros m Hm K.
              unfold digit_val. bool_cases; try discriminate; intros [= <-]; nb; try lia. now replace (48 + m - 48) with m by lia.
           ++ intros H'. inversion H' as [| | |? ? ? X Y Z W]; subst; try lia. rewrite D in Z. injection Z as <-.
              generalize dependent (d mod 10). intros m Hm K.
              unfold digit_val. bool_cases; nb; try (f_equal; lia); lia.
        -- cbn. split; [discriminate|]. intros H. inversion H; subst; try lia. congruence.
Qed.
Lemma ascii_same U c x : 32 < x < 127 -> x <> 63 -> ~ 48 <= x <= 57 -> (to_ascii U c = x <-> c = x).
Proof.
  intros Hx H63 Hd. split.
  - unfold to_ascii. destruct (c <? 127) eqn:A; [auto|]. nb.
    destruct (is_space U c) eqn:S; [intros; lia|]. destruct (udigit U c) as [d|] eqn:D; [|intros; lia].
    intros Q. exfalso. assert (Hd' : d < 10).
    { revert D. unfold udigit. destruct (c <? 128) eqn:B; nb.
      - bool_cases; [intros [= <-]; nb; lia|discriminate..].
      - destruct (un_digit U c); [|discriminate]. intros [= <-]. apply N.mod_lt. lia. }
    lia.
  - intros ->. apply to_ascii_low. lia.
Qed.

(** ** Digits of a number *)
Definition dval (base : N) (l : list N) (acc : N) : N :=
  fold_left (fun a c => a * base + match digit_val c with Some v => v | None => 0 end) l acc.
Definition all_digits (base : N) (l : list N) : Prop := Forall (fun c => exists v, base_digit base c = Some v) l.

Lemma dval_app base a b acc : dval base (a ++ b) acc = dval base b (dval base a acc).
Proof. apply fold_left_app. Qed.
Lemma scan_digits base l : forall acc rest, all_digits base l ->
  scan base (l ++ rest) acc false = scan base rest (dval base l acc) false.
Proof.
  induction l as [|c l IH]; intros acc rest H; [reflexivity|]. inversion H as [|? ? [v Hv] Hl]; subst. cbn.
  pose proof (base_digit_some _ _ _ Hv) as [Dv _].
  destruct (c =? 95) eqn:A; [nb; subst; discriminate|]. rewrite Hv, Dv. now apply IH.
Qed.
Lemma scan_all_digits base l : all_digits base l -> l <> [] -> scan_all base l = Some (dval base l 0).
Proof.
  intros H Hn. unfold scan_all. destruct l as [|c l]; [congruence|]. inversion H as [|? ? [v Hv] Hl]; subst. rewrite Hv.
  rewrite <- (app_nil_r (c :: l)), scan_digits by assumption. cbn. now rewrite app_nil_r.
Qed.
Lemma no_prefix base l : all_digits base l -> take_prefix base l = l.
Proof.
  intros H. unfold take_prefix. destruct l as [|c [|x r]]; try reflexivity.
  destruct ((base =? 16) && (c =? 48) && ((x =? 120) || (x =? 88))) eqn:A; [|reflexivity].
  inversion H as [|? ? _ H']; subst. inversion H' as [|? ? [v Hv] _]; subst. apply base_digit_some in Hv as [D L]. nb; subst; cbv in D; injection D as <-; lia.
Qed.
Lemma digits_low base l : all_digits base l -> Forall (fun c => c < 127) l.
Proof.
  intros H. eapply Forall_impl; [|exact H]. cbn. intros c [v Hv]. apply base_digit_some in Hv as [D _].
  apply digit_val_lt123 in D. lia.
Qed.
Lemma int_of_digits U base l : all_digits base l -> l <> [] -> int_text U base l = Some (Z.of_N (dval base l 0)).
Proof.
  intros H Hn. unfold int_text. rewrite (map_ascii U l) by (eapply digits_low; eauto).
  destruct l as [|c l]; [congruence|]. inversion H as [|? ? [v Hv] Hl]; subst.
  destruct (digit_val_lt123 c v) as (_ & Hw & H43 & H45); [now apply base_digit_some in Hv|].
  cbn [drop]. rewrite Hw. unfold take_sign. destruct (c =? 43) eqn:A; [nb; congruence|]. destruct (c =? 45) eqn:B; [nb; congruence|].
  rewrite no_prefix by assumption. rewrite scan_all_digits by (assumption || congruence). reflexivity.
Qed.
Lemma int_of_neg_digits U base l : all_digits base l -> l <> [] -> int_text U base (45 :: l) = Some (- Z.of_N (dval base l 0))%Z.
Proof.
  intros H Hn. unfold int_text. rewrite map_ascii by (constructor; [lia|eapply digits_low; eauto]).
  change (drop is_ws (45 :: l)) with (45 :: l). unfold take_sign. change (45 =? 43) with false. change (45 =? 45) with true. cbn [fst snd].
  rewrite no_prefix by assumption. rewrite scan_all_digits by (assumption || congruence). reflexivity.
Qed.

Lemma digits_of_ok base fuel : 1 < base <= 36 -> forall n, n < base ^ N.of_nat fuel -> fuel <> O ->
  all_digits base (digits_of fuel base n) /\ dval base (digits_of fuel base n) 0 = n /\ digits_of fuel base n <> [].
Proof.
  intros Hb. induction fuel as [|m IH]; intros n Hn Hf; [congruence|]. cbn [digits_of].
  destruct (n <? base) eqn:A; nb.
  - split; [|split; [|discriminate]].
    + constructor; [|constructor]. exists n. apply base_digit_char; lia.
    + cbn. rewrite digit_char_val by lia. lia.
  - assert (Hm : n / base < base ^ N.of_nat m).
    { apply N.div_lt_upper_bound; [lia|]. rewrite <- N.pow_succ_r'. now rewrite <- Nat2N.inj_succ. }
    assert (m <> O). { intros ->. change (N.of_nat 1) with 1 in Hn. rewrite N.pow_1_r in Hn. lia. }
    destruct (IH _ Hm H) as (A1 & A2 & A3).
    assert (Hr : n mod base < base) by (apply N.mod_lt; lia).
    split; [|split].
    + apply Forall_app. split; [assumption|]. constructor; [|constructor]. exists (n mod base). apply base_digit_char; lia.
    + rewrite dval_app, A2. cbn. rewrite digit_char_val by lia. rewrite (N.mul_comm _ base). symmetry. now apply N.div_mod'.
    + intros E. apply app_eq_nil in E. now destruct E.
Qed.
Lemma size_pow n : n < 2 ^ N.of_nat (N.size_nat n).
Proof.
  destruct n as [|p]; [reflexivity|]. cbn [N.size_nat]. induction p; cbn [Pos.size_nat]; rewrite ?Nat2N.inj_succ, ?N.pow_succ_r'; [| |reflexivity].
  - change (N.pos p~1) with (2 * N.pos p + 1). lia.
  - change (N.pos p~0) with (2 * N.pos p). lia.
Qed.
Lemma nat_text_ok base n : 1 < base <= 36 ->
  all_digits base (nat_text base n) /\ dval base (nat_text base n) 0 = n /\ nat_text base n <> [].
Proof.
  intros Hb. apply digits_of_ok; [assumption| |discriminate]. eapply N.lt_le_trans; [apply size_pow|].
  eapply N.le_trans; [apply N.pow_le_mono_l with (b := base); lia|]. apply N.pow_le_mono_r; lia.
Qed.
Lemma int_dec_text U z : int_text U 10 (dec_text z) = Some z.
Proof.
  unfold dec_text. destruct z as [|p|p].
  - destruct (nat_text_ok 10 (Z.to_N 0)) as (A & B & C); [lia|]. rewrite int_of_digits by assumption. now rewrite B.
  - destruct (nat_text_ok 10 (Z.to_N (Zpos p))) as (A & B & C); [lia|]. rewrite int_of_digits by assumption. rewrite B. reflexivity.
  - destruct (nat_text_ok 10 (Npos p)) as (A & B & C); [lia|]. rewrite int_of_neg_digits by assumption. rewrite B. reflexivity.
Qed.
Lemma padded_ok base w : 1 < base <= 36 -> forall n, n < base ^ N.of_nat w ->
  all_digits base (padded w base n) /\ dval base (padded w base n) 0 = n /\ length (padded w base n) = w.
Proof.
  intros Hb. induction w as [|w IH]; intros n Hn.
  - cbn in Hn. split; [constructor|]. split; [cbn; lia|reflexivity].
  - cbn [padded]. assert (Hm : n / base < base ^ N.of_nat w).
    { apply N.div_lt_upper_bound; [lia|]. rewrite <- N.pow_succ_r'. now rewrite <- Nat2N.inj_succ. }
    destruct (IH _ Hm) as (A1 & A2 & A3).
    assert (Hr : n mod base < base) by (apply N.mod_lt; lia).
    split; [|split].
    + apply Forall_app. split; [assumption|]. constructor; [|constructor]. exists (n mod base). apply base_digit_char; lia.
    + rewrite dval_app, A2. cbn. rewrite digit_char_val by lia. rewrite (N.mul_comm _ base). symmetry. now apply N.div_mod'.
    + rewrite app_length, A3. cbn. lia.
Qed.
