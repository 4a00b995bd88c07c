(** MAC addresses and email addresses. *)
From Verif.Model Require Import Py Core Text Types Regex Net.
From Verif.Spec Require Import NetSpec.
From Verif.Proofs Require Import RegexLemmas NetLemmas.
Local Open Scope N_scope.

Lemma flat_map_flat_map {A B C} (f : A -> list B) (g : B -> list C) l : flat_map g (flat_map f l) = flat_map (fun x => flat_map g (f x)) l.
Proof. induction l as [|x l IH]; cbn; [reflexivity|]. now rewrite flat_map_app, IH. Qed.
Lemma seq_assoc a b c s : ends (RSeq a (RSeq b c)) s = ends (RSeq (RSeq a b) c) s.
Proof. cbn. now rewrite flat_map_flat_map. Qed.
Lemma bol_start a s : ends (RSeq RBol a) (RState None s []) = ends a (RState None s []).
Proof. cbn. now rewrite app_nil_r. Qed.
Lemma full_line a L s : consumes a L -> re_test (RSeq RBol (RSeq a (RSeq REol REps))) s = true <-> line L s.
Proof. intros A. rewrite test_iff, bol_start. now apply to_end. Qed.
Lemma full_line2 a b L M s : consumes a L -> consumes b M ->
  re_test (RSeq RBol (RSeq a (RSeq b (RSeq REol REps)))) s = true <-> line (fun w => exists x y, L x /\ M y /\ w = (x ++ y)%list) s.
Proof. intros A B. rewrite test_iff, bol_start, seq_assoc. now apply to_end, consumes_seq. Qed.
Lemma full_line3 a b c L M P s : consumes a L -> consumes b M -> consumes c P ->
  re_test (RSeq RBol (RSeq a (RSeq b (RSeq c (RSeq REol REps))))) s = true <->
  line (fun w => exists x y z, L x /\ M y /\ P z /\ w = (x ++ y ++ z)%list) s.
Proof.
  intros A B C. rewrite test_iff, bol_start, (seq_assoc a b), (seq_assoc (RSeq a b) c).
  rewrite (to_end _ _ _ (consumes_seq _ _ _ _ (consumes_seq _ _ _ _ A B) C)). unfold line. split.
  - intros (t & (w & z & (x & y & Hx & Hy & ->) & Hz & ->) & H). rewrite <- app_assoc in H. exists (x ++ y ++ z)%list. split; [|exact H]. exists x, y, z. auto.
  - intros (t & (x & y & z & Hx & Hy & Hz & ->) & H). rewrite app_assoc in H. exists ((x ++ y) ++ z)%list. split; [|exact H]. exists (x ++ y)%list, z. split; [|auto]. exists x, y. auto.
Qed.
Lemma line_iff (P Q : pstr -> Prop) s : (forall w, P w <-> Q w) -> line P s <-> line Q s.
Proof. intros H. unfold line. split; intros (t & Ht & K); exists t; split; auto; now apply H. Qed.
Lemma line_or (P Q : pstr -> Prop) s : line (fun w => P w \/ Q w) s <-> line P s \/ line Q s.
Proof. unfold line. firstorder. Qed.
Lemma line_ex {A} (P : A -> pstr -> Prop) s : line (fun w => exists x, P x w) s <-> exists x, line (P x) s.
Proof. unfold line. firstorder. Qed.

(** ** MAC *)
Definition hexn (n : nat) (g : pstr) : Prop := length g = n /\ Forall hex_digit g.
Lemma hexn_ok n : consumes (RRep (RChr hex) n (Some n)) (hexn n).
Proof.
  eapply consumes_ext; [|apply consumes_chars; lia]. intros w. cbn. unfold hexn. rewrite (forall_iff _ _ _ hex_iff).
  split; intros [H ?]; split; auto; lia.
Qed.
Lemma six c ws : length ws = 5%nat -> Forall (fun w => exists x, hexn 2 x /\ w = (x ++ [c])%list) ws ->
  exists p q r s t, Forall (hexn 2) [p; q; r; s; t] /\ concat ws = (p ++ c :: q ++ c :: r ++ c :: s ++ c :: t ++ [c])%list.
Proof.
  destruct ws as [|w1 [|w2 [|w3 [|w4 [|w5 [|? ?]]]]]]; try discriminate. intros _ F.
  repeat (apply Forall_cons_iff in F as [? F]).
  destruct H as (p & Hp & ->), H0 as (q & Hq & ->), H1 as (r & Hr & ->), H2 as (s & Hs & ->), H3 as (t & Ht & ->).
  exists p, q, r, s, t. split; [repeat (apply Forall_cons; [assumption|]); constructor|].
  cbn. rewrite app_nil_r, <- !app_assoc. reflexivity.
Qed.
Lemma mac_pairs c s : re_test (RSeq RBol (RSeq (RRep (RSeq (RRep (RChr hex) 2 (Some 2%nat)) (rc c)) 5 (Some 5%nat))
    (RSeq (RRep (RChr hex) 2 (Some 2%nat)) (RSeq REol REps)))) s = true <->
  line (fun w => exists p q r s t u, Forall (hexn 2) [p; q; r; s; t; u] /\ w = (p ++ c :: q ++ c :: r ++ c :: s ++ c :: t ++ c :: u)%list) s.
Proof.
  rewrite full_line2; [|apply consumes_rep; [apply consumes_then, hexn_ok|lia]|apply hexn_ok].
  apply line_iff. intros w. split.
  - intros (x & f & (ws & Hl & F & ->) & Hf & ->). apply six in F as (p & q & r & t & v & F & ->); [|unfold pstr in *; lia].
    exists p, q, r, t, v, f. repeat (apply Forall_cons_iff in F as [? F]).
    split; [repeat (apply Forall_cons; [assumption|]); constructor|]. repeat (rewrite <- ?app_assoc; cbn [app]). reflexivity.
  - intros (p & q & r & t & v & f & F & ->). repeat (apply Forall_cons_iff in F as [? F]).
    exists (p ++ c :: q ++ c :: r ++ c :: t ++ c :: v ++ [c])%list, f. split; [|split; [assumption|]].
    + exists [p ++ [c]; q ++ [c]; r ++ [c]; t ++ [c]; v ++ [c]]%list. split; [cbn; lia|].
      split; [repeat (apply Forall_cons; [eauto|]); constructor|]. cbn. repeat (rewrite <- ?app_assoc; cbn [app]). reflexivity.
    + repeat (rewrite <- ?app_assoc; cbn [app]). reflexivity.
Qed.
Theorem mac_valid s : valid_mac s = true <->
  (exists ds, line (fun t => mac_text t ds) s) \/ (exists l r, length l = 12%nat /\ Forall hex_digit l /\ s = (l ++ r)%list).
Proof.
  unfold valid_mac, mac_regex. cbn [ralt rseq fold_right]. rewrite !test_alt, !mac_pairs.
  rewrite (full_line3 _ _ _ _ _ _ _ (hexn_ok 6) (consumes_chr _) (hexn_ok 6)).
  rewrite (full_line2 _ _ _ _ _ (hexn_ok 4) (consumes_rep _ _ 2 2 (consumes_cons 46 _ _ (hexn_ok 4)) ltac:(lia))).
  assert (E3 : re_test (RSeq RBol (RSeq (RRep (RChr hex) 12 (Some 12%nat)) REps)) s = true <-> exists l r, length l = 12%nat /\ Forall hex_digit l /\ s = (l ++ r)%list).
  { rewrite (prefix_iff _ _ _ (consumes_last _ _ (hexn_ok 12))). unfold hexn. split; [intros (w & r & (H1 & H2) & ->)|intros (w & r & H1 & H2 & ->)]; eauto 6. }
  rewrite E3. split.
  - intros [H|[H|[H|[H|H]]]]; [left|left|now right|left|left].
    + destruct H as (t & (p & q & r & x & v & f & F & ->) & H). eexists. eexists. split; [apply (mt_pairs 45); [auto|exact F]|exact H].
    + destruct H as (t & (p & q & r & x & v & f & F & ->) & H). eexists. eexists. split; [apply (mt_pairs 58); [auto|exact F]|exact H].
    + destruct H as (t & (a & y & b & Ha & (c & -> & Hc) & Hb & ->) & H). eexists. eexists. split; [apply (mt_halves c)|exact H].
      * apply orb_true_iff in Hc. rewrite !N.eqb_eq in Hc. exact Hc.
      * repeat (apply Forall_cons; [assumption|]). constructor.
    + destruct H as (t & (a & y & Ha & (ws & Hl & F & ->) & ->) & H). destruct ws as [|w1 [|w2 [|? ?]]]; cbn in Hl; try lia.
      repeat (apply Forall_cons_iff in F as [? F]). destruct H0 as (b & Hb & ->), H1 as (c & Hc & ->).
      eexists. eexists. split; [apply (mt_dots a b c)|].
      * repeat (apply Forall_cons; [assumption|]). constructor.
      * cbn in H. rewrite app_nil_r in H. exact H.
  - intros [(ds & t & M & H)|H]; [|auto]. inversion M as [sep a b c d e f Hs F|l Hl F|sep a b Hs F|a b c F]; subst.
    + destruct Hs as [->| ->]; [left|right; left]; (eexists; split; [|exact H]); exists a, b, c, d, e, f; auto.
    + right. right. left. destruct H as [->| ->]; [exists ds, []|exists ds, [10]]; rewrite ?app_nil_r; auto.
    + do 3 right. left. eexists. split; [|exact H]. repeat (apply Forall_cons_iff in F as [? F]).
      exists a, [sep], b. split; [assumption|]. split; [|auto]. exists sep. split; [reflexivity|].
      apply orb_true_iff. rewrite !N.eqb_eq. exact Hs.
    + do 4 right. eexists. split; [|exact H]. repeat (apply Forall_cons_iff in F as [? F]).
      exists a, (46 :: b ++ 46 :: c)%list. split; [assumption|]. split; [|auto].
      exists [46 :: b; 46 :: c]%list. split; [cbn; lia|]. split; [repeat (apply Forall_cons; [eauto|]); constructor|].
      cbn. now rewrite app_nil_r.
Qed.

(** Normalisation. *)
Definition is_sep (c : N) : bool := (c =? 58) || (c =? 46) || (c =? 45).
Lemma hex_no_sep l : Forall hex_digit l -> filter (fun c => negb (is_sep c)) l = l.
Proof.
  induction 1 as [|c l H F IH]; cbn; [reflexivity|].
  assert (E : is_sep c = false); [|rewrite E; cbn; congruence]. unfold is_sep. unfold hex_digit in H.
  destruct (N.eqb_spec c 58), (N.eqb_spec c 46), (N.eqb_spec c 45); try reflexivity; lia.
Qed.
Lemma strip_app a b : mac_strip (a ++ b) = (mac_strip a ++ mac_strip b)%list.
Proof. unfold mac_strip. apply filter_app. Qed.
Lemma strip_hex l : Forall hex_digit l -> mac_strip l = l.
Proof. apply hex_no_sep. Qed.
Lemma strip_mac t ds : mac_text t ds -> mac_strip t = ds.
Proof.
  intros M. inversion M as [sep a b c d e f Hs F|l Hl F|sep a b Hs F|a b c F]; subst.
  1: assert (K : forall l, mac_strip (sep :: l) = mac_strip l) by (intros l; destruct Hs as [->| ->]; reflexivity).
  2: now apply strip_hex.
  2: assert (K : forall l, mac_strip (sep :: l) = mac_strip l) by (intros l; destruct Hs as [->| ->]; reflexivity).
  3: assert (K : forall l, mac_strip (46 :: l) = mac_strip l) by reflexivity.
  all: repeat (apply Forall_cons_iff in F as [[? ?] F]); repeat rewrite ?strip_app, ?K; rewrite !strip_hex by assumption; reflexivity.
Qed.
Lemma two_step (P : pstr -> Prop) : P [] -> (forall a, P [a]) -> (forall a b l, P l -> P (a :: b :: l)) -> forall l, P l.
Proof.
  intros H0 H1 H2 l. enough (P l /\ forall a, P (a :: l)) by tauto. induction l as [|x l [IH1 IH2]]; [auto|].
  split; [apply IH2|]. intros a. now apply H2.
Qed.
Lemma pairs_cons a b c l : pairs (a :: b :: c :: l) = a :: b :: 58 :: pairs (c :: l).
Proof. reflexivity. Qed.
Lemma strip_pairs l : mac_strip l = l -> mac_strip (pairs l) = l.
Proof.
  induction l as [|a|a b l IH] using two_step; [reflexivity|auto|]. destruct l as [|c l]; [auto|]. rewrite pairs_cons.
  intros H.
  assert (Hs : forall x r, mac_strip (x :: r) = if is_sep x then mac_strip r else x :: mac_strip r).
  { intros x r. unfold mac_strip. cbn. fold (is_sep x). now destruct (is_sep x). }
  assert (Len : forall r, (length (mac_strip r) <= length r)%nat).
  { intros r. unfold mac_strip. induction r as [|x r IHr]; cbn; [lia|]. destruct (negb _); cbn; lia. }
  assert (Keep : forall x r, mac_strip (x :: r) = x :: r -> is_sep x = false /\ mac_strip r = r).
  { intros x r K. rewrite Hs in K. destruct (is_sep x) eqn:E.
    - pose proof (Len r) as Q. rewrite K in Q. cbn in Q. lia.
    - injection K as K. auto. }
  apply Keep in H as [Ea H]. apply Keep in H as [Eb H].
  rewrite (Hs a), Ea, (Hs b), Eb, (Hs 58). change (is_sep 58) with true. cbv iota. now rewrite (IH H).
Qed.
Lemma strip_strip s : mac_strip (mac_strip s) = mac_strip s.
Proof.
  unfold mac_strip. induction s as [|c s IH]; cbn; [reflexivity|]. fold (is_sep c). destruct (is_sep c) eqn:E; cbn; [exact IH|].
  fold (is_sep c). rewrite E. cbn. now rewrite IH.
Qed.
Theorem mac_idem s : pairs (mac_strip (pairs (mac_strip s))) = pairs (mac_strip s).
Proof. now rewrite strip_pairs by apply strip_strip. Qed.
Theorem mac_idem_prim v w : mac_prim v = Ok w -> mac_prim w = Ok w.
Proof. destruct v; try discriminate. cbn. intros [= <-]. cbn. now rewrite mac_idem. Qed.
(** The colon form. *)
Theorem mac_colon_form t ds : mac_text t ds ->
  exists a b c d e f, Forall (hexn 2) [a; b; c; d; e; f] /\ ds = (a ++ b ++ c ++ d ++ e ++ f)%list /\
    mac_prim (VStr t) = Ok (VStr (a ++ 58 :: b ++ 58 :: c ++ 58 :: d ++ 58 :: e ++ 58 :: f)%list).
Proof.
  intros M. cbn. rewrite (strip_mac _ _ M).
  assert (H : length ds = 12%nat /\ Forall hex_digit ds).
  { inversion M as [sep a b c d e f Hs F|l Hl F|sep a b Hs F|a b c F]; subst; auto; repeat (apply Forall_cons_iff in F as [[? ?] F]); rewrite !app_length.
    all: split; [unfold pstr in *; lia|]. all: repeat (apply Forall_app; split; [assumption|]); assumption. }
  destruct H as [H F].
  destruct ds as [|x1 [|x2 [|x3 [|x4 [|x5 [|x6 [|x7 [|x8 [|x9 [|x10 [|x11 [|x12 [|? ?]]]]]]]]]]]]]; try discriminate.
  repeat (apply Forall_cons_iff in F as [? F]).
  exists [x1; x2], [x3; x4], [x5; x6], [x7; x8], [x9; x10], [x11; x12]. split; [|split; reflexivity].
  repeat (apply Forall_cons; [split; [reflexivity|repeat (apply Forall_cons; [assumption|]); constructor]|]). constructor.
Qed.
(** Same digits, same export; and conversely. *)
Theorem mac_export_eq t t' ds ds' : mac_text t ds -> mac_text t' ds' -> (mac_prim (VStr t) = mac_prim (VStr t') <-> ds = ds').
Proof.
  intros M M'. cbn. rewrite (strip_mac _ _ M), (strip_mac _ _ M'). split; [|congruence].
  intros [= H]. pose proof (strip_pairs ds) as A. pose proof (strip_pairs ds') as B. rewrite H in A.
  rewrite <- (strip_mac _ _ M) in A at 1. rewrite <- (strip_mac _ _ M') in B at 1. rewrite strip_strip in A, B.
  specialize (A (strip_mac _ _ M)). specialize (B (strip_mac _ _ M')). congruence.
Qed.
Theorem mac_export_valid t ds : mac_text t ds -> exists w, mac_prim (VStr t) = Ok (VStr w) /\ mac_text w ds /\ valid_mac w = true.
Proof.
  intros M. destruct (mac_colon_form _ _ M) as (a & b & c & d & e & f & F & -> & E).
  eexists. split; [exact E|]. assert (K : mac_text (a ++ 58 :: b ++ 58 :: c ++ 58 :: d ++ 58 :: e ++ 58 :: f) (a ++ b ++ c ++ d ++ e ++ f)) by (apply (mt_pairs 58); auto).
  split; [exact K|]. apply mac_valid. left. eexists. eexists. split; [exact K|]. now left.
Qed.
Theorem mac_tail_accepted : exists s t, valid_mac s = true /\ mac_prim (VStr s) = Ok (VStr t) /\ valid_mac t = false.
Proof. exists (u "001122334455, not a MAC"), (u "00:11:22:33:44:55:, :no:t :a :MA:C"). repeat split; vm_compute; reflexivity. Qed.

(** ** Email *)
Lemma alpha_iff c : alpha c = true <-> letter c.
Proof.
  unfold alpha, letter. rewrite !orb_true_iff, !in_range_iff, !N.eqb_eq. cbn [In].
  split; [intros [[[[[H|H]|H]|H]|H]|H]|intros [H|[H|[H|[H|[H|[H|[]]]]]]]]; auto 10.
Qed.
Lemma existsb_eqb c l : existsb (N.eqb c) l = true <-> In c l.
Proof.
  rewrite existsb_exists. split; [intros (x & H & E); apply N.eqb_eq in E; congruence|]. intros H. exists c. split; [exact H|apply N.eqb_refl].
Qed.
Lemma atext_iff c : atext c = true <-> atom_char c.
Proof.
  unfold atext, atom_char. rewrite !orb_true_iff, alpha_iff, dig_iff, existsb_eqb. cbn.
  tauto.
Qed.
Lemma qtext_iff U c : qtext U c = true <-> (33 <= c <= 126 /\ c <> 34 /\ c <> 92) \/ letter c \/ is_space U c = true.
Proof.
  unfold qtext. rewrite !orb_true_iff, !in_range_iff, N.eqb_eq, alpha_iff. split; [intros [[[[H|H]|H]|H]|H]; [left; lia..|auto|auto]|].
  intros [H|[H|H]]; [|auto|auto]. do 2 left. assert (c = 33 \/ 35 <= c <= 91 \/ 93 <= c <= 126) as [?|[?|?]] by lia; auto.
Qed.
Lemma vtext_iff U c : vtext U c = true <-> 33 <= c <= 126 \/ letter c \/ is_space U c = true.
Proof. unfold vtext. rewrite !orb_true_iff, in_range_iff, alpha_iff. tauto. Qed.
Lemma ldh_iff c : ldh c = true <-> letter c \/ dec_digit c \/ c = 45.
Proof. unfold ldh. rewrite !orb_true_iff, alpha_iff, dig_iff, N.eqb_eq. tauto. Qed.

Lemma atom_ok : consumes (RRep (RChr atext) 1 None) (fun w => w <> [] /\ Forall atom_char w).
Proof.
  eapply consumes_ext; [|apply consumes_chars_star]. intros w. cbn. rewrite (forall_iff _ _ _ atext_iff).
  destruct w; cbn; split; intros [H ?]; split; auto; try lia; try congruence.
Qed.
Lemma dot_atom_ok : consumes (RSeq (RRep (RChr atext) 1 None) (RRep (RSeq (rc 46) (RRep (RChr atext) 1 None)) 0 None)) dot_atom.
Proof.
  eapply consumes_ext; [|apply consumes_seq; [apply atom_ok|apply consumes_star; [apply consumes_cons, atom_ok|]]].
  - intros w. cbn. split.
    + intros (x & y & (Hx & Fx) & (ws & _ & F & ->) & ->). revert x Hx Fx. induction F as [|y ws (r & (Hr & Fr) & ->) F IH]; intros x Hx Fx.
      * cbn. rewrite app_nil_r. now apply da_one.
      * cbn. apply da_more; auto.
    + induction 1 as [l Hl F|l r Hl F D IH].
      * exists l, []. split; [auto|]. rewrite app_nil_r. split; [|reflexivity]. exists []. auto with arith.
      * destruct IH as (x & y & Hx & (ws & _ & Fw & ->) & ->). exists l, (46 :: x ++ concat ws)%list. split; [auto|]. split; [|reflexivity].
        exists ((46 :: x) :: ws)%list. split; [lia|]. split; [|reflexivity]. constructor; eauto.
  - intros w (r & _ & ->). discriminate.
Qed.
Lemma quoted_ok U : consumes (RRep (RAlt (RChr (qtext U)) (RSeq (rc 92) (RChr (vtext U)))) 0 None) (quoted U).
Proof.
  eapply consumes_ext; [|apply consumes_star; [apply consumes_alt; [apply consumes_chr|apply consumes_cons, consumes_chr]|]].
  - intros w. cbn. split.
    + intros (ws & _ & F & ->). induction F as [|x ws [(c & -> & Hc)|(r & (c & -> & Hc) & ->)] F IH]; cbn.
      * constructor.
      * apply qu_char; [now apply qtext_iff|exact IH].
      * apply qu_escape; [now apply vtext_iff|exact IH].
    + induction 1 as [|c l Hc Q (ws & _ & F & ->)|c l Hc Q (ws & _ & F & ->)].
      * exists []. auto with arith.
      * exists ([c] :: ws). split; [lia|]. split; [|reflexivity]. constructor; [|exact F]. left. exists c. split; [reflexivity|]. now apply qtext_iff.
      * exists ([92; c] :: ws). split; [lia|]. split; [|reflexivity]. constructor; [|exact F]. right. exists [c]. split; [|reflexivity].
        exists c. split; [reflexivity|]. now apply vtext_iff.
  - intros w [(c & -> & _)|(r & _ & ->)]; discriminate.
Qed.
Lemma last_of_last p w : w <> [] -> last_of p w = Some (last w 0).
Proof.
  revert p. induction w as [|c w IH]; intros p H; [congruence|]. cbn [last_of fold_left]. destruct w as [|d w]; [reflexivity|].
  change (fold_left _ (d :: w) (Some c)) with (last_of (Some c) (d :: w)). rewrite IH by discriminate. reflexivity.
Qed.
Lemma label_ok : consumes (rseq [RNotNext 45; RRep (RChr ldh) 1 (Some 63%nat); RNotPrev 45; rc 46]) (fun w => exists l, label l /\ w = (l ++ [46])%list).
Proof.
  pose proof (consumes_chars ldh 1 63 ltac:(lia)) as A. pose proof (consumes_last _ _ (consumes_rc 46)) as D.
  set (body := RRep (RChr ldh) 1 (Some 63%nat)) in *. set (dot := RSeq (rc 46) REps) in *.
  intros s s'. cbn [rseq fold_right]. fold dot. cbn [ends]. rewrite in_flat_map. unfold label. split.
  - intros (m & Hm & H). rewrite in_flat_map in H. destruct H as (m1 & H1 & H). rewrite in_flat_map in H. destruct H as (m2 & H2 & H).
    assert (m = s /\ forall x l, rs_rest s = x :: l -> x <> 45) as [-> Hn].
    { destruct (rs_rest s) as [|x l]; [destruct Hm as [<-|[]]; split; [reflexivity|discriminate]|].
      destruct (N.eqb_spec x 45); [destruct Hm|]. destruct Hm as [<-|[]]. split; [reflexivity|]. intros ? ? [= <- <-]. assumption. }
    apply A in H1 as (w & (Hl & F) & W).
    assert (Hw : w <> []) by (intros ->; cbn in Hl; lia).
    assert (m2 = m1 /\ rs_prev m1 <> Some 45) as [-> Hp].
    { destruct (rs_prev m1) as [x|]; [|destruct H2 as [<-|[]]; split; [reflexivity|discriminate]].
      destruct (N.eqb_spec x 45); [destruct H2|]. destruct H2 as [<-|[]]. split; [reflexivity|congruence]. }
    apply D in H as (y & -> & Y). exists (w ++ [46])%list. split; [|apply advance_app; eauto].
    exists w. split; [|reflexivity]. split; [exact Hl|]. split; [now apply (forall_iff _ _ _ ldh_iff)|]. destruct W as (W1 & W2 & _). split.
    + destruct w as [|x w]; [congruence|]. cbn in W1. exact (Hn _ _ W1).
    + rewrite W2, (last_of_last _ _ Hw) in Hp. congruence.
  - intros (w & (l & (Hl & F & Hh & Ht) & ->) & W). apply advance_app in W as (m & W & Y).
    assert (Hw : l <> []) by (intros ->; cbn in Hl; lia).
    exists s. split.
    { destruct W as (W1 & _). rewrite W1. destruct l as [|x l]; [congruence|]. cbn in *. destruct (N.eqb_spec x 45); [congruence|]. now left. }
    rewrite in_flat_map. exists m. split; [apply A; exists l; split; [split; [exact Hl|]|exact W]; now apply (forall_iff _ _ _ ldh_iff)|].
    rewrite in_flat_map. exists m. split; [|apply D; exists [46]; auto].
    destruct W as (_ & W2 & _). rewrite W2, (last_of_last _ _ Hw). destruct (N.eqb_spec (last l 0) 45); [congruence|]. now left.
Qed.
Lemma domain_ok : consumes (RSeq (RRep (rseq [RNotNext 45; RRep (RChr ldh) 1 (Some 63%nat); RNotPrev 45; rc 46]) 1 None) (RRep (RChr alpha) 2 (Some 63%nat))) domain.
Proof.
  eapply consumes_ext; [|apply consumes_seq; [apply consumes_star; [apply label_ok|]|apply consumes_chars; lia]].
  - intros w. cbn. split.
    + intros (x & t & (ws & Hl & F & ->) & (Ht & Ft) & ->). apply (forall_iff _ _ _ alpha_iff) in Ft.
      induction F as [|y ws (l & Hy & ->) F IH]; [cbn in Hl; lia|]. cbn. rewrite <- !app_assoc. cbn.
      destruct ws as [|z ws]; [cbn; now apply dm_last|]. apply dm_more; [assumption|]. apply IH. cbn. lia.
    + induction 1 as [l t Hl Ht Ft|l r Hl D (x & t & (ws & Hw & F & ->) & Ht & ->)].
      * exists (l ++ [46])%list, t. split; [|split; [split; [exact Ht|now apply (forall_iff _ _ _ alpha_iff)]|rewrite <- app_assoc; reflexivity]].
        exists [(l ++ [46])%list]. split; [cbn; lia|]. split; [constructor; eauto|]. cbn. now rewrite app_nil_r.
      * exists ((l ++ [46]) ++ concat ws)%list, t. split; [|split; [exact Ht|rewrite <- !app_assoc; reflexivity]].
        exists ((l ++ [46]) :: ws)%list. split; [cbn; lia|]. split; [constructor; eauto|]. reflexivity.
  - intros w (l & _ & ->). destruct l; discriminate.
Qed.
Theorem email_valid U s : valid_email U s = true <-> line (email_text U) s.
Proof.
  unfold valid_email, email_regex. cbn [rseq fold_right].
  rewrite test_iff, bol_start.
  set (loc := RAlt _ _). set (dom := RRep _ 1 None). set (tld := RRep (RChr alpha) 2 _).
  assert (E : forall st, ends (RSeq loc (RSeq (rc 64) (RSeq dom (RSeq tld (RSeq REol REps))))) st = ends (RSeq (RSeq loc (RSeq (rc 64) (RSeq dom tld))) (RSeq REol REps)) st).
  { intros st. rewrite (seq_assoc (RSeq loc _)) || idtac. cbn [ends]. repeat (rewrite ?flat_map_flat_map). apply flat_map_ext. intros a.
    repeat (rewrite ?flat_map_flat_map). apply flat_map_ext. intros b. repeat (rewrite ?flat_map_flat_map). reflexivity. }
  rewrite E. rewrite (to_end _ (email_text U)); [reflexivity|].
  eapply consumes_ext; [|apply consumes_seq; [apply consumes_alt; [apply dot_atom_ok|apply consumes_cons, consumes_seq; [apply quoted_ok|apply consumes_last, consumes_rc]]|apply consumes_cons, domain_ok]].
  intros w. cbn. unfold email_text. split.
  - intros (x & y & Hx & (d & Hd & ->) & ->). exists x, d. split; [|auto]. destruct Hx as [Hx|(r & (q & e & Hq & -> & ->) & ->)]; [auto|]. right. eauto.
  - intros (x & d & Hx & Hd & ->). exists x, (64 :: d). split; [|eauto]. destruct Hx as [Hx|(q & Hq & ->)]; [auto|]. right. exists (q ++ [34])%list. split; [|reflexivity]. eauto 6.
Qed.

Lemma mac_no_text : forall v, (forall s, v <> VStr s) ->
  ((exists b, v = VBytes b) -> mac_prim v = Raise (XPy ETypeError)) /\
  ((forall b, v <> VBytes b) -> mac_prim v = Raise (XPy EAttributeError)).
Proof.
  intros v H. split.
  - intros [b ->]. reflexivity.
  - intros Hb. destruct v; try reflexivity; [now elim (H s)|now elim (Hb s)].
Qed.
