(** IP and MAC addresses. *)
From Verif.Model Require Import Py Core Text Types Regex Net.
From Verif.Spec Require Import NetSpec.
From Verif.Proofs Require Import RegexLemmas.
Local Open Scope N_scope.

Lemma in_range_iff a b c : in_range a b c = true <-> a <= c <= b.
Proof. unfold in_range. rewrite andb_true_iff, !N.leb_le. tauto. Qed.
Lemma dig_iff c : dig c = true <-> dec_digit c.
Proof. apply in_range_iff. Qed.
Lemma hex_iff c : hex c = true <-> hex_digit c.
Proof. unfold hex, hex_digit. rewrite !orb_true_iff, !in_range_iff, dig_iff. unfold dec_digit. tauto. Qed.
Lemma forall_iff (p : N -> bool) (P : N -> Prop) l : (forall c, p c = true <-> P c) -> Forall (fun c => p c = true) l <-> Forall P l.
Proof. intros H. split; apply Forall_impl; intros c; apply H. Qed.

(** ** IPv4 *)
Lemma octet_ok : consumes ipv4_octet octet.
Proof.
  unfold ipv4_octet. cbn [ralt rseq fold_right].
  eapply consumes_ext; [|apply consumes_alt; [apply consumes_cons, consumes_cons, consumes_last, consumes_chr|
    apply consumes_alt; [apply consumes_cons, consumes_seq; [apply consumes_chr|apply consumes_last, consumes_chr]|
      apply consumes_seq; [apply consumes_opt, consumes_chr|apply consumes_last, consumes_chars; lia]]]].
  intros w. cbn. unfold octet. split.
  - intros [(r & (r' & (c & -> & Hc) & ->) & ->)|[(r & (x & y & (c & -> & Hc) & (d & -> & Hd) & ->) & ->)|(x & y & Hx & (Hl & F) & ->)]].
    + apply in_range_iff in Hc. split; [cbn; lia|]. unfold dec_digit. split; [repeat (apply Forall_cons; [lia|]); apply Forall_nil|]. unfold dec_value. cbn [fold_left]. lia.
    + apply in_range_iff in Hc. apply dig_iff in Hd. unfold dec_digit in *. cbn [app]. split; [cbn; lia|].
      split; [repeat (apply Forall_cons; [lia|]); apply Forall_nil|]. unfold dec_value. cbn [fold_left]. lia.
    + apply (forall_iff _ _ _ dig_iff) in F.
      assert (K : (length x <= 1)%nat /\ Forall dec_digit x /\ dec_value x <= 1).
      { destruct Hx as [->|(c & -> & Hc)]; [cbn; repeat split; auto; lia|]. apply in_range_iff in Hc. unfold dec_digit, dec_value. cbn [fold_left length]. split; [lia|]. split; [repeat constructor; lia|lia]. }
      destruct K as (K1 & K2 & K3). rewrite app_length. split; [lia|]. split; [now apply Forall_app|].
      unfold dec_value in *. rewrite fold_left_app. set (v := fold_left _ x 0) in *.
      destruct y as [|c [|d [|e y]]]; cbn in Hl; try lia; cbn [fold_left]; inversion F as [|? ? F1 F2]; subst; unfold dec_digit in *.
      * lia.
      * inversion F2; subst. lia.
  - intros (Hl & F & V). unfold dec_value in V.
    destruct w as [|a [|b [|c [|d w]]]]; cbn in Hl; try lia; repeat (apply Forall_cons_iff in F as [? F]); unfold dec_digit in *.
    + right. right. exists [], [a]. cbn. repeat split; auto. apply (forall_iff _ _ _ dig_iff). repeat (apply Forall_cons; [assumption|]); apply Forall_nil.
    + right. right. exists [], [a; b]. cbn. repeat split; auto. apply (forall_iff _ _ _ dig_iff). repeat (apply Forall_cons; [assumption|]); apply Forall_nil.
    + cbn [fold_left] in V. assert (a <= 49 \/ a = 50) as [A| ->] by lia.
      * right. right. exists [a], [b; c]. cbn. repeat split; auto; [|apply (forall_iff _ _ _ dig_iff); repeat (apply Forall_cons; [assumption|]); apply Forall_nil].
        right. exists a. split; [reflexivity|]. apply in_range_iff. lia.
      * assert (b <= 52 \/ b = 53) as [B| ->] by lia.
        -- right. left. exists [b; c]. split; [|reflexivity]. exists [b], [c]. split; [exists b; split; [reflexivity|apply in_range_iff; lia]|].
           split; [exists c; split; [reflexivity|now apply dig_iff]|reflexivity].
        -- left. exists [53; c]. split; [|reflexivity]. exists [c]. split; [|reflexivity]. exists c. split; [reflexivity|]. apply in_range_iff. lia.
Qed.
Lemma consumes_then a L c : consumes a L -> consumes (RSeq a (rc c)) (fun w => exists x, L x /\ w = (x ++ [c])%list).
Proof.
  intros A. eapply consumes_ext; [|apply consumes_seq; [exact A|apply consumes_rc]]. intros w. cbn. split.
  - intros (x & y & Hx & -> & ->). eauto.
  - intros (x & Hx & ->). eauto.
Qed.
Lemma ipv4_ok : consumes ipv4 ipv4_text.
Proof.
  unfold ipv4. eapply consumes_ext; [|apply consumes_seq; [apply consumes_rep; [apply consumes_then, octet_ok|lia]|apply octet_ok]].
  intros w. cbn. unfold ipv4_text. split.
  - intros (x & d & (ws & Hl & F & ->) & Hd & ->).
    destruct ws as [|w1 [|w2 [|w3 [|w4 ws]]]]; cbn in Hl; try lia.
    repeat (apply Forall_cons_iff in F as [? F]). destruct H as (a & Ha & ->), H0 as (b & Hb & ->), H1 as (c & Hc & ->).
    exists a, b, c, d. repeat (split; [assumption|]). cbn. rewrite app_nil_r, <- !app_assoc. reflexivity.
  - intros (a & b & c & d & Ha & Hb & Hc & Hd & ->).
    exists ((a ++ [46]) ++ (b ++ [46]) ++ (c ++ [46]))%list, d. split; [|split; [exact Hd|rewrite <- !app_assoc; reflexivity]].
    exists [a ++ [46]; b ++ [46]; c ++ [46]]%list. split; [cbn; lia|]. split; [repeat constructor; eauto|].
    cbn. now rewrite app_nil_r.
Qed.
Theorem ipv4_valid s : valid_ip IPv4 s = true <-> line ipv4_text s.
Proof. apply full_iff, ipv4_ok. Qed.

(** ** IPv6 *)
Ltac plia := unfold pstr in *; lia.

Lemma h16_ok : consumes h16 group16.
Proof.
  unfold h16. eapply consumes_ext; [|apply consumes_chars; lia]. intros w. cbn. unfold group16. now rewrite (forall_iff _ _ _ hex_iff).
Qed.
Definition prefix (gs : list pstr) : pstr := concat (map (fun g => g ++ [58])%list gs).
Lemma prefixes gs' : Forall (fun w => exists x, group16 x /\ w = (x ++ [58])%list) gs' ->
  exists gs, length gs = length gs' /\ Forall group16 gs /\ concat gs' = prefix gs.
Proof.
  induction 1 as [|w gs' (x & Hx & ->) F (gs & Hl & Fg & E)]; [exists []; auto|].
  exists (x :: gs). cbn. split; [congruence|]. split; [constructor; auto|]. unfold prefix in *. cbn. now rewrite E.
Qed.
Lemma un_prefixes gs : Forall group16 gs -> Forall (fun w => exists x, group16 x /\ w = (x ++ [58])%list) (map (fun g => g ++ [58])%list gs).
Proof. induction 1; cbn; constructor; eauto. Qed.
Lemma h16s_ok n : consumes (h16s n) (fun w => exists gs, length gs = n /\ Forall group16 gs /\ w = prefix gs).
Proof.
  unfold h16s. eapply consumes_ext; [|apply consumes_rep; [apply consumes_then, h16_ok|lia]]. intros w. cbn. split.
  - intros (ws & Hl & F & ->). apply prefixes in F as (gs & El & F & E). exists gs. split; [transitivity (length ws); [exact El|lia]|auto].
  - intros (gs & Hl & F & ->). exists (map (fun g => g ++ [58])%list gs). rewrite map_length. split; [plia|].
    split; [now apply un_prefixes|reflexivity].
Qed.
Lemma groups_prefix gs g : Forall group16 gs -> group16 g -> groups (S (length gs)) (prefix gs ++ g).
Proof.
  intros F G. induction F as [|x gs Hx F IH]; cbn; [now apply gr_one|]. unfold prefix in *. cbn.
  rewrite <- !app_assoc. cbn. apply gr_more; assumption.
Qed.
Lemma groups_split n w : groups (S n) w -> exists gs g, length gs = n /\ Forall group16 gs /\ group16 g /\ w = (prefix gs ++ g)%list.
Proof.
  revert w. induction n as [|n IH]; intros w H; inversion H; subst.
  - exists [], w. auto.
  - apply IH in H2 as (gs & g' & Hl & F & Hg & ->). exists (g :: gs), g'. cbn. split; [congruence|]. split; [constructor; auto|].
    split; [exact Hg|]. unfold prefix. cbn. rewrite <- !app_assoc. reflexivity.
Qed.
Lemma h16_opt_ok n : consumes (h16_opt n) (fun w => exists i, (i <= S n)%nat /\ groups i w).
Proof.
  unfold h16_opt. eapply consumes_ext; [|apply consumes_opt, consumes_seq; [apply consumes_rep; [apply consumes_then, h16_ok|lia]|apply h16_ok]].
  intros w. cbn. split.
  - intros [->|(x & g & (ws & Hl & F & ->) & Hg & ->)]; [exists 0%nat; split; [plia|constructor]|].
    apply prefixes in F as (gs & El & F & ->). exists (S (length gs)). split; [plia|]. now apply groups_prefix.
  - intros (i & Hi & H). destruct i as [|i]; [inversion H; auto|right].
    apply groups_split in H as (gs & g & Hl & F & Hg & ->). exists (prefix gs), g. split; [|auto].
    exists (map (fun g => g ++ [58])%list gs). rewrite map_length. split; [plia|]. split; [now apply un_prefixes|reflexivity].
Qed.
Lemma opt_h16_ok : consumes (ropt h16) (fun w => exists i, (i <= 1)%nat /\ groups i w).
Proof.
  eapply consumes_ext; [|apply consumes_opt, h16_ok]. intros w. cbn. split.
  - intros [->|H]; [exists 0%nat; split; [plia|constructor]|exists 1%nat; split; [plia|now constructor]].
  - intros (i & Hi & H). destruct i as [|[|i]]; [inversion H; auto|inversion H; auto|lia].
Qed.
Lemma l32_ok : consumes l32 (units 2).
Proof.
  unfold l32. cbn [rseq fold_right].
  eapply consumes_ext; [|apply consumes_alt; [apply consumes_seq; [apply h16_ok|apply consumes_cons, consumes_last, h16_ok]|apply ipv4_ok]].
  intros w. cbn. split.
  - intros [(a & y & Ha & (b & Hb & ->) & ->)|H]; [|now apply un_ipv4]. apply un_groups. apply gr_more; [assumption|now constructor].
  - intros H. inversion H as [? ? G|? G|g n l Hg Hu]; subst; [left|now right|left].
    + apply (groups_split 1) in G as (gs & g & Hl & F & Hg & ->). destruct gs as [|x [|? ?]]; try discriminate.
      apply Forall_cons_iff in F as [Hx _]. exists x, (58 :: g). split; [assumption|]. split; [eauto|].
      unfold prefix. cbn. rewrite app_nil_r, <- app_assoc. reflexivity.
    + inversion Hu as [? ? G| |]; subst. inversion G; subst. exists g, (58 :: l). split; [assumption|]. eauto.
Qed.
Lemma units_prefix gs t : Forall group16 gs -> units 2 t -> units (length gs + 2) (prefix gs ++ t).
Proof.
  intros F U. induction F as [|x gs Hx F IH]; cbn; [exact U|]. unfold prefix in *. cbn. rewrite <- !app_assoc.
  rewrite Nat.add_comm in *. cbn in *. apply un_more; assumption.
Qed.
Lemma units_split n w : units (n + 2) w -> exists gs t, length gs = n /\ Forall group16 gs /\ units 2 t /\ w = (prefix gs ++ t)%list.
Proof.
  revert w. induction n as [|n IH]; intros w H; [exists [], w; auto|].
  assert (K : exists g l, group16 g /\ units (n + 2) l /\ w = (g ++ 58 :: l)%list).
  { rewrite Nat.add_comm in *. inversion H as [? ? G| |g n' l Hg Hu]; subst; [|eauto].
    inversion G; subst. eexists _, _. split; [eassumption|]. split; [|reflexivity]. now apply un_groups. }
  destruct K as (g & l & Hg & Hu & ->). apply IH in Hu as (gs & t & Hl & F & Ht & ->).
  exists (g :: gs), t. cbn. split; [congruence|]. split; [constructor; auto|]. split; [exact Ht|].
  unfold prefix. cbn. rewrite <- !app_assoc. reflexivity.
Qed.
Lemma units_ok n : consumes (RSeq (h16s n) l32) (units (n + 2)).
Proof.
  eapply consumes_ext; [|apply consumes_seq; [apply h16s_ok|apply l32_ok]]. intros w. cbn. split.
  - intros (x & y & (gs & <- & F & ->) & Hy & ->). now apply units_prefix.
  - intros H. apply units_split in H as (gs & t & Hl & F & Ht & ->). exists (prefix gs), t. eauto 6.
Qed.
Lemma units_ok' n : consumes (RSeq (h16s n) (RSeq l32 REps)) (units (n + 2)).
Proof.
  eapply consumes_ext; [|apply consumes_seq; [apply h16s_ok|apply consumes_last, l32_ok]]. intros w. cbn. split.
  - intros (x & y & (gs & <- & F & ->) & Hy & ->). now apply units_prefix.
  - intros H. apply units_split in H as (gs & t & Hl & F & Ht & ->). exists (prefix gs), t. eauto 6.
Qed.
Lemma colons_ok a L : consumes a L -> consumes (RSeq colons a) (fun w => exists x, L x /\ w = 58 :: 58 :: x).
Proof.
  intros A. unfold colons. eapply consumes_ext; [|apply consumes_seq; [apply consumes_cons, consumes_rc|exact A]].
  intros w. cbn. split.
  - intros (x & y & (r & -> & ->) & Hy & ->). cbn. eauto.
  - intros (x & Hx & ->). exists [58; 58], x. eauto.
Qed.
(** At most [i] groups, the double colon, [j] times 16 bits. *)
Definition gap (i j : nat) (w : pstr) : Prop :=
  exists a b, (exists i', (i' <= i)%nat /\ groups i' a) /\ units j b /\ w = (a ++ 58 :: 58 :: b)%list.
Lemma gap_ok a b i j : consumes a (fun w => exists i', (i' <= i)%nat /\ groups i' w) -> consumes b (units j) ->
  consumes (RSeq a (RSeq colons b)) (gap i j).
Proof.
  intros A B. eapply consumes_ext; [|apply consumes_seq; [exact A|apply colons_ok, B]]. intros w. cbn. unfold gap. split.
  - intros (x & y & Hx & (z & Hz & ->) & ->). exists x, z. auto.
  - intros (x & y & Hx & Hy & ->). exists x, (58 :: 58 :: y). split; [exact Hx|]. eauto.
Qed.
Lemma units_0 w : units 0 w <-> w = [].
Proof. split; [intros H; inversion H as [? ? G| |]; subst; now inversion G|intros ->; repeat constructor]. Qed.
Lemma units_1 w : units 1 w <-> group16 w.
Proof. split; [intros H; inversion H as [? ? G| |]; subst; now inversion G|intros H; apply un_groups; now apply gr_one]. Qed.
Lemma ipv6_gaps w : ipv6_text w <-> units 8 w \/ (exists x, units 7 x /\ w = 58 :: 58 :: x) \/
  gap 1 6 w \/ gap 2 5 w \/ gap 3 4 w \/ gap 4 3 w \/ gap 5 2 w \/ gap 6 1 w \/ gap 7 0 w.
Proof.
  unfold ipv6_text. split.
  - intros [H|(i & j & a & b & Ga & Ub & Hle & ->)]; [auto|right].
    destruct j as [|[|[|[|[|[|[|[|j]]]]]]]]; [| | | | | | | |lia].
    all: try (do 7 right; exists a, b; split; [exists i; split; [plia|assumption]|auto]; fail).
    all: try (do 6 right; left; exists a, b; split; [exists i; split; [plia|assumption]|auto]; fail).
    all: try (do 5 right; left; exists a, b; split; [exists i; split; [plia|assumption]|auto]; fail).
    all: try (do 4 right; left; exists a, b; split; [exists i; split; [plia|assumption]|auto]; fail).
    all: try (do 3 right; left; exists a, b; split; [exists i; split; [plia|assumption]|auto]; fail).
    all: try (do 2 right; left; exists a, b; split; [exists i; split; [plia|assumption]|auto]; fail).
    all: try (do 1 right; left; exists a, b; split; [exists i; split; [plia|assumption]|auto]; fail).
    left. destruct i as [|i]; [|lia]. inversion Ga; subst. eauto.
  - assert (G : forall i j, (i + j <= 7)%nat -> gap i j w -> exists i j a b, groups i a /\ units j b /\ (i + j <= 7)%nat /\ w = (a ++ 58 :: 58 :: b)%list).
    { intros i j Hij (a & b & (i' & Hi & Ga) & Ub & ->). exists i', j, a, b. repeat split; auto. lia. }
    intros [H|[(x & Hx & ->)|H]]; [auto|right; exists 0%nat, 7%nat, [], x; repeat split; auto; constructor|].
    right. repeat (destruct H as [H|H]; [eapply G; [|exact H]; lia|]). eapply G; [|exact H]; lia.
Qed.
Lemma ipv6_ok : consumes ipv6 ipv6_text.
Proof.
  unfold ipv6. cbn [ralt rseq fold_right].
  eapply consumes_ext; [intros w; symmetry; apply ipv6_gaps|].
  repeat apply consumes_alt.
  - apply (units_ok 6).
  - apply colons_ok, (units_ok' 5).
  - apply gap_ok; [apply opt_h16_ok|apply (units_ok' 4)].
  - apply gap_ok; [apply h16_opt_ok|apply (units_ok' 3)].
  - apply gap_ok; [apply h16_opt_ok|apply (units_ok' 2)].
  - apply gap_ok; [apply h16_opt_ok|apply (units_ok' 1)].
  - apply gap_ok; [apply h16_opt_ok|apply consumes_last, l32_ok].
  - apply gap_ok; [apply h16_opt_ok|]. apply consumes_last. eapply consumes_ext; [intros w; symmetry; apply units_1|apply h16_ok].
  - apply gap_ok; [apply h16_opt_ok|]. eapply consumes_ext; [intros w; symmetry; apply units_0|apply consumes_eps].
Qed.
Theorem ipv6_valid s : valid_ip IPv6 s = true <-> line ipv6_text s.
Proof. apply full_iff, ipv6_ok. Qed.
Theorem ip_valid s : valid_ip IPany s = true <-> (exists a r, ipv4_text a /\ s = (a ++ r)%list) \/ line ipv6_text s.
Proof.
  unfold valid_ip, ip_regex. rewrite test_alt, (prefix_iff _ _ _ ipv4_ok).
  assert (E : re_test (RSeq ipv6 REol) s = true <-> line ipv6_text s); [|now rewrite E].
  rewrite test_iff, <- (to_end ipv6 ipv6_text s ipv6_ok). cbn [ends]. setoid_rewrite in_flat_map. 
  assert (K : forall m, flat_map (ends REps) (if at_eol (rs_rest m) then [m] else []) = if at_eol (rs_rest m) then [m] else []).
  { intros m. now destruct (at_eol _). }
  setoid_rewrite K. reflexivity.
Qed.
