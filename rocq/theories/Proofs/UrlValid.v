(** Accepted URLs. *)
From Verif.Model Require Import Py Core Text Types Regex Net Url.
From Verif.Spec Require Import NetSpec UrlSpec.
From Verif.Proofs Require Import NetWitness EqLemmas RegexLemmas NetLemmas MacEmail UrlLemmas.
Local Open Scope N_scope.
Local Open Scope list_scope.

(** ** Host names *)
Lemma split_nonempty s : split_dot s <> [].
Proof. destruct s as [|c s]; cbn; [discriminate|]. destruct (c =? 46); [discriminate|]. destruct (split_dot s); discriminate. Qed.
Lemma split_dotted s : dotted (split_dot s) s.
Proof.
  induction s as [|c s IH]; cbn; [constructor|]. destruct (N.eqb_spec c 46) as [->|N].
  - change (46 :: s) with ([] ++ 46 :: s). now constructor.
  - inversion IH as [l E1 E2|l ls t H E1 E2]; cbn.
    + constructor.
    + change (c :: l ++ 46 :: t) with ((c :: l) ++ 46 :: t). now constructor.
Qed.
Lemma split_no_dot s : Forall (fun l => ~ In 46 l) (split_dot s).
Proof.
  induction s as [|c s IH]; cbn; [constructor; [tauto|constructor]|]. destruct (N.eqb_spec c 46) as [->|N].
  - constructor; [tauto|exact IH].
  - destruct (split_dot s) as [|l ls]; [constructor; [cbn; tauto|constructor]|]. apply Forall_cons_iff in IH as [H IH].
    constructor; [cbn; tauto|exact IH].
Qed.
Lemma split_one l : ~ In 46 l -> split_dot l = [l].
Proof.
  induction l as [|c l IH]; intros H; [reflexivity|]. cbn in *. destruct (N.eqb_spec c 46) as [->|N]; [tauto|]. rewrite IH by tauto. reflexivity.
Qed.
Lemma split_app l t : ~ In 46 l -> split_dot (l ++ 46 :: t) = l :: split_dot t.
Proof.
  induction l as [|c l IH]; intros H; [reflexivity|]. cbn in *. destruct (N.eqb_spec c 46) as [->|N]; [tauto|]. rewrite IH by tauto. reflexivity.
Qed.
Lemma dotted_split ls t : dotted ls t -> Forall (fun l => ~ In 46 l) ls -> split_dot t = ls.
Proof.
  induction 1 as [l|l ls t H IH]; intros F; apply Forall_cons_iff in F as [Hl F]; [now apply split_one|].
  rewrite split_app by exact Hl. now rewrite IH.
Qed.
Lemma label_iff l : Url.label_ok l = true /\ ~ In 46 l <-> host_label l.
Proof.
  unfold Url.label_ok, host_label. rewrite !andb_true_iff, negb_true_iff, orb_false_iff, !N.eqb_neq, Nat.leb_le, Nat.ltb_lt.
  split; [intros [[[? ?] [? ?]] ?]|intros ([? ?] & ? & ? & ?)]; repeat split; auto; lia.
Qed.
Lemma labels_iff t : forallb Url.label_ok (split_dot t) = true <-> Forall host_label (split_dot t).
Proof.
  rewrite forallb_forall, Forall_forall. pose proof (split_no_dot t) as D. rewrite Forall_forall in D.
  split; intros H l I; apply label_iff; auto.
Qed.
Lemma tld_ok : consumes (RAlt (RRep (RChr alpha) 2 None)
    (rseq [RChr (fun c => (c =? 120) || (c =? 88)); RChr (fun c => (c =? 110) || (c =? 78)); rc 45; rc 45;
           RRep (RChr (fun c => alpha c || dig c)) 4 None])) top_level.
Proof.
  eapply consumes_ext; [|apply consumes_alt; [apply consumes_chars_star|
    cbn [rseq]; apply consumes_seq; [apply consumes_chr|apply consumes_seq; [apply consumes_chr|
      apply consumes_cons, consumes_cons, consumes_last, consumes_chars_star]]]].
  intros w. cbn. unfold top_level.
  rewrite (forall_iff _ _ _ alpha_iff).
  assert (K : forall l, Forall (fun c => alpha c || dig c = true) l <-> Forall (fun c => letter c \/ dec_digit c) l).
  { intros l. apply forall_iff. intros c. now rewrite orb_true_iff, alpha_iff, dig_iff. }
  split; (intros [H|H]; [left; exact H|right]).
  - destruct H as (x & y & (a & -> & Ha) & (x' & y' & (b & -> & Hb) & (r & (r' & (Hl & F) & ->) & ->) & ->) & ->).
    apply orb_true_iff in Ha, Hb. rewrite !N.eqb_eq in Ha, Hb. exists a, b, r'. rewrite <- K. auto.
  - destruct H as (a & b & r & Ha & Hb & -> & Hl & F). exists [a], (b :: 45 :: 45 :: r). split; [exists a; split; [reflexivity|]|split; [|reflexivity]].
    + rewrite orb_true_iff, !N.eqb_eq. exact Ha.
    + exists [b], (45 :: 45 :: r). split; [exists b; split; [reflexivity|]; rewrite orb_true_iff, !N.eqb_eq; exact Hb|]. split; [|reflexivity].
      eexists. split; [|reflexivity]. eexists. split; [|reflexivity]. rewrite K. auto.
Qed.
Lemma tld_iff l : ~ In 10 l -> re_test tld_regex l = true <-> top_level l.
Proof.
  intros H. unfold tld_regex. rewrite (full_iff _ _ l tld_ok). split.
  - intros (t & Ht & [->| ->]); [exact Ht|]. exfalso. apply H. rewrite in_app_iff. cbn. tauto.
  - intros Ht. exists l. auto.
Qed.
Lemma last_in {A} (l : list A) d : l <> [] -> In (last l d) l.
Proof.
  induction l as [|a l IH]; intros H; [congruence|]. destruct l as [|b l]; [now left|]. right. apply IH. discriminate.
Qed.
Lemma dotted_in ls t l c : dotted ls t -> In l ls -> In c l -> In c t.
Proof.
  induction 1 as [x|x ls t H IH]; intros I J.
  - destruct I as [->|[]]. exact J.
  - apply in_app_iff. destruct I as [->|I]; [now left|right; right; auto].
Qed.
Lemma dotted_last ls t : dotted ls t -> Forall host_label ls -> last t 0 <> 46 /\ t <> [].
Proof.
  assert (K : forall l, host_label l -> last l 0 <> 46 /\ l <> []).
  { intros l ((H1 & H2) & H3 & _). assert (l <> []) by (destruct l; [cbn in H1; lia|discriminate]). split; [|assumption].
    intros E. apply H3. rewrite <- E. now apply last_in. }
  induction 1 as [l|l ls t H IH]; intros F; apply Forall_cons_iff in F as [Hl F]; [now apply K|].
  destruct (IH F) as [H1 H2]. split; [|destruct l; discriminate].
  destruct t as [|c t]; [congruence|].
  replace (last (l ++ 46 :: c :: t) 0) with (last (c :: t) 0); [exact H1|].
  clear. induction l as [|a l IH]; [reflexivity|]. cbn [app last] in *. destruct (l ++ 46 :: c :: t) eqn:E; [destruct l; discriminate|exact IH].
Qed.
Definition strip_last (n : pstr) : pstr := if last n 0 =? 46 then removelast n else n.
Lemma strip_last_in n c : In c (strip_last n) -> In c n.
Proof.
  unfold strip_last. destruct (last n 0 =? 46); [|auto]. clear. induction n as [|a n IH]; [auto|].
  cbn [removelast]. destruct n as [|b n]; [intros []|]. intros [->|I]; [now left|right; auto].
Qed.
Lemma name_iff fqdn n : ~ In 10 n ->
  (length (strip_last n) <=? 253)%nat && forallb Url.label_ok (split_dot (strip_last n)) &&
  (negb fqdn || (negb (length (split_dot (strip_last n)) =? 1)%nat && re_test tld_regex (last (split_dot (strip_last n)) []))) = true <->
  host_name fqdn n.
Proof.
  intros NL. rewrite !andb_true_iff, Nat.leb_le, labels_iff, orb_true_iff, negb_true_iff, andb_true_iff, negb_true_iff, Nat.eqb_neq.
  assert (T : re_test tld_regex (last (split_dot (strip_last n)) []) = true <-> top_level (last (split_dot (strip_last n)) [])).
  { apply tld_iff. intros I. apply NL, strip_last_in. eapply dotted_in; [apply split_dotted| |exact I]. apply last_in, split_nonempty. }
  rewrite T. clear T. split.
  - intros ((H1 & H2) & H3). exists (strip_last n), (split_dot (strip_last n)). split; [|split; [apply split_dotted|split; [exact H1|split; [exact H2|]]]].
    + unfold strip_last. destruct (N.eqb_spec (last n 0) 46) as [E|_]; [right|now left].
      rewrite <- E. apply app_removelast_last. destruct n; [cbn in E; discriminate|discriminate].
    + intros ->. destruct H3 as [?|[H3 H4]]; [discriminate|]. split; [|exact H4].
      pose proof (split_nonempty (strip_last n)). destruct (split_dot (strip_last n)) as [|a [|b l]]; cbn in *; [congruence|lia|lia].
  - intros (t & ls & E & D & L & F & Q). destruct (dotted_last _ _ D F) as [N1 N2].
    assert (S : strip_last n = t).
    { unfold strip_last. destruct E as [->| ->].
      - destruct (N.eqb_spec (last t 0) 46); [congruence|reflexivity].
      - rewrite last_last, N.eqb_refl. apply removelast_last. }
    rewrite S. rewrite (dotted_split _ _ D); [|revert F; apply Forall_impl; intros l H; apply H].
    split; [auto|]. destruct fqdn; [right|now left]. destruct (Q eq_refl). split; [lia|assumption].
Qed.
Lemma ascii_iff h : forallb (fun c => c <? 128) h = true <-> Forall (fun c => c < 128) h.
Proof. rewrite forallb_forall, Forall_forall. split; intros H c I; apply N.ltb_lt, H, I. Qed.
Lemma hostname_iff idna fqdn h : (forall h n, idna h = Some n -> ~ In 10 n) -> ~ In 10 h ->
  valid_hostname idna fqdn h = true <-> exists n, ascii_form idna h n /\ host_name fqdn n.
Proof.
  intros HI NL. unfold valid_hostname, ascii_form. destruct (forallb (fun c => c <? 128) h) eqn:A.
  - apply ascii_iff in A. rewrite (name_iff fqdn h NL). split.
    + intros H. exists h. auto.
    + intros (n & [[_ ->]|[N _]] & H); tauto.
  - assert (NA : ~ Forall (fun c => c < 128) h) by (rewrite <- ascii_iff; congruence).
    destruct (idna h) as [n|] eqn:E.
    + rewrite (name_iff fqdn n (HI _ _ E)). split.
      * intros H. exists n. auto.
      * intros (n' & [[Y _]|[_ [= ->]]] & H'); tauto.
    + split; [discriminate|]. intros (n & [[Y _]|[_ Y]] & H); [tauto|discriminate].
Qed.

(** ** Schemes *)
Lemma pstr_eqb_iff a b : pstr_eqb a b = true <-> a = b.
Proof. apply pstr_eqb_eq. Qed.
Lemma lower_iff s t : Forall (fun d => 97 <= d <= 122) t -> (lower s = t <-> Forall2 (fun c d => c = d \/ c + 32 = d) s t).
Proof.
  intros F. unfold lower. revert s. induction F as [|d t Hd F IH]; intros [|c s]; cbn; split; intros H; try discriminate; try (now inversion H); try constructor.
  - injection H as E _. destruct (in_range 65 90 c) eqn:R; lia.
  - injection H as _ E. now apply IH.
  - inversion H as [|x y xs ys Hc Hs]; subst. rewrite (proj2 (IH s) Hs). f_equal.
    destruct (in_range 65 90 c) eqn:R; [apply in_range_iff in R; lia|].
    destruct Hc as [->|Hc]; [reflexivity|]. exfalso. apply not_true_iff_false in R. apply R, in_range_iff. lia.
Qed.
Lemma scheme_iff s : existsb (pstr_eqb (lower s)) [u "http"; u "https"] = true <-> scheme_text s.
Proof.
  unfold scheme_text. cbn [existsb]. rewrite orb_false_r, orb_true_iff, !pstr_eqb_iff.
  rewrite !lower_iff by (repeat (apply Forall_cons; [split; cbn; lia|]); constructor).
  split.
  - intros [H|H]; eauto.
  - intros (t & [->| ->] & H); auto.
Qed.
Lemma scheme_chars s : scheme_text s -> s <> [] /\ Forall scheme_class s.
Proof.
  intros (t & Ht & F). split; [destruct s; [inversion F; subst; destruct Ht; discriminate|discriminate]|].
  assert (L : Forall (fun d => 97 <= d <= 122) t) by (destruct Ht as [->| ->]; repeat (apply Forall_cons; [split; cbn; lia|]); constructor).
  clear Ht. induction F as [|c d s t H F IH]; constructor; apply Forall_cons_iff in L as [Ld L]; [|auto].
  left. unfold letter. lia.
Qed.

(** ** The theorem *)
Lemma name_no_newline h : Forall name_class h -> ~ In 10 h.
Proof. rewrite Forall_forall. intros F I. apply F in I. unfold name_class, url_char in I. lia. Qed.
Lemma skip_back bs w n : back w bs -> (n < 5)%nat -> forall r, group n (bs ++ r) = group n r.
Proof.
  intros (po & pa & qu & fr & _ & _ & _ & _ & _ & ->) Hn r. unfold group, g_frag, g_query, g_path, g_port.
  do 5 (destruct n as [|n]; [destruct po, pa, qu, fr; reflexivity|]). lia.
Qed.
(** What the groups say, given a match. *)
Lemma group_scheme w cs h hs b bs : front w cs -> host h hs -> back b bs ->
  exists sc, group g_scheme (bs ++ hs ++ cs) = Some sc /\ exists us, sc <> [] /\ Forall scheme_class sc /\ opt_all (fun x => x <> [] /\ Forall user_class x) us /\
    w = sc ++ 58 :: 47 :: 47 :: opt_text (fun x => x ++ [64]) us.
Proof.
  intros (sc & us & H1 & H2 & H3 & -> & ->) Hh Hb. exists sc. split.
  - rewrite (skip_back _ _ _ Hb) by (cbv; lia).
    destruct Hh as [(a & _ & _ & _ & ->)|[(_ & ->)|(_ & _ & ->)]]; destruct us; reflexivity.
  - exists us. auto.
Qed.
Lemma group_host w cs b bs n : front w cs -> back b bs -> (2 <= n <= 4)%nat -> forall hs, group n (bs ++ hs ++ cs) = group n hs.
Proof.
  intros (sc & us & _ & _ & _ & _ & ->) Hb Hn hs. rewrite (skip_back _ _ _ Hb) by lia. unfold group.
  induction hs as [|[k v] hs IH].
  - destruct us; cbn; do 2 (destruct n as [|n]; [lia|]); reflexivity.
  - cbn. destruct (Nat.eqb k n); [reflexivity|exact IH].
Qed.
Lemma ipv6_iff a : Forall hexcolon a -> valid_ip IPv6 a = true <-> ipv6_text a.
Proof.
  intros F. rewrite ipv6_valid. split; [|intros H; exists a; auto]. intros (t & H & [->| ->]); [exact H|]. exfalso.
  apply Forall_app in F as [_ F]. apply Forall_cons_iff in F as [F _]. unfold hexcolon, hex_digit in F. lia.
Qed.
Lemma ipv6_nonempty a : ipv6_text a -> a <> [].
Proof. intros H ->. assert (K : valid_ip IPv6 [] = true) by (apply ipv6_valid; exists []; auto). vm_compute in K. discriminate K. Qed.

Theorem url_valid idna fqdn s : (forall h n, idna h = Some n -> ~ In 10 n) ->
  valid_url idna fqdn s = true <-> line (url_text idna fqdn) s.
Proof.
  intros HI. split.
  - unfold valid_url. destruct (re_match url_regex s) as [c|] eqn:E; [|discriminate].
    apply match_caps in E as (w & h & cs & hs & bs & (b & e & Fw & Hh & Hb & He & ->) & -> & _).
    destruct (group_scheme _ _ _ _ _ _ Fw Hh Hb) as (sc & -> & us & Ns & Fs & Hu & ->).
    destruct (existsb (pstr_eqb (lower sc)) [u "http"; u "https"]) eqn:Sc; [|discriminate]. apply scheme_iff in Sc. cbn [negb].
    assert (G : forall n, (2 <= n <= 4)%nat -> group n (bs ++ hs ++ cs) = group n hs) by (intros n Hn; apply (group_host _ _ _ _ _ Fw Hb Hn)).
    rewrite !G by (cbv; lia). clear G. intros V.
    assert (HH : url_host_text idna fqdn h).
    { destruct Hh as [(a & Na & Fa & -> & ->)|[(Q & ->)|(Nh & Fh & ->)]].
      - left. destruct a as [|x a]; [congruence|]. exists (x :: a). split; [|auto]. apply ipv6_iff; [exact Fa|exact V].
      - right. left. exact Q.
      - right. right. split; [exact Nh|]. split; [exact Fh|]. apply hostname_iff; [exact HI|now apply name_no_newline|exact V]. }
    destruct Hb as (po & pa & qu & fr & H1 & H2 & H3 & H4 & -> & _).
    exists ((sc ++ 58 :: 47 :: 47 :: opt_text (fun x => x ++ [64]) us) ++ h ++ opt_text (cons 58) po ++ opt_text (cons 47) pa ++ opt_text (cons 63) qu ++ opt_text (cons 35) fr).
    split.
    + exists sc, us, h, po, pa, qu, fr. rewrite <- app_assoc. cbn [app]. auto 10.
    + destruct He as [->| ->]; [left; now rewrite app_nil_r|right; now rewrite <- !app_assoc].
  - intros (t & (sc & us & h & po & pa & qu & fr & Sc & Hu & Hh & H1 & H2 & H3 & H4 & ->) & Es).
    destruct (scheme_chars _ Sc) as [Ns Fs].
    set (w := sc ++ 58 :: 47 :: 47 :: opt_text (fun x => x ++ [64]) us).
    set (b := opt_text (cons 58) po ++ opt_text (cons 47) pa ++ opt_text (cons 63) qu ++ opt_text (cons 35) fr).
    assert (E : exists e, eol e /\ s = w ++ h ++ b ++ e).
    { assert (W : sc ++ 58 :: 47 :: 47 :: opt_text (fun x => x ++ [64]) us ++ h ++ b = w ++ h ++ b) by (unfold w; rewrite <- app_assoc; reflexivity).
      fold b in Es. rewrite W in Es. destruct Es as [->| ->].
      - exists []. rewrite app_nil_r. split; [now left|reflexivity].
      - exists [10]. split; [now right|]. now rewrite <- !app_assoc. }
    destruct E as (e & He & Ew).
    assert (Fw : exists cs, front w cs) by (eexists; exists sc, us; auto). destruct Fw as [cs Fw].
    assert (Hb : exists bs, back b bs) by (eexists; exists po, pa, qu, fr; auto 10). destruct Hb as [bs Hb].
    assert (Hh' : exists hs, host h hs).
    { destruct Hh as [(a & Ha & Fa & ->)|[Q|(Nh & Fh & _)]].
      - eexists. left. exists a. split; [now apply ipv6_nonempty|]. auto.
      - eexists. right. left. auto.
      - eexists. right. right. auto. }
    destruct Hh' as [hs Hh'].
    assert (R : result s w h cs hs bs) by (exists b, e; auto).
    unfold valid_url. destruct (matches_some _ _ _ _ _ _ R) as [c Ec]. rewrite Ec.
    apply match_caps in Ec as (w2 & h2 & cs2 & hs2 & bs2 & R2 & -> & Four). specialize (Four _ _ _ _ _ R).
    destruct R2 as (b2 & e2 & Fw2 & Hh2 & Hb2 & He2 & Es2).
    assert (Q : w ++ h ++ b ++ e = w2 ++ h2 ++ b2 ++ e2) by congruence.
    destruct (front_unique _ _ _ _ _ _ _ _ _ _ _ _ _ _ Fw Fw2 Hh' Hh2 Hb Hb2 He He2 Q) as [Ww _]. rewrite <- Ww in Q, Fw2.
    apply app_inv_head in Q. pose proof (host_unique _ _ _ _ _ _ _ _ _ _ Hh' Hh2 Hb Hb2 He He2 Q) as <-.
    destruct (group_scheme _ _ _ _ _ _ Fw2 Hh2 Hb2) as (sc2 & -> & us2 & Ns2 & Fs2 & _ & Ew2).
    assert (sc2 = sc).
    { unfold w in Ew2. assert (~ scheme_class 58) by (unfold scheme_class, letter, dec_digit; cbn; lia).
      apply (split_at scheme_class) in Ew2 as [-> _]; auto. }
    subst sc2. rewrite (proj2 (scheme_iff sc) Sc). cbn [negb].
    assert (G : forall n, (2 <= n <= 4)%nat -> group n (bs2 ++ hs2 ++ cs2) = group n hs2) by (intros n Hn; apply (group_host _ _ _ _ _ Fw2 Hb2 Hn)).
    rewrite !G by (cbv; lia). clear G.
    destruct Hh2 as [(a2 & Na2 & Fa2 & Eh2 & ->)|[(Q4 & ->)|(Nh2 & Fh2 & ->)]].
    + cbn. destruct a2 as [|x a2]; [congruence|]. apply ipv6_iff; [exact Fa2|].
      destruct Hh as [(a & Ha & Fa & Eh)|[Q4|(Nh & Fh & _)]].
      * rewrite Eh in Eh2. injection Eh2 as Eh2. apply (app_inj_tail a (x :: a2)) in Eh2 as [-> _]. exact Ha.
      * apply ipv4_chars in Q4 as [_ F]. rewrite Eh2 in F. apply Forall_cons_iff in F as [F _]. unfold dec_digit in F. lia.
      * rewrite Eh2 in Fh. apply Forall_cons_iff in Fh as [F _]. exfalso. revert F. apply url_char_not; [cbn; tauto|notin].
    + cbn. destruct h; [apply ipv4_chars in Q4 as [F _]; congruence|reflexivity].
    + cbn. destruct Hh as [(a & Ha & Fa & Eh)|[Q4|(Nh & Fh & V)]].
      * rewrite Eh in Fh2. apply Forall_cons_iff in Fh2 as [F _]. exfalso. revert F. apply url_char_not; [cbn; tauto|notin].
      * specialize (Four Q4). discriminate Four.
      * apply hostname_iff; [exact HI|now apply name_no_newline|exact V].
Qed.
Theorem url_validates idna fqdn s : (forall h n, idna h = Some n -> ~ In 10 n) ->
  validate_url idna fqdn (VStr s) = None <-> line (url_text idna fqdn) s.
Proof.
  intros H. rewrite <- (url_valid idna fqdn s H). unfold validate_url, text_validator. destruct (valid_url idna fqdn s); split; congruence || discriminate.
Qed.
(** A backslash in the host. *)
Theorem bad_url_ends idna fqdn s pre post : (forall h n, idna h = Some n -> ~ In 10 n) -> ~ line (url_text idna fqdn) s ->
  validators_result (pre ++ validate_url idna fqdn :: post) (VStr s) = validators_result (pre ++ [validate_url idna fqdn]) (VStr s) /\
  exists e, validators_result (pre ++ [validate_url idna fqdn]) (VStr s) = Raise e.
Proof.
  intros I H. apply stop_decides. destruct (valid_url idna fqdn s) eqn:D; [|reflexivity].
  destruct H. now apply url_valid.
Qed.
Theorem backslash_accepted : exists s, In 92 s /\ forall idna, validate_url idna true (VStr s) = None.
Proof. exists (u "http://a\b.com"). split; [vm_compute; tauto|]. intros idna. vm_compute. reflexivity. Qed.
