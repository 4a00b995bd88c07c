(** URLs. *)
From Verif.Model Require Import Py Core Text Types Regex Net Url.
From Verif.Spec Require Import NetSpec UrlSpec.
From Verif.Proofs Require Import RegexLemmas NetLemmas MacEmail.
Local Open Scope N_scope.
Local Open Scope list_scope.

(** ** Patterns with groups *)
Definition caps := list (nat * pstr).
Definition advance_c (s : rstate) (w : pstr) (cs : caps) (s' : rstate) : Prop :=
  rs_rest s = w ++ rs_rest s' /\ rs_prev s' = last_of (rs_prev s) w /\ rs_caps s' = cs ++ rs_caps s.
Definition consumes_c (r : re) (L : pstr -> caps -> Prop) : Prop :=
  forall s s', In s' (ends r s) <-> exists w cs, L w cs /\ advance_c s w cs s'.
Lemma advance_c_app s a b cs cs' s' :
  advance_c s (a ++ b) (cs' ++ cs) s' <-> exists m, advance_c s a cs m /\ advance_c m b cs' s'.
Proof.
  unfold advance_c, last_of. destruct s as [p l c], s' as [p' l' c']. cbn. rewrite fold_left_app. split.
  - intros (H1 & H2 & H3). exists (RState (fold_left (fun _ c => Some c) a p) (b ++ l') (cs ++ c)). cbn. rewrite H1, <- app_assoc, H3, <- app_assoc. auto.
  - intros ([pm lm cm] & (H1 & H2 & H3) & (H4 & H5 & H6)). cbn in *. subst. rewrite <- !app_assoc. auto.
Qed.
Lemma lift r L : consumes r L -> consumes_c r (fun w cs => L w /\ cs = []).
Proof.
  intros A s s'. rewrite (A s s'). split.
  - intros (w & Hw & H). exists w, []. auto.
  - intros (w & cs & (Hw & ->) & H). exists w. auto.
Qed.
Lemma cext r (L M : pstr -> caps -> Prop) : (forall w cs, L w cs <-> M w cs) -> consumes_c r L -> consumes_c r M.
Proof. intros H C s s'. rewrite (C s s'). split; intros (w & cs & Hw & A); exists w, cs; split; auto; now apply H. Qed.
Lemma cgroup n a L : consumes_c a L -> consumes_c (RGroup n a) (fun w cs => exists cs', L w cs' /\ cs = (n, w) :: cs').
Proof.
  intros A s s'. cbn. rewrite in_map_iff.
  assert (K : forall w m, rs_rest s = w ++ rs_rest m -> firstn (length (rs_rest s) - length (rs_rest m)) (rs_rest s) = w).
  { intros w m E. rewrite E, app_length, Nat.add_sub, firstn_app, Nat.sub_diag, firstn_all, firstn_O. apply app_nil_r. }
  split.
  - intros (m & <- & H). apply A in H as (w & cs & Hw & H1 & H2 & H3). exists w, ((n, w) :: cs). split; [eauto|].
    unfold advance_c. cbn. rewrite H3, (K _ _ H1). auto.
  - intros (w & cs & (cs' & Hw & ->) & H1 & H2 & H3). exists (RState (rs_prev s') (rs_rest s') (cs' ++ rs_caps s)). cbn. split.
    + rewrite (K _ _ H1). destruct s'; cbn in *. now rewrite H3.
    + apply A. exists w, cs'. split; [exact Hw|]. unfold advance_c. auto.
Qed.
Lemma cseq a b L M : consumes_c a L -> consumes_c b M ->
  consumes_c (RSeq a b) (fun w cs => exists x y cx cy, L x cx /\ M y cy /\ w = x ++ y /\ cs = cy ++ cx).
Proof.
  intros A B s s'. cbn. rewrite in_flat_map. split.
  - intros (m & H1 & H2). apply A in H1 as (x & cx & Hx & X). apply B in H2 as (y & cy & Hy & Y).
    exists (x ++ y), (cy ++ cx). split; [exists x, y, cx, cy; auto|]. apply advance_c_app. eauto.
  - intros (w & cs & (x & y & cx & cy & Hx & Hy & -> & ->) & H). apply advance_c_app in H as (m & H1 & H2). exists m.
    split; [apply A|apply B]; eauto.
Qed.
Lemma calt a b L M : consumes_c a L -> consumes_c b M -> consumes_c (RAlt a b) (fun w cs => L w cs \/ M w cs).
Proof.
  intros A B s s'. cbn. rewrite in_app_iff, (A s s'), (B s s'). split.
  - intros [(w & cs & H & K)|(w & cs & H & K)]; eauto.
  - intros (w & cs & [H|H] & K); eauto.
Qed.
Lemma copt a L : consumes_c a L -> consumes_c (ropt a) (fun w cs => L w cs \/ (w = [] /\ cs = [])).
Proof.
  intros A s s'. unfold ropt. cbn [ends exactly at_most flat_map]. rewrite app_nil_r. cbn [Nat.sub at_most].
  rewrite in_app_iff, in_flat_map. cbn [In]. split.
  - intros [(m & H & [<-|[]])|[<-|[]]].
    + apply A in H as (w & cs & Hw & H). eauto.
    + exists [], []. split; [auto|]. unfold advance_c. cbn. auto.
  - intros (w & cs & [Hw|(-> & ->)] & H).
    + left. exists s'. split; [apply A; eauto|auto].
    + right. left. destruct H as (H1 & H2 & H3). destruct s, s'; cbn in *. now subst.
Qed.
Lemma cchar c a L : consumes_c a L -> consumes_c (RSeq (rc c) a) (fun w cs => exists r, L r cs /\ w = c :: r).
Proof.
  intros A. eapply cext; [|apply cseq; [apply lift, consumes_rc|exact A]]. intros w cs. cbn. split.
  - intros (x & y & cx & cy & (-> & ->) & Hy & -> & ->). exists y. rewrite app_nil_r. auto.
  - intros (r & Hr & ->). exists [c], r, [], cs. rewrite app_nil_r. auto.
Qed.
Lemma cthen a L c : consumes_c a L -> consumes_c (RSeq a (rc c)) (fun w cs => exists r, L r cs /\ w = r ++ [c]).
Proof.
  intros A. eapply cext; [|apply cseq; [exact A|apply lift, consumes_rc]]. intros w cs. cbn. split.
  - intros (x & y & cx & cy & Hx & (-> & ->) & -> & ->). exists x. auto.
  - intros (r & Hr & ->). exists r, [c], cs, []. auto.
Qed.

(** ** The language *)
Lemma chr_in_iff l c : chr_in l c = true <-> In c l.
Proof. apply existsb_eqb. Qed.
Lemma chrcls_iff allowed allowed' c : (forall x, In x allowed <-> In x allowed') -> chrcls allowed c = true <-> url_char allowed' c.
Proof.
  intros H. unfold chrcls, url_char, unsafe.
  rewrite andb_true_iff, !negb_true_iff, !orb_false_iff, N.leb_gt. rewrite andb_false_iff, negb_false_iff.
  rewrite <- !not_true_iff_false, !chr_in_iff, in_range_iff, H.
  change valid_chars with (u ":/?#[]@!$&'()*+,;=-_.~%"). 
  split; [intros [[[? ?] ?] [?|?]]; tauto|]. intros (? & ? & ? & K). split; [tauto|].
  destruct (in_dec N.eq_dec c (u ":/?#[]@!$&'()*+,;=-_.~%")); tauto.
Qed.
Definition scheme_class (c : N) : Prop := letter c \/ dec_digit c \/ In c (u ".+-").
Definition user_class := url_char (u "-_.~!$&'()*+,;=%:").
Definition name_class := url_char (u ".-").
Definition front (w : pstr) (cs : caps) : Prop :=
  exists sc us, sc <> [] /\ Forall scheme_class sc /\ opt_all (fun x => x <> [] /\ Forall user_class x) us /\
    w = sc ++ 58 :: 47 :: 47 :: opt_text (fun x => x ++ [64]) us /\
    cs = match us with Some x => [(g_user, x)] | None => [] end ++ [(g_scheme, sc)].
Lemma star_chars f (P : N -> Prop) : (forall c, f c = true <-> P c) -> consumes (RRep (RChr f) 0 None) (Forall P).
Proof.
  intros H. eapply consumes_ext; [|apply consumes_chars_star]. intros w. cbn. rewrite (forall_iff _ _ _ H). split; [tauto|]. intros; split; [lia|auto].
Qed.
Lemma plus_chars f (P : N -> Prop) : (forall c, f c = true <-> P c) -> consumes (RRep (RChr f) 1 None) (fun w => w <> [] /\ Forall P w).
Proof.
  intros H. eapply consumes_ext; [|apply consumes_chars_star]. intros w. cbn. rewrite (forall_iff _ _ _ H).
  destruct w; cbn; split; intros [? ?]; split; auto; try lia; congruence.
Qed.
Lemma cgroup_plain n a L : consumes a L -> consumes_c (RGroup n a) (fun w cs => L w /\ cs = [(n, w)]).
Proof.
  intros A. eapply cext; [|apply cgroup, lift, A]. intros w cs. cbn. split.
  - intros (cs' & (H & ->) & ->). auto.
  - intros (H & ->). eauto.
Qed.
Lemma front_ok : consumes_c url_front front.
Proof.
  unfold url_front. eapply cext; [|apply cseq; [apply cgroup_plain, (plus_chars _ scheme_class)|
    apply cchar, cchar, cchar, copt, cthen, cgroup_plain, (plus_chars _ user_class)]].
  - intros w cs. cbn. unfold front. split.
    + intros (sc & y & cx & cy & ((Hs & Fs) & ->) & (r1 & (r2 & (r3 & H & ->) & ->) & ->) & -> & ->).
      destruct H as [(x & (Hx & ->) & ->)|(-> & ->)]; [exists sc, (Some x)|exists sc, None]; cbn; auto 10.
    + intros (sc & us & Hs & Fs & Hu & -> & ->).
      exists sc, (58 :: 47 :: 47 :: opt_text (fun x => x ++ [64]) us), [(g_scheme, sc)], (match us with Some x => [(g_user, x)] | None => [] end).
      split; [auto|]. split; [|auto].
      eexists. split; [|reflexivity]. eexists. split; [|reflexivity]. eexists. split; [|reflexivity].
      destruct us as [x|]; cbn in *; [left; eauto|auto].
  - intros c. unfold scheme_class. rewrite !orb_true_iff, alpha_iff, dig_iff, chr_in_iff. tauto.
  - intros c. apply chrcls_iff. reflexivity.
Qed.
Definition hexcolon (c : N) : Prop := hex_digit c \/ c = 58.
Definition host (w : pstr) (cs : caps) : Prop :=
  (exists a, a <> [] /\ Forall hexcolon a /\ w = 91 :: a ++ [93] /\ cs = [(g_host6, a)]) \/
  (ipv4_text w /\ cs = [(g_host4, w)]) \/
  (w <> [] /\ Forall name_class w /\ cs = [(g_hostn, w)]).
Lemma host6_ok : consumes_c (RSeq (rc 91) (RSeq (RGroup g_host6 p_host6) (rc 93)))
  (fun w cs => exists a, a <> [] /\ Forall hexcolon a /\ w = 91 :: a ++ [93] /\ cs = [(g_host6, a)]).
Proof.
  eapply cext; [|apply cchar, cthen, cgroup_plain, (plus_chars _ hexcolon)].
  - intros w cs. cbn. split.
    + intros (r & (r' & ((H1 & H2) & ->) & ->) & ->). eauto 6.
    + intros (a & H1 & H2 & -> & ->). exists (a ++ [93]). split; [|reflexivity]. exists a. auto.
  - intros c. unfold hexcolon. rewrite orb_true_iff, hex_iff, N.eqb_eq. tauto.
Qed.
Lemma host_ok : consumes_c url_host host.
Proof.
  unfold url_host. eapply cext; [|apply calt; [apply host6_ok|apply calt; [apply cgroup_plain, ipv4_ok|apply cgroup_plain, (plus_chars _ name_class)]]].
  - intros w cs. cbn. unfold host. tauto.
  - intros c. apply chrcls_iff. reflexivity.
Qed.
Definition back (w : pstr) (cs : caps) : Prop :=
  exists po pa qu fr,
    opt_all (fun x => (2 <= length x <= 5)%nat /\ Forall dec_digit x) po /\
    opt_all (Forall (url_char (u "!$&'()*+,;=-_.~%:@/"))) pa /\
    opt_all (Forall (url_char (u "!$&'()*+,;=-_.~%:@/?[]"))) qu /\
    opt_all (Forall (url_char (u "!$&'()*+,;=-_.~%:@/?"))) fr /\
    w = opt_text (cons 58) po ++ opt_text (cons 47) pa ++ opt_text (cons 63) qu ++ opt_text (cons 35) fr /\
    cs = match fr with Some x => [(g_frag, x)] | None => [] end ++ match qu with Some x => [(g_query, x)] | None => [] end ++
         match pa with Some x => [(g_path, 47 :: x)] | None => [] end ++ match po with Some x => [(g_port, x)] | None => [] end.
Lemma opt_part a (L : pstr -> Prop) (f : pstr -> pstr) (g : pstr -> nat * pstr) :
  consumes_c a (fun w cs => exists x, L x /\ w = f x /\ cs = [g x]) ->
  consumes_c (ropt a) (fun w cs => exists o, opt_all L o /\ w = opt_text f o /\ cs = match o with Some x => [g x] | None => [] end).
Proof.
  intros A. eapply cext; [|apply copt, A]. intros w cs. cbn. split.
  - intros [(x & H & -> & ->)|(-> & ->)]; [exists (Some x)|exists None]; cbn; auto.
  - intros ([x|] & H & -> & ->); [left; eauto|right; auto].
Qed.
Lemma char_group c n a L : consumes a L -> consumes_c (RSeq (rc c) (RGroup n a)) (fun w cs => exists x, L x /\ w = c :: x /\ cs = [(n, x)]).
Proof.
  intros A. eapply cext; [|apply cchar, cgroup_plain, A]. intros w cs. cbn. split; [intros (r & (H & ->) & ->)|intros (x & H & -> & ->)]; eauto.
Qed.
Lemma back_ok : consumes_c url_back back.
Proof.
  unfold url_back. eapply cext; [|apply cseq; [apply (opt_part _ (fun x => (2 <= length x <= 5)%nat /\ Forall dec_digit x) (cons 58) (fun x => (g_port, x))), char_group|
    apply cseq; [apply (opt_part _ (Forall (url_char (u "!$&'()*+,;=-_.~%:@/"))) (cons 47) (fun x => (g_path, 47 :: x)))|
    apply cseq; [apply (opt_part _ (Forall (url_char (u "!$&'()*+,;=-_.~%:@/?[]"))) (cons 63) (fun x => (g_query, x))), char_group|
      apply (opt_part _ (Forall (url_char (u "!$&'()*+,;=-_.~%:@/?"))) (cons 35) (fun x => (g_frag, x))), char_group]]]].
  - intros w cs. cbn. unfold back. split.
    + intros (x1 & y1 & c1 & d1 & (po & H1 & -> & ->) & (x2 & y2 & c2 & d2 & (pa & H2 & -> & ->) & (x3 & y3 & c3 & d3 & (qu & H3 & -> & ->) & (fr & H4 & -> & ->) & -> & ->) & -> & ->) & -> & ->).
      exists po, pa, qu, fr. rewrite <- !app_assoc. auto 10.
    + intros (po & pa & qu & fr & H1 & H2 & H3 & H4 & -> & ->).
      eexists _, _, _, _. split; [exists po; auto|]. split; [|split; [reflexivity|]].
      * eexists _, _, _, _. split; [exists pa; auto|]. split; [|split; [reflexivity|reflexivity]].
        eexists _, _, _, _. split; [exists qu; auto|]. split; [exists fr; auto|]. auto.
      * now rewrite <- !app_assoc.
  - eapply consumes_ext; [|apply consumes_chars; lia]. intros w. cbn. now rewrite (forall_iff _ _ _ dig_iff).
  - eapply cext; [|apply cgroup_plain, consumes_cons, star_chars; intros c; apply chrcls_iff; reflexivity].
    intros w cs. cbn. split; [intros ((r & H & ->) & ->)|intros (x & H & -> & ->)]; eauto.
  - apply star_chars. intros c. apply chrcls_iff. reflexivity.
  - apply star_chars. intros c. apply chrcls_iff. reflexivity.
Qed.

(** ** The parts of a URL are determined *)
Definition stop (P : N -> Prop) (r : pstr) : Prop := match r with [] => True | c :: _ => ~ P c end.
Lemma split_at (P : N -> Prop) a a' r r' : Forall P a -> Forall P a' -> stop P r -> stop P r' -> a ++ r = a' ++ r' -> a = a' /\ r = r'.
Proof.
  intros F. revert a'. induction F as [|c a Hc F IH]; intros a' F' S S' E.
  - destruct F' as [|c' a' Hc' F']; [auto|]. cbn in E. subst r. cbn in S. tauto.
  - destruct F' as [|c' a' Hc' F']; cbn in E; [subst r'; cbn in S'; tauto|]. injection E as -> E.
    apply IH in E as [-> ->]; auto.
Qed.
Lemma url_char_not allowed c : In c (u ":/?#[]@!$&'()*+,;=-_.~%") -> ~ In c allowed -> ~ url_char allowed c.
Proof. unfold url_char. tauto. Qed.
Ltac notin := let H := fresh in intros H; cbn in H; lia.
Definition eol (e : pstr) : Prop := e = [] \/ e = [10].
Lemma back_stop b cs e (P : N -> Prop) : back b cs -> eol e -> ~ P 58 -> ~ P 47 -> ~ P 63 -> ~ P 35 -> ~ P 10 -> stop P (b ++ e).
Proof.
  intros (po & pa & qu & fr & _ & _ & _ & _ & -> & _) E H1 H2 H3 H4 H5.
  destruct po, pa, qu, fr; cbn; auto; destruct E as [->| ->]; cbn; auto.
Qed.
(** What user, host and port consist of. *)
Definition auth (c : N) : Prop := c <> 64 /\ c <> 47 /\ c <> 63 /\ c <> 35 /\ c <> 10.
Lemma url_char_auth allowed c : url_char allowed c -> ~ In 64 allowed -> ~ In 47 allowed -> ~ In 63 allowed -> ~ In 35 allowed -> auth c.
Proof.
  intros (H1 & H2 & H3 & H4) A B C D. unfold auth.
  assert (forall x, In x (u ":/?#[]@!$&'()*+,;=-_.~%") -> ~ In x allowed -> c <> x) as K by (intros x I J ->; tauto).
  repeat split; try (apply K; [cbn; tauto|assumption]). lia.
Qed.
Lemma user_auth x : Forall user_class x -> Forall auth x.
Proof. apply Forall_impl. intros c H. apply (url_char_auth _ _ H); notin. Qed.
Lemma octet_dec a : octet a -> Forall dec_digit a.
Proof. intros (_ & H & _). exact H. Qed.
Lemma ipv4_chars h : ipv4_text h -> h <> [] /\ Forall (fun c => dec_digit c \/ c = 46) h.
Proof.
  intros (a & b & c & d & Ha & Hb & Hc & Hd & ->).
  assert (K : forall x, octet x -> Forall (fun c => dec_digit c \/ c = 46) x) by (intros x H; apply (Forall_impl _ (fun c H => or_introl H)); now apply octet_dec).
  split; [destruct a; discriminate|]. apply Forall_app. split; [auto|]. constructor; [auto|].
  apply Forall_app. split; [auto|]. constructor; [auto|]. apply Forall_app. split; [auto|]. constructor; auto.
Qed.
Lemma dec_name c : dec_digit c \/ c = 46 -> name_class c.
Proof. unfold dec_digit, name_class, url_char. intros H. repeat split; [lia|lia| |]; intros I; cbn in *; lia. Qed.
Lemma ipv4_name h : ipv4_text h -> h <> [] /\ Forall name_class h.
Proof. intros H. apply ipv4_chars in H as [H F]. split; [exact H|]. revert F. apply Forall_impl. apply dec_name. Qed.
(** A host is in brackets, or a name (IPv4 addresses are names). *)
Lemma host_shape h cs : host h cs -> (exists a, a <> [] /\ Forall hexcolon a /\ h = 91 :: a ++ [93]) \/ (h <> [] /\ Forall name_class h).
Proof. intros [(a & H1 & H2 & -> & _)|[(H & _)|(H1 & H2 & _)]]; [left; eauto|right; now apply ipv4_name|right; auto]. Qed.
Lemma host_auth h cs : host h cs -> Forall auth h.
Proof.
  intros H. apply host_shape in H as [(a & _ & F & ->)|(_ & F)].
  - constructor; [unfold auth; lia|]. apply Forall_app. split; [|constructor; [unfold auth; lia|constructor]].
    revert F. apply Forall_impl. unfold hexcolon, hex_digit, auth. intros c H. lia.
  - revert F. apply Forall_impl. intros c H. apply (url_char_auth _ _ H); notin.
Qed.
Lemma host_unique h cs b bs e h' cs' b' bs' e' : host h cs -> host h' cs' -> back b bs -> back b' bs' -> eol e -> eol e' ->
  h ++ b ++ e = h' ++ b' ++ e' -> h = h'.
Proof.
  intros H H' B B' E E' Q. apply host_shape in H as [(a & Na & Fa & ->)|(Nh & Fh)]; apply host_shape in H' as [(a' & Na' & Fa' & ->)|(Nh' & Fh')].
  - cbn in Q. injection Q as Q. rewrite <- !app_assoc in Q.
    assert (S : forall r, stop hexcolon ([93] ++ r)) by (intros r; cbn; unfold hexcolon, hex_digit; lia).
    destruct (split_at hexcolon _ _ _ _ Fa Fa' (S _) (S _) Q) as [-> _]. reflexivity.
  - destruct h' as [|c h']; [congruence|]. cbn in Q. injection Q as <- _. apply Forall_cons_iff in Fh' as [Hc _]. exfalso. revert Hc. apply url_char_not; [cbn; tauto|notin].
  - destruct h as [|c h]; [congruence|]. cbn in Q. injection Q as -> _. apply Forall_cons_iff in Fh as [Hc _]. exfalso. revert Hc. apply url_char_not; [cbn; tauto|notin].
  - apply (split_at name_class) in Q as [-> _]; auto.
    + eapply back_stop; [exact B|exact E|..]; try (apply url_char_not; [cbn; tauto|notin]). unfold name_class, url_char. lia.
    + eapply back_stop; [exact B'|exact E'|..]; try (apply url_char_not; [cbn; tauto|notin]). unfold name_class, url_char. lia.
Qed.
Lemma auth_stop b bs e : back b bs -> eol e -> exists p r, b ++ e = p ++ r /\ Forall auth p /\ stop (fun c => auth c \/ c = 64) r.
Proof.
  intros (po & pa & qu & fr & Hp & _ & _ & _ & -> & _) E.
  exists (opt_text (cons 58) po), (opt_text (cons 47) pa ++ opt_text (cons 63) qu ++ opt_text (cons 35) fr ++ e).
  split; [now rewrite <- !app_assoc|]. split.
  - destruct po as [x|]; cbn in *; [|constructor]. constructor; [unfold auth; lia|]. destruct Hp as [_ F]. revert F.
    apply Forall_impl. unfold dec_digit, auth. lia.
  - destruct pa, qu, fr; cbn; unfold auth; try lia. destruct E as [->| ->]; cbn; [auto|lia].
Qed.
(** No user can be found where there is none. *)
Lemma no_user x h cs b bs e r : Forall user_class x -> host h cs -> back b bs -> eol e -> x ++ 64 :: r = h ++ b ++ e -> False.
Proof.
  intros Fx H B E Q. destruct (auth_stop _ _ _ B E) as (p & t & Eq & Fp & St). rewrite Eq, app_assoc in Q.
  apply (split_at auth) in Q as [_ Q].
  - rewrite <- Q in St. cbn in St. unfold auth in St. lia.
  - now apply user_auth.
  - apply Forall_app. split; [now apply (host_auth _ _ H)|exact Fp].
  - cbn. unfold auth. lia.
  - destruct t as [|c t]; [exact I|]. cbn in *. tauto.
Qed.
Lemma front_unique w cs w' cs' h hs b bs e h' hs' b' bs' e' :
  front w cs -> front w' cs' -> host h hs -> host h' hs' -> back b bs -> back b' bs' -> eol e -> eol e' ->
  w ++ h ++ b ++ e = w' ++ h' ++ b' ++ e' -> w = w' /\ cs = cs'.
Proof.
  intros (sc & us & Ns & Fs & Hu & -> & ->) (sc' & us' & Ns' & Fs' & Hu' & -> & ->) H H' B B' E E' Q.
  rewrite <- !app_assoc in Q. cbn [app] in Q.
  assert (~ scheme_class 58) as NS by (unfold scheme_class, letter, dec_digit; cbn; lia).
  apply (split_at scheme_class) in Q as [-> Q]; auto. injection Q as Q.
  enough (us = us') by (subst; auto).
  destruct us as [x|], us' as [x'|]; cbn [opt_text opt_all] in *; rewrite <- ?app_assoc in Q; cbn [app] in Q.
  - assert (~ user_class 64) as NU by (apply url_char_not; [cbn; tauto|notin]).
    apply (split_at user_class) in Q as [-> _]; auto; apply Hu || apply Hu'.
  - exfalso. eapply no_user; [apply Hu|exact H'|exact B'|exact E'|exact Q].
  - exfalso. eapply no_user; [apply Hu'|exact H|exact B|exact E|symmetry; exact Q].
  - reflexivity.
Qed.

(** ** Matching *)
Definition st0 (s : pstr) : rstate := RState None s [].
Definition done (s : rstate) : list rstate := ends (RSeq url_back REol) s.
Lemma regex_ends s : ends url_regex (st0 s) = flat_map (fun p => flat_map done (ends url_host p)) (ends url_front (st0 s)).
Proof. unfold url_regex, st0. rewrite bol_start. reflexivity. Qed.
Lemma done_iff m s : In s (done m) <-> exists b bs e, back b bs /\ eol e /\ rs_rest m = b ++ e /\ s = RState (last_of (rs_prev m) b) e (bs ++ rs_caps m).
Proof.
  unfold done. cbn [ends]. rewrite in_flat_map. split.
  - intros (x & H & K). apply back_ok in H as (b & bs & Hb & H1 & H2 & H3). destruct (at_eol (rs_rest x)) eqn:E; [|destruct K].
    destruct K as [<-|[]]. exists b, bs, (rs_rest x). apply at_eol_iff in E. split; [exact Hb|]. split; [exact E|]. split; [exact H1|].
    destruct x; cbn in *. now subst.
  - intros (b & bs & e & Hb & He & H1 & ->). exists (RState (last_of (rs_prev m) b) e (bs ++ rs_caps m)). split.
    + apply back_ok. exists b, bs. split; [exact Hb|]. unfold advance_c. cbn. auto.
    + cbn. assert (E : at_eol e = true) by (apply at_eol_iff; exact He). rewrite E. now left.
Qed.
(** A result of the match. *)
Definition result (s : pstr) (w h : pstr) (cs hs bs : caps) : Prop :=
  exists b e, front w cs /\ host h hs /\ back b bs /\ eol e /\ s = w ++ h ++ b ++ e.
Lemma first_flat_map {A B} (f : A -> list B) l x : hd_error (flat_map f l) = Some x -> exists y, In y l /\ hd_error (f y) = Some x.
Proof.
  induction l as [|a l IH]; cbn; [discriminate|]. destruct (f a) as [|z r] eqn:E; cbn.
  - intros H. apply IH in H as (y & Hy & H). eauto.
  - intros [= ->]. exists a. rewrite E. auto.
Qed.
Lemma hd_in {A} (l : list A) x : hd_error l = Some x -> In x l.
Proof. destruct l; [discriminate|]. intros [= ->]. now left. Qed.
(** The groups of the match: there is a result with them, and it has host4 if any has. *)
Lemma match_caps s c : re_match url_regex s = Some c ->
  exists w h cs hs bs, result s w h cs hs bs /\ c = bs ++ hs ++ cs /\
    (forall w' h' cs' hs' bs', result s w' h' cs' hs' bs' -> ipv4_text h' -> hs = [(g_host4, h)]).
Proof.
  unfold re_match. fold (st0 s). rewrite regex_ends. set (L := flat_map _ _).
  intros Hc. assert (E : exists st, hd_error L = Some st /\ rs_caps st = c).
  { destruct L as [|st r]; [discriminate|]. injection Hc as <-. exists st. auto. }
  destruct E as (st & E & <-). clear Hc. unfold L in E. clear L.
  apply first_flat_map in E as (p & Hp & E). apply front_ok in Hp as (w & cs & Fw & P1 & P2 & P3). cbn in P1, P2, P3. rewrite app_nil_r in P3.
  assert (F : exists m h hs, host h hs /\ advance_c p h hs m /\ In st (done m)).
  { pose proof (hd_in _ _ E) as I. apply in_flat_map in I as (m & Hm & I). apply host_ok in Hm as (h & hs & Hh & M). eauto 6. }
  destruct F as (m & h & hs & Hh & (M1 & M2 & M3) & I). apply done_iff in I as (b & bs & e & Hb & He & Hr & ->).
  exists w, h, cs, hs, bs. split; [|split].
  - exists b, e. repeat split; auto. rewrite P1, M1, Hr. reflexivity.
  - cbn. rewrite M3, P3. reflexivity.
  - intros w' h' cs' hs' bs' (b' & e' & Fw' & Hh' & Hb' & He' & S') V.
    assert (Q : w ++ h ++ b ++ e = w' ++ h' ++ b' ++ e') by (rewrite <- S', P1, M1, Hr; reflexivity).
    destruct (front_unique _ _ _ _ _ _ _ _ _ _ _ _ _ _ Fw Fw' Hh Hh' Hb Hb' He He' Q) as [<- <-].
    apply app_inv_head in Q. pose proof (host_unique _ _ _ _ _ _ _ _ _ _ Hh Hh' Hb Hb' He He' Q) as <-.
    apply app_inv_head in Q.
    assert (Four : In (RState (last_of (rs_prev p) h) (b ++ e) ([(g_host4, h)] ++ rs_caps p)) (ends (RGroup g_host4 ipv4) p)).
    { apply (cgroup_plain g_host4 _ _ ipv4_ok). exists h, [(g_host4, h)]. split; [auto|]. unfold advance_c. cbn. rewrite M1, Hr. auto. }
    change (ends url_host p) with (ends (RSeq (rc 91) (RSeq (RGroup g_host6 p_host6) (rc 93))) p ++ ends (RGroup g_host4 ipv4) p ++ ends (RGroup g_hostn p_hostn) p) in E.
    rewrite !flat_map_app in E.
    remember (flat_map done (ends (RSeq _ _) p)) as E6 eqn:D6. remember (flat_map done (ends (RGroup g_host4 ipv4) p)) as E4 eqn:D4.
    assert (E4 <> []) as N4.
    { intros Z. assert (K : In (RState (last_of (last_of (rs_prev p) h) b) e (bs ++ [(g_host4, h)] ++ rs_caps p)) E4); [|rewrite Z in K; destruct K].
      rewrite D4. apply in_flat_map. eexists. split; [exact Four|]. apply done_iff. exists b, bs, e. auto. }
    assert (K : In (RState (last_of (rs_prev m) b) e (bs ++ rs_caps m)) (E6 ++ E4)).
    { apply hd_in. destruct E6; [|exact E]. cbn in E |- *. destruct E4; [congruence|exact E]. }
    apply in_app_iff in K as [K|K].
    + exfalso. rewrite D6 in K. apply in_flat_map in K as (m' & Hm' & _).
      apply host6_ok in Hm' as (h6 & cs6 & (a & Na & Fa & -> & ->) & A1 & _).
      rewrite M1 in A1. apply ipv4_chars in V as (Nv & Fv). destruct h as [|x h]; [congruence|]. cbn in A1. injection A1 as -> _.
      apply Forall_cons_iff in Fv as [Hx _]. unfold dec_digit in Hx. lia.
    + rewrite D4 in K. apply in_flat_map in K as (m' & Hm' & K). apply (cgroup_plain g_host4 _ _ ipv4_ok) in Hm' as (h4 & cs4 & (V4 & ->) & A1 & A2 & A3).
      apply done_iff in K as (b4 & bs4 & e4 & Hb4 & He4 & R4 & K). injection K as _ <- K.
      rewrite M3, A3 in K.
      assert (h4 = h).
      { symmetry. eapply host_unique; [exact Hh|right; left; split; [exact V4|reflexivity]|exact Hb|exact Hb4|exact He|exact He4|].
        rewrite <- Hr, <- M1, A1, R4. reflexivity. }
      subst h4.
      assert (b4 = b) by (rewrite A1, R4 in M1; rewrite Hr in M1; apply app_inv_head, app_inv_tail in M1; congruence).
      subst b4. destruct Hh as [(a & Na & Fa & Eh & ->)|[(_ & ->)|(Nh & Fh & ->)]]; [|reflexivity|].
      * exfalso. subst h. apply ipv4_chars in V as (_ & Fv). apply Forall_cons_iff in Fv as [Hx _]. unfold dec_digit in Hx. lia.
      * exfalso. cbn in K. apply (f_equal (@rev _)) in K. rewrite !rev_app_distr in K. cbn [rev app] in K.
        rewrite <- !app_assoc in K. apply app_inv_head in K. cbn in K. discriminate K.
Qed.
Lemma matches_some s w h cs hs bs : result s w h cs hs bs -> exists c, re_match url_regex s = Some c.
Proof.
  intros (b & e & Fw & Hh & Hb & He & ->). unfold re_match. fold (st0 (w ++ h ++ b ++ e)). rewrite regex_ends.
  destruct (flat_map _ _) as [|st r] eqn:E; [|eauto]. exfalso.
  enough (K : exists st, In st (flat_map (fun p => flat_map done (ends url_host p)) (ends url_front (st0 (w ++ h ++ b ++ e))))) by (destruct K as (st & K); rewrite E in K; destruct K).
  set (p := RState (last_of None w) (h ++ b ++ e) cs). set (m := RState (last_of (rs_prev p) h) (b ++ e) (hs ++ cs)).
  exists (RState (last_of (rs_prev m) b) e (bs ++ hs ++ cs)). apply in_flat_map. exists p. split.
  - apply front_ok. exists w, cs. split; [exact Fw|]. unfold advance_c. cbn. rewrite app_nil_r. auto.
  - apply in_flat_map. exists m. split; [apply host_ok; exists h, hs; split; [exact Hh|]; unfold advance_c; cbn; auto|].
    apply done_iff. exists b, bs, e. cbn. auto.
Qed.
