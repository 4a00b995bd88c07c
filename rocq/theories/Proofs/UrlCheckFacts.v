(** URLs that are retrieved. *)
From Coq Require Import Lia.
From Verif.Model Require Import Py Core Text Types Regex Net Url UrlCheck.
From Verif.Spec Require Import NetSpec UrlSpec UrlCheckSpec.
From Verif.Proofs Require Import NetWitness EqLemmas RegexLemmas NetLemmas MacEmail UrlLemmas UrlValid.
Local Open Scope N_scope.
Local Open Scope list_scope.

(** ** The parts after the host are determined *)
Lemma opt_split (P : N -> Prop) sep o o' r r' : opt_all (Forall P) o -> opt_all (Forall P) o' ->
  stop (fun c => P c \/ c = sep) r -> stop (fun c => P c \/ c = sep) r' ->
  opt_text (cons sep) o ++ r = opt_text (cons sep) o' ++ r' -> o = o' /\ r = r'.
Proof.
  assert (W : forall x, stop (fun c => P c \/ c = sep) x -> stop P x) by (intros [|c x]; cbn; tauto).
  destruct o as [x|], o' as [x'|]; cbn [opt_all opt_text app]; intros F F' S S' E.
  - injection E as E. apply (split_at P) in E as [-> ->]; auto.
  - subst r'. cbn in S'. tauto.
  - subst r. cbn in S. tauto.
  - auto.
Qed.
Definition tail_of (qu fr : option pstr) : pstr := opt_text (cons 63) qu ++ opt_text (cons 35) fr.
Lemma tail_split qu fr e qu' fr' e' :
  opt_all (Forall (url_char (u "!$&'()*+,;=-_.~%:@/?[]"))) qu -> opt_all (Forall (url_char (u "!$&'()*+,;=-_.~%:@/?[]"))) qu' ->
  opt_all (Forall (url_char (u "!$&'()*+,;=-_.~%:@/?"))) fr -> opt_all (Forall (url_char (u "!$&'()*+,;=-_.~%:@/?"))) fr' -> eol e -> eol e' ->
  opt_text (cons 63) qu ++ opt_text (cons 35) fr ++ e = opt_text (cons 63) qu' ++ opt_text (cons 35) fr' ++ e' -> qu = qu' /\ fr = fr' /\ e = e'.
Proof.
  intros Q Q' F F' E E' K.
  assert (N10 : forall l, ~ url_char l 10) by (intros l [H _]; lia).
  assert (N35 : ~ url_char (u "!$&'()*+,;=-_.~%:@/?[]") 35) by (apply url_char_not; [cbn; tauto|notin]).
  assert (S : forall (f : option pstr) x, eol x -> stop (fun c => url_char (u "!$&'()*+,;=-_.~%:@/?[]") c \/ c = 63) (opt_text (cons 35) f ++ x)).
  { intros [f|] x [->| ->]; cbn; try tauto; intros [H|H]; try lia; [exact (N35 H)|exact (N35 H)|exact (N10 _ H)]. }
  apply (opt_split (url_char (u "!$&'()*+,;=-_.~%:@/?[]"))) in K as [-> K]; auto.
  apply (opt_split (url_char (u "!$&'()*+,;=-_.~%:@/?"))) in K as [-> ->]; auto.
  - destruct E as [->| ->]; cbn; [exact I|]. intros [H|H]; [exact (N10 _ H)|lia].
  - destruct E' as [->| ->]; cbn; [exact I|]. intros [H|H]; [exact (N10 _ H)|lia].
Qed.
Lemma back_unique b bs e b' bs' e' : back b bs -> back b' bs' -> eol e -> eol e' -> b ++ e = b' ++ e' -> bs = bs' /\ b = b'.
Proof.
  intros (po & pa & qu & fr & P & A & Q & F & -> & ->) (po' & pa' & qu' & fr' & P' & A' & Q' & F' & -> & ->) E E' K.
  rewrite <- !app_assoc in K.
  assert (N10 : forall l, ~ url_char l 10) by (intros l [H _]; lia).
  assert (T : forall (q f : option pstr) x, eol x -> opt_text (cons 63) q ++ opt_text (cons 35) f ++ x = [] \/
      exists c r, opt_text (cons 63) q ++ opt_text (cons 35) f ++ x = c :: r /\ (c = 63 \/ c = 35 \/ c = 10)).
  { intros [q|] [f|] x [->| ->]; cbn; eauto 10. }
  assert (NP : forall c, c = 63 \/ c = 35 \/ c = 10 -> ~ url_char (u "!$&'()*+,;=-_.~%:@/") c).
  { intros c [->|[->| ->]]; [apply url_char_not; [cbn; tauto|notin]|apply url_char_not; [cbn; tauto|notin]|apply N10]. }
  assert (SA : forall (q f : option pstr) x, eol x -> stop (fun c => url_char (u "!$&'()*+,;=-_.~%:@/") c \/ c = 47) (opt_text (cons 63) q ++ opt_text (cons 35) f ++ x)).
  { intros q f x H. destruct (T q f x H) as [->|(c & r & -> & C)]; cbn; [exact I|]. intros [K'|K']; [exact (NP c C K')|lia]. }
  assert (SD : forall (a q f : option pstr) x, eol x -> stop (fun c => dec_digit c \/ c = 58) (opt_text (cons 47) a ++ opt_text (cons 63) q ++ opt_text (cons 35) f ++ x)).
  { intros [a|] q f x H; [cbn; unfold dec_digit; lia|]. cbn [opt_text app]. destruct (T q f x H) as [->|(c & r & -> & C)]; cbn; [exact I|unfold dec_digit; lia]. }
  apply (opt_split dec_digit) in K as [-> K]; [|destruct po; cbn in *; tauto|destruct po'; cbn in *; tauto|now apply SD|now apply SD].
  apply (opt_split (url_char (u "!$&'()*+,;=-_.~%:@/"))) in K as [-> K]; auto.
  apply tail_split in K as (-> & -> & _); auto.
Qed.

(** ** What is matched *)
Lemma find_skip bs r n : (forall k v, In (k, v) bs -> k <> n) -> group n (bs ++ r) = group n r.
Proof.
  unfold group. induction bs as [|[k v] bs IH]; intros H; [reflexivity|]. cbn. destruct (Nat.eqb_spec k n) as [E|E].
  - exfalso. eapply H; [now left|exact E].
  - apply IH. intros k' v' I. apply (H k' v'). now right.
Qed.
Lemma caps_of idna fqdn p s : acceptable idna fqdn p -> s = url_of p \/ s = url_of p ++ [10] ->
  exists caps hs, re_match url_regex s = Some caps /\ host (up_host p) hs /\
    (forall n, (2 <= n <= 4)%nat -> group n caps = group n hs) /\
    group g_scheme caps = Some (up_scheme p) /\ group g_port caps = up_port p /\ group g_path caps = option_map (cons 47) (up_path p) /\
    group g_query caps = up_query p /\ group g_frag caps = up_frag p.
Proof.
  destruct p as [sc us h po pa qu fr]. unfold acceptable. cbn [up_scheme up_user up_host up_port up_path up_query up_frag]. intros (Sc & Hu & Hh & H1 & H2 & H3 & H4) Es. destruct (scheme_chars _ Sc) as [Ns Fs].
  set (w := sc ++ 58 :: 47 :: 47 :: opt_text (fun x => x ++ [64]) us).
  set (b := opt_text (cons 58) po ++ opt_text (cons 47) pa ++ opt_text (cons 63) qu ++ opt_text (cons 35) fr).
  assert (E : exists e, eol e /\ s = w ++ h ++ b ++ e).
  { assert (W : url_of (UP sc us h po pa qu fr) = w ++ h ++ b) by (unfold w, b, url_of; cbn; rewrite <- app_assoc; reflexivity).
    rewrite W in Es. destruct Es as [->| ->].
    - exists []. rewrite app_nil_r. split; [now left|reflexivity].
    - exists [10]. split; [now right|]. now rewrite <- !app_assoc. }
  destruct E as (e & He & Ew).
  set (cs := match us with Some x => [(g_user, x)] | None => [] end ++ [(g_scheme, sc)]).
  assert (Fw : front w cs) by (exists sc, us; auto).
  set (bs := match fr with Some x => [(g_frag, x)] | None => [] end ++ match qu with Some x => [(g_query, x)] | None => [] end ++
         match pa with Some x => [(g_path, 47 :: x)] | None => [] end ++ match po with Some x => [(g_port, x)] | None => [] end).
  assert (Hb : back b bs) by (exists po, pa, qu, fr; auto 10).
  assert (Hh' : exists hs, host h hs).
  { destruct Hh as [(a & Ha & Fa & ->)|[Q|(Nh & Fh & _)]].
    - eexists. left. exists a. split; [now apply ipv6_nonempty|]. auto.
    - eexists. right. left. auto.
    - eexists. right. right. auto. }
  destruct Hh' as [hs Hh'].
  assert (R : result s w h cs hs bs) by (exists b, e; auto).
  destruct (matches_some _ _ _ _ _ _ R) as [c Ec]. exists c.
  pose proof Ec as Ec'. apply match_caps in Ec' as (w2 & h2 & cs2 & hs2 & bs2 & R2 & -> & _).
  destruct R2 as (b2 & e2 & Fw2 & Hh2 & Hb2 & He2 & Es2).
  assert (Q : w ++ h ++ b ++ e = w2 ++ h2 ++ b2 ++ e2) by congruence.
  destruct (front_unique _ _ _ _ _ _ _ _ _ _ _ _ _ _ Fw Fw2 Hh' Hh2 Hb Hb2 He He2 Q) as [Ww Wc]. rewrite <- Ww in Q, Fw2. rewrite <- Wc in *.
  apply app_inv_head in Q. pose proof (host_unique _ _ _ _ _ _ _ _ _ _ Hh' Hh2 Hb Hb2 He He2 Q) as <-.
  apply app_inv_head in Q. destruct (back_unique _ _ _ _ _ _ Hb Hb2 He He2 Q) as [Bb _]. rewrite <- Bb in *.
  exists hs2. split; [exact Ec|]. split; [exact Hh2|].
  assert (HK : forall k v, In (k, v) hs2 -> (2 <= k <= 4)%nat).
  { intros k v I. destruct Hh2 as [(a & _ & _ & _ & ->)|[(_ & ->)|(_ & _ & ->)]]; destruct I as [I|[]]; injection I as <- _; cbv; lia. }
  split; [intros n Hn; apply (group_host _ _ _ _ _ Fw Hb Hn)|].
  assert (G : forall n, (n < 2)%nat -> group n (bs ++ hs2 ++ cs) = group n cs).
  { intros n Hn. rewrite (skip_back _ _ _ Hb) by lia. apply find_skip. intros k v I. apply HK in I. lia. }
  assert (T : forall n, (5 <= n)%nat -> group n (hs2 ++ cs) = None).
  { intros n Hn. rewrite find_skip by (intros k v I; apply HK in I; lia). unfold cs, group, g_user, g_scheme. destruct us; cbn;
    do 2 (destruct n as [|n]; [lia|]); reflexivity. }
  split; [rewrite G by (cbv; lia); unfold cs; destruct us; reflexivity|].
  assert (T5 := T 5%nat). assert (T6 := T 6%nat). assert (T7 := T 7%nat). assert (T8 := T 8%nat). unfold group in T5, T6, T7, T8.
  unfold bs, group, g_port, g_path, g_query, g_frag.
  repeat split; destruct fr, qu, pa, po; cbn; try reflexivity; first [apply T5|apply T6|apply T7|apply T8]; lia.
Qed.

(** ** The host *)
Lemma ipv4_last h : ipv4_text h -> last h 0 <> 46.
Proof.
  intros (a & b & c & d & _ & _ & _ & (Ld & Fd & _) & ->). destruct (exists_last (l := d)) as (r & x & ->); [intros ->; cbn in Ld; lia|].
  replace (a ++ 46 :: b ++ 46 :: c ++ 46 :: r ++ [x]) with ((a ++ 46 :: b ++ 46 :: c ++ 46 :: r) ++ [x]) by (rewrite <- !app_assoc; cbn; now rewrite <- !app_assoc; cbn; rewrite <- !app_assoc).
  rewrite last_last. apply Forall_app in Fd as [_ Fd]. apply Forall_cons_iff in Fd as [Fd _]. unfold dec_digit in Fd. lia.
Qed.
Lemma strip_dot m n : (m = n ++ [46] \/ m = n /\ last n 0 <> 46) <-> ((last m 0 = 46 -> m <> []) /\ n = strip_last m).
Proof.
  unfold strip_last. split.
  - intros [->|[-> H]].
    + rewrite last_last, N.eqb_refl, removelast_last. split; [intros _ K; apply app_eq_nil in K as [_ K]; discriminate|reflexivity].
    + rewrite (proj2 (N.eqb_neq _ _) H). split; [tauto|reflexivity].
  - intros [Hm ->]. destruct (N.eqb_spec (last m 0) 46) as [E|E]; [left|right; auto].
    rewrite <- E. apply app_removelast_last. now apply Hm.
Qed.
Lemma strip_dot_ok m : last m 0 = 46 -> m <> [].
Proof. intros H ->. discriminate H. Qed.
Lemma enc_of idna h m : ascii_form idna h m -> hostn_enc idna h = strip_last m.
Proof.
  unfold hostn_enc. intros [[F ->]|[F E]].
  - now rewrite (proj2 (ascii_iff h) F).
  - destruct (forallb (fun c => c <? 128) h) eqn:A; [apply ascii_iff in A; tauto|]. now rewrite E.
Qed.
Lemma sent_exists idna fqdn h : url_host_text idna fqdn h -> exists n, sent_host idna h n.
Proof.
  intros [(a & _ & _ & ->)|[Q|(Nh & Fh & m & A & _)]].
  - exists a. now left.
  - exists (strip_last h). right. pose proof (ipv4_chars _ Q) as [N F]. split.
    + destruct h as [|c h]; [congruence|]. apply Forall_cons_iff in F as [F _]. cbn. unfold dec_digit in F. lia.
    + exists h. split; [left; split; [|reflexivity]|]. { eapply Forall_impl; [|exact F]. cbn. unfold dec_digit. lia. }
      apply strip_dot. split; [apply strip_dot_ok|reflexivity].
  - exists (strip_last m). right. split.
    + destruct h as [|c h]; [congruence|]. apply Forall_cons_iff in Fh as [Fh _]. cbn. intros ->. revert Fh. apply url_char_not; [cbn; tauto|notin].
    + exists m. split; [exact A|]. apply strip_dot. split; [apply strip_dot_ok|reflexivity].
Qed.
Lemma sent_unique idna h n n' : sent_host idna h n -> sent_host idna h n' -> n = n'.
Proof.
  intros [->|(H & m & A & M)] [E|(H' & m' & A' & M')].
  - injection E as E. now apply app_inj_tail in E as [-> _].
  - now cbn in H'.
  - subst h. now cbn in H.
  - assert (m = m') as <- by (destruct A as [[? ->]|[? ?]], A' as [[? ->]|[? ?]]; try tauto; congruence).
    apply strip_dot in M as [_ ->]. apply strip_dot in M' as [_ ->]. reflexivity.
Qed.
Lemma host_sent idna h hs caps n : host h hs -> (forall k, (2 <= k <= 4)%nat -> group k caps = group k hs) -> sent_host idna h n -> host_of idna caps = n.
Proof.
  intros H G S. unfold host_of. rewrite !G by (cbv; lia). destruct H as [(a & Na & Fa & -> & ->)|[(Q & ->)|(Nh & Fh & ->)]].
  - destruct a as [|x a]; [congruence|]. cbn. destruct S as [S|(S & _)]; [|now cbn in S]. injection S as S. apply (app_inj_tail (x :: a)) in S as [<- _]. reflexivity.
  - pose proof (ipv4_chars _ Q) as [N F]. destruct h as [|x h]; [congruence|]. cbn. destruct S as [S|(S & m & A & M)].
    + injection S as -> _. apply Forall_cons_iff in F as [F _]. unfold dec_digit in F. lia.
    + destruct A as [[_ ->]|[A _]].
      * apply strip_dot in M as [_ ->]. unfold strip_last. now rewrite (proj2 (N.eqb_neq _ _) (ipv4_last _ Q)).
      * exfalso. apply A. eapply Forall_impl; [|exact F]. cbn. unfold dec_digit. lia.
  - cbn. destruct S as [->|(S & m & A & M)].
    + apply Forall_cons_iff in Fh as [Fh _]. exfalso. revert Fh. apply url_char_not; [cbn; tauto|notin].
    + rewrite (enc_of _ _ _ A). now apply strip_dot in M as [_ ->].
Qed.

(** ** Quoting *)
Lemma kept_iff c : kept c = true <-> request_char c.
Proof.
  unfold kept, request_char. rewrite !orb_true_iff, !in_range_iff, dig_iff, chr_in_iff. change valid_chars with (u ":/?#[]@!$&'()*+,;=-_.~%"). tauto.
Qed.
Lemma upper_hex_ok i : i < 16 -> nth_error (u "0123456789ABCDEF") (N.to_nat i) = Some (upper_hex i).
Proof.
  intros H. assert (E : In i [0;1;2;3;4;5;6;7;8;9;10;11;12;13;14;15]) by (cbn; lia).
  repeat destruct E as [<-|E]; try reflexivity. destruct E.
Qed.
Lemma quote_ok b : Forall (fun c => c < 256) b -> quoted b (flat_map quote_byte b).
Proof.
  induction 1 as [|c b H _ IH]; [constructor|]. cbn [flat_map]. unfold quote_byte at 1. destruct (kept c) eqn:K.
  - cbn [app]. constructor; [now apply kept_iff|exact IH].
  - cbn [app]. apply qt_byte; [rewrite <- kept_iff; congruence| |exact IH].
    exists (c / 16), (c mod 16). split; [apply N.div_mod; lia|]. assert (c / 16 < 16) by (apply N.div_lt_upper_bound; lia). assert (c mod 16 < 16) by (apply N.mod_lt; lia).
    repeat split; auto; apply upper_hex_ok; assumption.
Qed.
Lemma quoted_unique b t t' : quoted b t -> quoted b t' -> t = t'.
Proof.
  intros H. revert t'. induction H as [|c b t R _ IH|c x y b t R P _ IH]; intros t' K; inversion K as [|c' b' t0 R' K' E1 E2|c' x' y' b' t0 R' P' K' E1 E2]; subst; try tauto.
  - f_equal. now apply IH.
  - destruct P as (i & j & E & Hi & Hj & X & Y), P' as (i' & j' & E' & Hi' & Hj' & X' & Y').
    assert (i = i') by lia. assert (j = j') by lia. subst. replace x' with x by congruence. replace y' with y by congruence. do 3 f_equal. now apply IH.
Qed.
Lemma some_inj {A} (x y : A) : Some x = Some y -> x = y.
Proof. now intros [= ->]. Qed.
Lemma utf8_bytes s : forall b, utf8_encode s = Some b -> Forall (fun c => c < 256) b.
Proof.
  assert (D : forall a k, k < 256 -> forall m, a < m * (256 - k) -> m <> 0 -> k + a / m < 256).
  { intros a k Hk m Ha Hm. assert (a / m < 256 - k) by (apply N.div_lt_upper_bound; lia). lia. }
  assert (M : forall a, 128 + a mod 64 < 256) by (intros a; pose proof (N.mod_lt a 64); lia).
  induction s as [|c s IH]; intros b; cbn [utf8_encode]; [intros [= <-]; constructor|].
  destruct (utf8_char c) as [a|] eqn:E; [|discriminate]. destruct (utf8_encode s) as [r|]; [|discriminate]. intros [= <-].
  apply Forall_app. split; [|now apply IH]. unfold utf8_char in E.
  destruct (N.ltb_spec c 128); [injection E as <-; constructor; [lia|constructor]|].
  destruct (N.ltb_spec c 2048); [apply some_inj in E as <-; repeat (apply Forall_cons; [first [apply M|apply D; lia]|]); apply Forall_nil|].
  destruct (N.ltb_spec c 65536); [destruct ((55296 <=? c) && (c <? 57344)); [discriminate|]; apply some_inj in E as <-; repeat (apply Forall_cons; [first [apply M|apply D; lia]|]); apply Forall_nil|].
  destruct (N.ltb_spec c 1114112); [|discriminate]. apply some_inj in E as <-; repeat (apply Forall_cons; [first [apply M|apply D; lia]|]); apply Forall_nil.
Qed.

(** ** The theorems *)
Theorem one_host idna fqdn p : acceptable idna fqdn p -> exists n, sent_host idna (up_host p) n /\ forall n', sent_host idna (up_host p) n' -> n' = n.
Proof.
  intros A. destruct (sent_exists idna fqdn (up_host p)) as [n S]; [apply A|]. exists n. split; [exact S|]. intros n' S'. eapply sent_unique; eauto.
Qed.
Theorem one_quoting b : Forall (fun c => c < 256) b -> exists t, quoted b t /\ (forall t', quoted b t' -> t' = t) /\ Forall request_char t.
Proof.
  assert (H : forall i x, nth_error (u "0123456789ABCDEF") i = Some x -> request_char x).
  { intros i x E. apply nth_error_In in E. unfold request_char, dec_digit. cbn in E. lia. }
  intros F. exists (flat_map quote_byte b). pose proof (quote_ok b F) as Q. split; [exact Q|]. split; [intros t' K; eapply quoted_unique; eauto|].
  clear F. induction Q as [|c b t R _ IH|c x y b t _ (i & j & _ & _ & _ & X & Y) _ IH]; constructor; auto.
  - unfold request_char. cbn. lia.
  - constructor; [eapply H; exact X|]. constructor; [eapply H; exact Y|exact IH].
Qed.
Lemma part_unless sep o : part sep o = unless_empty sep o.
Proof. destruct o as [[|c l]|]; reflexivity. Qed.
Lemma acceptable_line idna fqdn p s : acceptable idna fqdn p -> s = url_of p \/ s = url_of p ++ [10] -> line (url_text idna fqdn) s.
Proof.
  intros (A & B & C & D & E & F & G) H. exists (url_of p). split; [|exact H].
  exists (up_scheme p), (up_user p), (up_host p), (up_port p), (up_path p), (up_query p), (up_frag p). repeat split; auto.
Qed.
Theorem every_url idna fqdn s : (forall h n, idna h = Some n -> ~ In 10 n) ->
  validate_url idna fqdn (VStr s) = None <-> exists p, acceptable idna fqdn p /\ (s = url_of p \/ s = url_of p ++ [10]).
Proof.
  intros HI. rewrite url_validates by exact HI. split.
  - intros (t & (sc & us & h & po & pa & qu & fr & A & B & C & D & E & F & G & ->) & H).
    exists (UP sc us h po pa qu fr). split; [repeat split; assumption|exact H].
  - intros (p & A & H). eapply acceptable_line; eauto.
Qed.
Theorem no_request idna fqdn open v e : validate_url idna fqdn v = Some e -> verify_url idna fqdn open v = ([], Some e).
Proof. intros H. unfold verify_url. now rewrite H. Qed.
Theorem without_path idna fqdn open p s : (forall h n, idna h = Some n -> ~ In 10 n) -> acceptable idna fqdn p -> up_path p = None ->
  s = url_of p \/ s = url_of p ++ [10] -> verify_url idna fqdn open (VStr s) = ([], Some (XPy ETypeError)).
Proof.
  intros HI A N E. unfold verify_url. rewrite (proj2 (url_validates idna fqdn s HI) (acceptable_line _ _ _ _ A E)).
  destruct (caps_of _ _ _ _ A E) as (caps & hs & -> & _ & _ & _ & _ & P & _). unfold url_string, unsplit. rewrite P, N. reflexivity.
Qed.
Theorem with_path idna fqdn open p s pa n : (forall h n, idna h = Some n -> ~ In 10 n) -> acceptable idna fqdn p -> up_path p = Some pa -> sent_host idna (up_host p) n ->
  s = url_of p \/ s = url_of p ++ [10] ->
  match utf8_encode (request_for p n pa) with
  | None => verify_url idna fqdn open (VStr s) = ([], Some (XPy EValueError))
  | Some b => exists t, quoted b t /\ verify_url idna fqdn open (VStr s) =
      ([t], match open t with Opened => None | Refused => Some (XValid true [u "not_found"]) | Failed e => Some e end)
  end.
Proof.
  intros HI A N S E. unfold verify_url. rewrite (proj2 (url_validates idna fqdn s HI) (acceptable_line _ _ _ _ A E)).
  destruct (caps_of _ _ _ _ A E) as (caps & hs & -> & Hh & G & Sc & Po & P & Q & F). unfold url_string, unsplit.
  rewrite P, N, Sc, Po, Q, F, (host_sent _ _ _ _ _ Hh G S), !part_unless. cbn [option_map rbind].
  replace (up_scheme p ++ u "://" ++ n ++ 58 :: match up_port p with Some x => x | None => [] end ++ (47 :: pa) ++ unless_empty 63 (up_query p) ++ unless_empty 35 (up_frag p))
    with (request_for p n pa) by (unfold request_for; destruct (up_port p); reflexivity).
  destruct (utf8_encode (request_for p n pa)) as [b|] eqn:U; [|reflexivity]. exists (flat_map quote_byte b). split; [|reflexivity].
  apply quote_ok. eapply utf8_bytes. exact U.
Qed.
Theorem user_dropped idna fqdn open p us : (forall h n, idna h = Some n -> ~ In 10 n) -> acceptable idna fqdn p -> acceptable idna fqdn (with_user p us) ->
  verify_url idna fqdn open (VStr (url_of (with_user p us))) = verify_url idna fqdn open (VStr (url_of p)).
Proof.
  intros HI A B. destruct (up_path p) as [pa|] eqn:P.
  - destruct (sent_exists idna fqdn (up_host p)) as [n S]; [apply A|].
    pose proof (with_path idna fqdn open p (url_of p) pa n HI A P S (or_introl eq_refl)) as X.
    pose proof (with_path idna fqdn open (with_user p us) _ pa n HI B P S (or_introl eq_refl)) as Y.
    change (request_for (with_user p us) n pa) with (request_for p n pa) in Y. destruct (utf8_encode _) as [b|]; [|congruence].
    destruct X as (t & Q & ->), Y as (t' & Q' & ->). now rewrite (quoted_unique _ _ _ Q Q').
  - rewrite (without_path idna fqdn open p _ HI A P (or_introl eq_refl)). now rewrite (without_path idna fqdn open (with_user p us) _ HI B P (or_introl eq_refl)).
Qed.
(** A URL of characters that may stand in a request is requested as it is. *)
Theorem quoted_plain b : Forall request_char b -> forall t, quoted b t <-> t = b.
Proof.
  intros F t. assert (Q : quoted b b) by (induction F; constructor; auto). split; [|now intros ->]. intros H. eapply quoted_unique; eauto.
Qed.
