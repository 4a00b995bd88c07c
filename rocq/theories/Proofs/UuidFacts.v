(** Texts of UUIDs. *)
From Coq Require Import Lia.
From Verif.Model Require Import Py Core Num Text Types.
From Verif.Spec Require Import TextSpec UuidSpec.
From Verif.Proofs Require Import TextLemmas IntText NumText TypeLemmas.
Local Open Scope N_scope.

Lemma take_text_self w r : take_text w (w ++ r) = Some r.
Proof. induction w as [|x w IH]; cbn; [reflexivity|]. rewrite N.eqb_refl. exact IH. Qed.
Lemma skip_text w : forall a l, remove_text w (length a) (a ++ l) = remove_text w 0 l.
Proof. induction a as [|x a IH]; intros l; [reflexivity|]. cbn [length app remove_text]. apply IH. Qed.
Lemma remove_removed w s : w <> [] -> removed w s (remove_text w 0 s).
Proof.
  intros Hw. remember (length s) as n eqn:L. assert (B : (length s <= n)%nat) by lia. clear L. revert s B.
  induction n as [|n IH]; intros s B; [destruct s; [constructor|cbn in B; lia]|].
  destruct s as [|c s]; [constructor|]. cbn [length] in B. cbn [remove_text]. destruct (take_text w (c :: s)) as [r|] eqn:T.
  - apply take_text_app in T. destruct w as [|x w]; [now destruct Hw|]. cbn [app] in T. injection T as -> ->.
    cbn [length]. rewrite Nat.sub_succ, Nat.sub_0_r, skip_text. change (x :: w ++ r)%list with ((x :: w) ++ r)%list. constructor. apply IH.
    rewrite app_length in B. lia.
  - constructor; [|apply IH; lia]. intros r E. rewrite E, take_text_self in T. discriminate.
Qed.
Lemma removed_det w s t t' : w <> [] -> removed w s t -> removed w s t' -> t = t'.
Proof.
  intros Hw H. revert t'. induction H as [|s t H IH|c s t N H IH]; intros t' K.
  - inversion K as [A|s' t0 K' A|]; [reflexivity|]. destruct w; [now destruct Hw|discriminate].
  - inversion K as [A|s' t0 K' A|c s' t0 N K' A].
    + symmetry in A. apply app_eq_nil in A as [A _]. now destruct Hw.
    + apply app_inv_head in A. subst. now apply IH.
    + exfalso. apply (N s). now rewrite A.
  - inversion K as [A|s' t0 K' A|c' s' t0 N' K' A]; subst.
    + exfalso. apply (N s'). now rewrite A.
    + f_equal. now apply IH.
Qed.
Lemma removed_iff w s t : w <> [] -> removed w s t <-> remove_text w 0 s = t.
Proof.
  intros H. split.
  - intros R. eapply removed_det; [exact H| |exact R]. now apply remove_removed.
  - intros <-. now apply remove_removed.
Qed.

Definition is_brace (c : N) : bool := (c =? 123) || (c =? 125).
Lemma brace_iff c : is_brace c = true <-> brace c.
Proof. unfold is_brace, brace. rewrite orb_true_iff, !N.eqb_eq. tauto. Qed.
Lemma drop_split p s : exists a, s = (a ++ drop p s)%list /\ Forall (fun c => p c = true) a /\ forall c r, drop p s = c :: r -> p c = false.
Proof.
  induction s as [|c s (a & E & F & N)]; [exists []; repeat split; [constructor|discriminate]|].
  cbn [drop]. destruct (p c) eqn:P.
  - exists (c :: a). cbn. rewrite <- E. repeat split; [now constructor|exact N].
  - exists []. repeat split; [constructor|]. intros c' r [= <- <-]. exact P.
Qed.
Lemma drop_app p a t : Forall (fun c => p c = true) a -> (forall c r, t = c :: r -> p c = false) -> drop p (a ++ t) = t.
Proof.
  intros F N. induction F as [|c a P _ IH]; cbn.
  - destruct t as [|c r]; [reflexivity|]. cbn. now rewrite (N c r eq_refl).
  - now rewrite P.
Qed.
Lemma unbraced_iff s t : unbraced s t <-> strip is_brace s = t.
Proof.
  split.
  - intros (a & b & -> & A & B & F & L). unfold strip.
    assert (A' : Forall (fun c => is_brace c = true) a) by (eapply Forall_impl; [|exact A]; intros c; apply brace_iff).
    assert (B' : Forall (fun c => is_brace c = true) b) by (eapply Forall_impl; [|exact B]; intros c; apply brace_iff).
    assert (NB : forall c, ~ brace c -> is_brace c = false) by (intros c Hc; apply not_true_is_false; now rewrite brace_iff).
    destruct t as [|x t].
    + cbn [app]. rewrite <- (app_nil_r (a ++ b)) at 1. rewrite drop_app; [reflexivity|now apply Forall_app|discriminate].
    + rewrite drop_app; [|exact A'|].
      * rewrite rev_app_distr, drop_app; [apply rev_involutive|now apply Forall_rev|]. intros c r E. apply NB, (L c (rev r)).
        apply (f_equal (@rev N)) in E. rewrite rev_involutive in E. exact E.
      * intros c r [= <- _]. now apply NB, (F x t).
  - intros <-. unfold strip. destruct (drop_split is_brace s) as (a & E & A & N). destruct (drop_split is_brace (rev (drop is_brace s))) as (b & E' & B & N').
    set (d := drop is_brace s) in *. set (t := drop is_brace (rev d)) in *.
    assert (D : d = (rev t ++ rev b)%list) by (rewrite <- rev_app_distr, <- E', rev_involutive; reflexivity).
    exists a, (rev b). split; [rewrite E at 1; now rewrite D at 1|]. split; [eapply Forall_impl; [|exact A]; intros c; apply brace_iff|].
    split; [apply Forall_rev; eapply Forall_impl; [|exact B]; intros c; apply brace_iff|]. split.
    + intros c r K. rewrite <- brace_iff. rewrite D, K in N. now rewrite (N c (r ++ rev b)%list eq_refl).
    + intros c r K. rewrite <- brace_iff. apply (f_equal (@rev _)) in K. rewrite rev_involutive, rev_app_distr in K. now rewrite (N' c (rev r) K).
Qed.
Lemma hyphenated_iff s t : hyphenated s t <-> undash s = t.
Proof.
  split.
  - induction 1 as [|s t _ IH|c s t Hc _ IH]; [reflexivity|exact IH|]. cbn. apply N.eqb_neq in Hc. rewrite Hc. cbn. now f_equal.
  - intros <-. induction s as [|c s IH]; [constructor|]. cbn. destruct (c =? 45) eqn:E; cbn.
    + apply N.eqb_eq in E as ->. now constructor.
    + apply N.eqb_neq in E. now constructor.
Qed.
Lemma core_iff s t : core_text s t <-> undash (strip is_brace (remove_text (u "uuid:") 0 (remove_text (u "urn:") 0 s))) = t.
Proof.
  split.
  - intros (a & b & c & A & B & C & D). apply removed_iff in A; [|discriminate]. apply removed_iff in B; [|discriminate].
    apply unbraced_iff in C. apply hyphenated_iff in D. congruence.
  - intros <-. do 3 eexists. split; [apply removed_iff; [discriminate|reflexivity]|]. split; [apply removed_iff; [discriminate|reflexivity]|].
    split; [now apply unbraced_iff|now apply hyphenated_iff].
Qed.

Lemma run_bound U s n : run U 16 s n -> n < 16 ^ N.of_nat (length s).
Proof.
  assert (P : forall k, 16 ^ N.of_nat k <> 0) by (intros k; apply N.pow_nonzero; lia).
  induction 1 as [c v D L|s n c v R IH D L|s n c v R IH D L]; [cbn; lia| |]; rewrite app_length, Nat2N.inj_add, N.pow_add_r; cbn [length].
  - change (16 ^ N.of_nat 1) with 16. specialize (P (length s)). nia.
  - change (16 ^ N.of_nat 2) with 256. specialize (P (length s)). nia.
Qed.
Lemma hyphen_free s t : hyphenated s t -> ~ In 45 t.
Proof. induction 1 as [|s t _ IH|c s t Hc _ IH]; cbn; intuition. Qed.
Lemma literal_value U t z : int_literal U 16 t z -> length t = 32%nat -> ~ In 45 t -> (0 <= z < 2 ^ 128)%Z.
Proof.
  intros (b1 & sg & neg & px & body & n & b2 & -> & _ & S & _ & R & _ & ->) L H.
  assert (neg = false) as ->. { destruct S; try reflexivity. exfalso. apply H. rewrite !in_app_iff. cbn. tauto. }
  apply run_bound in R. rewrite !app_length in L.
  assert (B : 16 ^ N.of_nat (length body) <= 16 ^ 32) by (apply N.pow_le_mono_r; lia).
  change (16 ^ 32) with (2 ^ 128) in B. change (2 ^ 128)%Z with (Z.of_N (2 ^ 128)). lia.
Qed.

(** What is read from texts. *)
Theorem uuid_reads R s w : lf_native (uuid_type R) (VStr s) = Ok w <->
  exists t n, core_text s t /\ length t = 32%nat /\ int_literal (rt_uni R) 16 t (Z.of_N n) /\ w = VUUID n.
Proof.
  change (lf_native (uuid_type R) (VStr s)) with (uuid_native R (VStr s)). unfold uuid_native, uuid_text.
  change (fun c => (c =? 123) || (c =? 125)) with is_brace. change (filter (fun c => negb (c =? 45))) with undash.
  set (t := undash _). assert (C : core_text s t) by now apply core_iff.
  assert (H : ~ In 45 t) by (destruct C as (a & b & c & _ & _ & _ & C); eapply hyphen_free; exact C).
  split.
  - destruct (Nat.eqb (length t) 32) eqn:L; [|discriminate]. apply Nat.eqb_eq in L. destruct (int_text (rt_uni R) 16 t) as [z|] eqn:I; [|discriminate].
    apply int_text_iff in I. pose proof (literal_value _ _ _ I L H) as B. destruct ((0 <=? z)%Z && (z <? 2 ^ 128)%Z); [|discriminate].
    intros [= <-]. exists t, (Z.to_N z). rewrite Z2N.id by lia. repeat split; assumption.
  - intros (t' & n & C' & L & I & ->). apply core_iff in C'. fold t in C'. subst t'.
    rewrite (proj2 (Nat.eqb_eq _ _) L). pose proof (literal_value _ _ _ I L H) as B. apply int_text_iff in I. rewrite I.
    rewrite (proj2 (Z.leb_le _ _)), (proj2 (Z.ltb_lt _ _)) by lia. cbn [andb]. now rewrite N2Z.id.
Qed.
(** The usual forms. *)
Theorem uuid_forms R lead a t b ds n : In lead [[]; u "urn:"; u "uuid:"; u "urn:uuid:"] -> Forall brace a -> Forall brace b ->
  hyphenated t ds -> length ds = 32%nat -> Forall hex_digit ds -> run (rt_uni R) 16 ds n ->
  lf_native (uuid_type R) (VStr (lead ++ a ++ t ++ b)) = Ok (VUUID n).
Proof.
  intros Hl A B T L D V. apply uuid_reads. exists ds, n. split; [|split; [exact L|split; [|reflexivity]]].
  - assert (T' : Forall (fun c => c = 45 \/ hex_digit c) t).
    { clear L V. induction T as [|s t _ IH|c s t _ _ IH]; [constructor|constructor; auto|]. inversion D; subst. constructor; auto. }
    assert (N58 : ~ In 58 (a ++ t ++ b)).
    { rewrite !in_app_iff. rewrite Forall_forall in A, B, T'. unfold brace in *. intros [I|[I|I]]; [apply A in I; lia| |apply B in I; lia].
      apply T' in I. unfold hex_digit in I. lia. }
    assert (Rm : remove_text (u "uuid:") 0 (remove_text (u "urn:") 0 (lead ++ a ++ t ++ b)) = (a ++ t ++ b)%list).
    { set (x := (a ++ t ++ b)%list) in *.
      assert (X : remove_text (u "urn:") 0 x = x) by (apply (remove_absent _ 58); [cbn; auto|exact N58]).
      assert (Y : remove_text (u "uuid:") 0 x = x) by (apply (remove_absent _ 58); [cbn; auto 10|exact N58]).
      destruct Hl as [<-|[<-|[<-|[<-|[]]]]].
      - cbn [app]. now rewrite X.
      - change (remove_text (u "urn:") 0 (u "urn:" ++ x)) with (remove_text (u "urn:") 0 x). now rewrite X.
      - change (remove_text (u "urn:") 0 (u "uuid:" ++ x)) with (u "uuid:" ++ remove_text (u "urn:") 0 x)%list. now rewrite X, uuid_prefix.
      - now rewrite urn_prefix, X, uuid_prefix. }
    apply core_iff. rewrite Rm. apply hyphenated_iff in T. rewrite <- T. f_equal. apply unbraced_iff. exists a, b.
    split; [reflexivity|]. split; [exact A|]. split; [exact B|]. rewrite Forall_forall in T'. unfold brace, hex_digit in *. split; intros c r ->.
    + specialize (T' c (or_introl eq_refl)). lia.
    + specialize (T' c). rewrite in_app_iff in T'. specialize (T' (or_intror (or_introl eq_refl))). lia.
  - exists [], [], false, [], ds, n, []. rewrite app_nil_r. repeat split; try constructor; assumption.
Qed.
(** Other texts that are read. *)
Theorem uuid_odd R ds n : length ds = 30%nat -> Forall hex_digit ds -> run (rt_uni R) 16 ds n ->
  lf_native (uuid_type R) (VStr (u "0x" ++ ds)) = Ok (VUUID n).
Proof.
  intros L D V. apply uuid_reads. exists (u "0x" ++ ds)%list, n. split; [|split; [rewrite app_length, L; reflexivity|split; [|reflexivity]]].
  - rewrite Forall_forall in D. unfold hex_digit in D.
    assert (P : forall x, In x (u "0x" ++ ds)%list -> x = 48 \/ x = 120 \/ 48 <= x <= 57 \/ 97 <= x <= 102 \/ 65 <= x <= 70).
    { intros x I. apply in_app_iff in I as [[<-|[<-|[]]]|I]; [auto|auto|]. apply D in I. tauto. }
    set (s := (u "0x" ++ ds)%list) in *.
    assert (N58 : ~ In 58 s) by (intros I; apply P in I; lia).
    apply core_iff. rewrite (remove_absent _ 58 s) by (cbn; auto). rewrite (remove_absent _ 58 s) by (cbn; auto 10).
    rewrite strip_none; [apply filter_all|]; apply Forall_forall; intros x I; apply P in I.
    + apply negb_true_iff, N.eqb_neq. lia.
    + unfold is_brace. apply orb_false_iff. split; apply N.eqb_neq; lia.
  - exists [], [], false, (u "0x"), ds, n, []. rewrite app_nil_r. split; [reflexivity|]. split; [constructor|]. split; [constructor|].
    split; [|split; [exact V|split; [constructor|reflexivity]]]. apply px_0x; [reflexivity| |now left]. apply dn_ascii; [reflexivity|lia].
Qed.
(** Values that are not texts. *)
Theorem uuid_others R v : (forall s, v <> VStr s) ->
  (forall n, v = VUUID n -> lf_native (uuid_type R) v = Ok v) /\
  (v = VNone \/ has_replace v -> lf_native (uuid_type R) v = Raise (XConv [u "convert"])) /\
  ((forall n, v <> VUUID n) -> v <> VNone -> ~ has_replace v -> lf_native (uuid_type R) v = Raise (XPy EAttributeError)).
Proof.
  intros S. split; [intros n ->; reflexivity|]. split.
  - intros [->|H]; [reflexivity|]. destruct v; try destruct H; reflexivity.
  - intros U N H. destruct v; try reflexivity; exfalso; [now apply N|eapply S; reflexivity|exact (H I)| | | ]; first [eapply U; reflexivity|exact (H I)].
Qed.
