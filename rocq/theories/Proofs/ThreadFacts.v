(** Threads that compare instances at once do not disturb each other. *)
From Coq Require Import Lia.
From Verif.Model Require Import Py Core Cyclic Threads.
From Verif.Spec Require Import CyclicSpec ThreadSpec.
From Verif.Proofs Require Import CyclicFacts.

(** A thread on its own. *)
Fixpoint alone (p : mprog) (M : list entry) : res bool * list entry :=
  match p with
  | Done r => (r, M)
  | Ask e f => alone (f (in_memo e M)) M
  | Enter e p => alone p (e :: M)
  | Leave e p => alone p (leave e M)
  end.
Fixpoint height (p : mprog) : nat :=
  match p with
  | Done _ => 0
  | Ask e f => S (Nat.max (height (f true)) (height (f false)))
  | Enter _ p | Leave _ p => S (height p)
  end.
Inductive tagged (th : nat) : mprog -> Prop :=
| tg_done r : tagged th (Done r)
| tg_ask a b f : (forall t, tagged th (f t)) -> tagged th (Ask (a, b, th) f)
| tg_enter a b p : tagged th p -> tagged th (Enter (a, b, th) p)
| tg_leave a b p : tagged th p -> tagged th (Leave (a, b, th) p).

Section Alone.
  Context (h : heap) (aeq : nat -> nat -> res bool) (th : nat).
  Definition runs_as (ep : hval -> hval -> (res bool -> mprog) -> mprog) (eq : hval -> hval -> list entry -> res bool * list entry) : Prop :=
    forall x y c M, alone (ep x y c) M = alone (c (fst (eq x y M))) (snd (eq x y M)).
  Lemma item_alone ep eq : runs_as ep eq -> runs_as (item_prog ep) (eq_item eq).
  Proof. intros R x y c M. unfold item_prog, eq_item. destruct (same_obj x y); [reflexivity|apply R]. Qed.
  Lemma seq_alone ep eq : runs_as ep eq -> forall l l' c M,
    alone (seq_prog ep l l' c) M = alone (c (fst (seq_loop eq l l' M))) (snd (seq_loop eq l l' M)).
  Proof.
    intros R. induction l as [|x l IH]; intros [|y l'] c M; try reflexivity. cbn [seq_prog seq_loop]. rewrite (item_alone _ _ R).
    destruct (eq_item eq x y M) as [[[]|] N]; cbn [fst snd]; auto.
  Qed.
  Lemma dict_alone ep eq : runs_as ep eq -> forall d d' c M,
    alone (dict_prog ep d d' c) M = alone (c (fst (dict_loop eq d d' M))) (snd (dict_loop eq d d' M)).
  Proof.
    intros R. induction d as [|[x v] d IH]; intros d' c M; [reflexivity|]. cbn [dict_prog dict_loop]. destruct (dget x d') as [w|]; [|reflexivity].
    rewrite (item_alone _ _ R). destruct (eq_item eq v w M) as [[[]|] N]; cbn [fst snd]; auto.
  Qed.
  Lemma field_alone ep eq : runs_as ep eq -> forall d d' c M,
    alone (field_prog ep d d' c) M = alone (c (fst (field_loop eq d d' M))) (snd (field_loop eq d d' M)).
  Proof.
    intros R. induction d as [|[x v] d IH]; intros d' c M; [reflexivity|]. cbn [field_prog field_loop]. rewrite R.
    destruct (eq v _ M) as [[[]|] N]; cbn [fst snd]; auto.
  Qed.
  Lemma eq_alone n : runs_as (eq_prog h aeq th n) (heq h aeq th n).
  Proof.
    induction n as [|n IH]; intros x y c M; [reflexivity|]. cbn [eq_prog heq]. destruct x as [i|a], y as [j|b]; try reflexivity.
    destruct (at_addr h a) as [t l|d|k d], (at_addr h b) as [t' l'|d'|k' d']; try reflexivity.
    - destruct (_ && _)%bool; [|reflexivity]. now apply seq_alone.
    - destruct (Nat.eqb _ _); [|reflexivity]. now apply dict_alone.
    - destruct (Nat.eqb a b); [reflexivity|]. destruct (negb _); [reflexivity|]. cbn [alone]. destruct (in_memo (a, b, th) M); [reflexivity|].
      cbn [alone]. rewrite (field_alone _ _ IH). destruct (field_loop _ d d' _) as [r M']. reflexivity.
  Qed.

  Definition tags (ep : hval -> hval -> (res bool -> mprog) -> mprog) : Prop := forall x y c, (forall r, tagged th (c r)) -> tagged th (ep x y c).
  Lemma item_tagged ep : tags ep -> tags (item_prog ep).
  Proof. intros T x y c H. unfold item_prog. destruct (same_obj x y); auto. Qed.
  Lemma seq_tagged ep : tags ep -> forall l l' c, (forall r, tagged th (c r)) -> tagged th (seq_prog ep l l' c).
  Proof.
    intros T. induction l as [|x l IH]; intros [|y l'] c H; cbn [seq_prog]; auto. apply (item_tagged _ T). intros [[]|]; auto.
  Qed.
  Lemma dict_tagged ep : tags ep -> forall d d' c, (forall r, tagged th (c r)) -> tagged th (dict_prog ep d d' c).
  Proof.
    intros T. induction d as [|[x v] d IH]; intros d' c H; cbn [dict_prog]; auto. destruct (dget x d'); auto. apply (item_tagged _ T). intros [[]|]; auto.
  Qed.
  Lemma field_tagged ep : tags ep -> forall d d' c, (forall r, tagged th (c r)) -> tagged th (field_prog ep d d' c).
  Proof. intros T. induction d as [|[x v] d IH]; intros d' c H; cbn [field_prog]; auto. apply T. intros [[]|]; auto. Qed.
  Lemma eq_tagged n : tags (eq_prog h aeq th n).
  Proof.
    induction n as [|n IH]; intros x y c H; [apply H|]. cbn [eq_prog]. destruct x as [i|a], y as [j|b]; try apply H.
    destruct (at_addr h a) as [t l|d|k d], (at_addr h b) as [t' l'|d'|k' d']; try apply H.
    - destruct (_ && _)%bool; [|apply H]. now apply seq_tagged.
    - destruct (Nat.eqb _ _); [|apply H]. now apply dict_tagged.
    - destruct (Nat.eqb a b); [apply H|]. destruct (negb _); [apply H|]. apply tg_ask. intros []; [apply H|]. apply tg_enter.
      apply field_tagged; [exact IH|]. intros r. apply tg_leave. apply H.
  Qed.
End Alone.

(** The set, seen by one thread. *)
Lemma entry_eqb_spec e f : entry_eqb e f = true <-> e = f.
Proof.
  destruct e as [[a b] t], f as [[a' b'] t']. unfold entry_eqb. rewrite !Bool.andb_true_iff, !Nat.eqb_eq. split; [intros [[-> ->] ->]; reflexivity|intros [= -> -> ->]; auto].
Qed.
Lemma in_memo_In e M : in_memo e M = true <-> In e M.
Proof.
  unfold in_memo. rewrite existsb_exists. split.
  - intros (f & I & Q). apply entry_eqb_spec in Q. now subst.
  - intros I. exists e. split; [exact I|now apply entry_eqb_spec].
Qed.
Lemma leave_In e f M : In f (leave e M) <-> In f M /\ f <> e.
Proof.
  unfold leave. rewrite filter_In, Bool.negb_true_iff. split; intros [I Q]; (split; [exact I|]).
  - intros ->. assert (entry_eqb e e = true) by now apply entry_eqb_spec. congruence.
  - destruct (entry_eqb e f) eqn:X; [|reflexivity]. apply entry_eqb_spec in X. now destruct Q.
Qed.
Lemma agree_refl th M : agree th M M. Proof. intros a b. reflexivity. Qed.
Lemma agree_trans th M N O : agree th M N -> agree th N O -> agree th M O.
Proof. intros A B a b. now rewrite (A a b). Qed.
Lemma agree_sym th M N : agree th M N -> agree th N M.
Proof. intros A a b. now rewrite (A a b). Qed.
Lemma agree_memo th M N a b : agree th M N -> in_memo (a, b, th) M = in_memo (a, b, th) N.
Proof.
  intros A. destruct (in_memo (a, b, th) M) eqn:X, (in_memo (a, b, th) N) eqn:Y; try reflexivity.
  - apply in_memo_In in X. apply A in X. apply in_memo_In in X. congruence.
  - apply in_memo_In in Y. apply A in Y. apply in_memo_In in Y. congruence.
Qed.
Lemma alone_blind th p : tagged th p -> forall M N, agree th M N -> fst (alone p M) = fst (alone p N) /\ agree th (snd (alone p M)) (snd (alone p N)).
Proof.
  induction 1 as [r|a b f _ IH|a b p _ IH|a b p _ IH]; intros M N A; cbn [alone].
  - split; [reflexivity|exact A].
  - rewrite (agree_memo _ _ _ a b A). now apply IH.
  - apply IH. intros a' b'. cbn [In]. now rewrite (A a' b').
  - apply IH. intros a' b'. rewrite !leave_In. now rewrite (A a' b').
Qed.

(** One step. *)
Lemma turn_alone p M : alone (fst (turn p M)) (snd (turn p M)) = alone p M.
Proof. now destruct p. Qed.
Lemma turn_tagged th p M : tagged th p -> tagged th (fst (turn p M)).
Proof. intros []; cbn [turn fst]; auto. constructor. Qed.
Lemma turn_others th p M th' : tagged th p -> th' <> th -> agree th' (snd (turn p M)) M.
Proof.
  intros T N a' b'. destruct T; cbn [turn snd]; try reflexivity.
  - cbn [In]. split; [intros [[= -> -> ->]|I]; [now destruct N|exact I]|now right].
  - rewrite leave_In. split; [tauto|]. intros I. split; [exact I|]. intros [= -> -> ->]. now destruct N.
Qed.
Lemma turn_height p M : height (fst (turn p M)) <= Nat.pred (height p).
Proof. destruct p; cbn [turn fst height Nat.pred]; try lia. destruct (in_memo e M); lia. Qed.

Lemma turn_at_length i : forall ps M, length (fst (turn_at i ps M)) = length ps.
Proof.
  induction i as [|i IH]; intros [|p ps] M; try reflexivity; cbn [turn_at].
  - destruct (turn p M). reflexivity.
  - specialize (IH ps M). destruct (turn_at i ps M). cbn in *. now rewrite IH.
Qed.
Lemma turn_at_nth i : forall ps M p, nth_error ps i = Some p ->
  nth_error (fst (turn_at i ps M)) i = Some (fst (turn p M)) /\ snd (turn_at i ps M) = snd (turn p M).
Proof.
  induction i as [|i IH]; intros [|q ps] M p H; try discriminate; cbn [turn_at].
  - injection H as ->. destruct (turn p M). split; reflexivity.
  - specialize (IH ps M p H). destruct (turn_at i ps M). exact IH.
Qed.
Lemma turn_at_other i : forall j ps M, i <> j -> nth_error (fst (turn_at i ps M)) j = nth_error ps j.
Proof.
  induction i as [|i IH]; intros j [|q ps] M N; try reflexivity; cbn [turn_at].
  - destruct (turn q M). destruct j; [now destruct N|reflexivity].
  - destruct j as [|j]; [destruct (turn_at i ps M); reflexivity|]. specialize (IH j ps M ltac:(lia)). destruct (turn_at i ps M). exact IH.
Qed.
Lemma turn_at_out i : forall ps M, nth_error ps i = None -> turn_at i ps M = (ps, M).
Proof.
  induction i as [|i IH]; intros [|q ps] M N; try reflexivity; [discriminate|]. cbn [turn_at]. rewrite (IH ps M N). reflexivity.
Qed.

Section System.
  Context (h : heap) (aeq : nat -> nat -> res bool) (n : nat) (M0 : list entry).
  Local Notation start := (ThreadSpec.start h aeq n).
  Definition answer (j : job) : res bool := let '(th, x, y) := j in fst (heq h aeq th n x y M0).

  Definition on_course (j : job) (p : mprog) (M : list entry) : Prop :=
    tagged (job_thread j) p /\ fst (alone p M) = answer j /\ agree (job_thread j) (snd (alone p M)) M0.
  Definition sound (jobs : list job) (ps : list mprog) (M : list entry) : Prop :=
    length ps = length jobs /\ (forall i j p, nth_error jobs i = Some j -> nth_error ps i = Some p -> on_course j p M) /\
    (forall th, ~ In th (map job_thread jobs) -> agree th M M0).

  Lemma start_sound jobs : sound jobs (map start jobs) M0.
  Proof.
    split; [apply map_length|split; [|intros; apply agree_refl]]. intros i [[th x] y] p J P.
    rewrite (map_nth_error start _ _ J) in P. injection P as <-. unfold on_course, job_thread. cbn [fst ThreadSpec.start answer].
    split; [apply eq_tagged; intros; constructor|]. rewrite eq_alone. cbn [alone fst snd]. split; [reflexivity|]. rewrite heq_restores. apply agree_refl.
  Qed.

  Lemma turn_sound jobs i ps M : NoDup (map job_thread jobs) -> sound jobs ps M -> sound jobs (fst (turn_at i ps M)) (snd (turn_at i ps M)).
  Proof.
    intros ND (L & C & O). destruct (nth_error ps i) as [p|] eqn:P; [|rewrite (turn_at_out _ _ _ P); split; auto].
    destruct (nth_error jobs i) as [j|] eqn:J.
    2:{ apply nth_error_None in J. assert (nth_error ps i = None) by (apply nth_error_None; lia). congruence. }
    pose proof (C _ _ _ J P) as (T & A & R). destruct (turn_at_nth i ps M p P) as [P' M']. rewrite M'.
    split; [now rewrite turn_at_length|split].
    - intros i' j' p' J' Q. destruct (Nat.eq_dec i i') as [<-|N].
      + rewrite P' in Q. injection Q as <-. rewrite J in J'. injection J' as <-. split; [now apply turn_tagged|]. now rewrite turn_alone.
      + rewrite (turn_at_other i i' ps M N) in Q. destruct (C _ _ _ J' Q) as (T' & A' & R'). split; [exact T'|].
        assert (D : job_thread j' <> job_thread j).
        { intros D. apply N. apply (proj1 (NoDup_nth_error (map job_thread jobs)) ND).
          - rewrite map_length. apply nth_error_Some. congruence.
          - rewrite (map_nth_error job_thread _ _ J), (map_nth_error job_thread _ _ J'). now rewrite D. }
        destruct (alone_blind _ _ T' _ _ (turn_others _ p M _ T D)) as [B1 B2]. rewrite B1. split; [exact A'|]. exact (agree_trans _ _ _ _ B2 R').
    - intros th NI. apply (agree_trans _ _ M); [|now apply O]. apply (turn_others (job_thread j)); [exact T|].
      intros ->. apply NI. apply in_map. now apply nth_error_In in J.
  Qed.
  Lemma interleave_sound jobs : NoDup (map job_thread jobs) -> forall sch ps M, sound jobs ps M ->
    sound jobs (fst (interleave sch ps M)) (snd (interleave sch ps M)).
  Proof.
    intros ND. induction sch as [|i sch IH]; intros ps M S; [exact S|]. cbn [interleave].
    pose proof (turn_sound jobs i ps M ND S) as S'. destruct (turn_at i ps M) as [ps' M']. now apply IH.
  Qed.

  (** Each thread gets the answer it would get on its own. *)
  Theorem threads_answers jobs sch i r : NoDup (map job_thread jobs) ->
    nth_error (fst (interleave sch (map start jobs) M0)) i = Some (Done r) ->
    exists j, nth_error jobs i = Some j /\ r = answer j.
  Proof.
    intros ND H. destruct (interleave_sound jobs ND sch _ _ (start_sound jobs)) as (L & C & _).
    destruct (nth_error jobs i) as [j|] eqn:J.
    - exists j. split; [reflexivity|]. destruct (C _ _ _ J H) as (_ & A & _). exact A.
    - apply nth_error_None in J. assert (nth_error (fst (interleave sch (map start jobs) M0)) i = None) by (apply nth_error_None; lia). congruence.
  Qed.

  (** The set is as before when all have finished. *)
  Theorem threads_no_trace jobs sch : NoDup (map job_thread jobs) ->
    (forall p, In p (fst (interleave sch (map start jobs) M0)) -> exists r, p = Done r) ->
    forall e, In e (snd (interleave sch (map start jobs) M0)) <-> In e M0.
  Proof.
    intros ND H [[a b] th]. destruct (interleave_sound jobs ND sch _ _ (start_sound jobs)) as (L & C & O).
    destruct (in_dec Nat.eq_dec th (map job_thread jobs)) as [I|I]; [|exact (O th I a b)].
    apply in_map_iff in I. destruct I as (j & <- & I). apply In_nth_error in I. destruct I as [i J].
    destruct (nth_error (fst (interleave sch (map start jobs) M0)) i) as [p|] eqn:P.
    - destruct (H p (nth_error_In _ _ P)) as [r ->]. destruct (C _ _ _ J P) as (_ & _ & R). exact (R a b).
    - apply nth_error_None in P. assert (i < length jobs) by (apply nth_error_Some; congruence). lia.
  Qed.

  (** Every thread that gets enough turns finishes, whatever the others do. *)
  Lemma interleave_height : forall sch ps M i p, nth_error ps i = Some p ->
    exists q, nth_error (fst (interleave sch ps M)) i = Some q /\ height q <= height p - count_occ Nat.eq_dec sch i.
  Proof.
    induction sch as [|k sch IH]; intros ps M i p P; [exists p; split; [exact P|cbn; lia]|]. cbn [interleave].
    destruct (Nat.eq_dec k i) as [->|N].
    - destruct (turn_at_nth i ps M p P) as [P' _]. destruct (turn_at i ps M) as [ps' M']. cbn [fst] in P'.
      destruct (IH ps' M' i _ P') as (q & Q & Hq). exists q. split; [exact Q|]. rewrite count_occ_cons_eq by reflexivity. pose proof (turn_height p M). lia.
    - pose proof (turn_at_other k i ps M N) as P'. rewrite P in P'. destruct (turn_at k ps M) as [ps' M']. cbn [fst] in P'.
      destruct (IH ps' M' i _ P') as (q & Q & Hq). exists q. split; [exact Q|]. rewrite count_occ_cons_neq by exact N. exact Hq.
  Qed.
  Theorem threads_finish j : exists b, forall jobs i sch, nth_error jobs i = Some j -> b <= count_occ Nat.eq_dec sch i ->
    exists r, nth_error (fst (interleave sch (map start jobs) M0)) i = Some (Done r).
  Proof.
    exists (height (start j)). intros jobs i sch J B.
    destruct (interleave_height sch (map start jobs) M0 i (start j) (map_nth_error start _ _ J)) as (q & Q & Hq).
    destruct q as [r| | |]; cbn [height] in Hq; try lia. now exists r.
  Qed.
End System.

Theorem threads_right h aeq n jobs sch i r : NoDup (map job_thread jobs) ->
  nth_error (fst (interleave sch (map (start h aeq n) jobs) [])) i = Some (Done r) ->
  exists th x y, nth_error jobs i = Some (th, x, y) /\ r = fst (heq h aeq th n x y []) /\
    (r = Ok true -> equal_graphs h aeq x y) /\ (r = Ok false -> ~ equal_graphs h aeq x y).
Proof.
  intros ND H. destruct (threads_answers h aeq n [] jobs sch i r ND H) as ([[th x] y] & J & ->). exists th, x, y. split; [exact J|].
  split; [reflexivity|]. cbn [answer]. split; [apply true_equal; intros e []|apply false_differ].
Qed.
