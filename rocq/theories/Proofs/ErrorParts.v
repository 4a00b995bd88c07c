(** Equality of containers by their parts. *)
From Verif.Model Require Import Py Equality Errors.
From Verif.Proofs Require Import DictLemmas.

Lemma seq_eq_true : forall eq l l', seq_eq eq l l' = Ok true <-> Forall2 (fun a b => eq a b = Ok true) l l'.
Proof.
  induction l as [|x l IH]; intros [|y l']; cbn [seq_eq].
  - split; [constructor|reflexivity].
  - split; [discriminate|inversion 1].
  - split; [discriminate|inversion 1].
  - split.
    + destruct (eq x y) as [[|]|] eqn:Q; cbn [rbind]; try discriminate. intros H. constructor; [exact Q|]. now apply IH.
    + inversion 1; subst. rewrite H3. cbn [rbind]. now apply IH.
Qed.
Lemma seq_eq_ok : forall eq l l', (forall a b, In a l -> In b l' -> exists t, eq a b = Ok t) -> exists t, seq_eq eq l l' = Ok t.
Proof.
  induction l as [|x l IH]; intros [|y l'] H; cbn [seq_eq]; try (eexists; reflexivity).
  destruct (H x y (or_introl eq_refl) (or_introl eq_refl)) as [t Ht]. rewrite Ht. cbn [rbind].
  destruct t; [|eexists; reflexivity]. apply IH. intros a b Ha Hb. apply H; now right.
Qed.
Lemma map_loop_true : forall eq d d', map_loop eq d d' = Ok true <-> forall x v, In (x, v) d -> exists w, dget x d' = Some w /\ eq v w = Ok true.
Proof.
  induction d as [|[x v] d IH]; intros d'; cbn [map_loop].
  - split; [intros _ x v []|reflexivity].
  - split.
    + destruct (dget x d') as [w|] eqn:Q; [|discriminate]. destruct (eq v w) as [[|]|] eqn:Q2; cbn [rbind]; try discriminate.
      intros H y z [[= <- <-]|Hi]; [exists w; now split|]. now apply (proj1 (IH d') H).
    + intros H. destruct (H x v (or_introl eq_refl)) as (w & -> & ->). cbn [rbind]. apply IH. intros y z Hi. apply H. now right.
Qed.
Lemma map_loop_ok : forall eq d d', (forall x v y w, In (x, v) d -> In (y, w) d' -> exists t, eq v w = Ok t) -> exists t, map_loop eq d d' = Ok t.
Proof.
  induction d as [|[x v] d IH]; intros d' H; cbn [map_loop]; [eexists; reflexivity|].
  destruct (dget x d') as [w|] eqn:Q; [|eexists; reflexivity].
  destruct (H x v x w (or_introl eq_refl) (dget_In _ _ _ Q)) as [t Ht]. rewrite Ht. cbn [rbind].
  destruct t; [|eexists; reflexivity]. apply IH. intros. eapply H; [right|]; eassumption.
Qed.

Lemma equal_sequences : forall R n l l',
  let parts := Forall2 (fun a b => oeq R n a b = Ok true) l l' in
  (oeq R (S n) (OTuple l) (OTuple l') = Ok true <-> parts) /\ (oeq R (S n) (OList l) (OList l') = Ok true <-> parts) /\
  oeq R (S n) (OTuple l) (OList l') = Ok false /\ oeq R (S n) (OList l) (OTuple l') = Ok false.
Proof.
  intros R n l l' parts. cbn [oeq eq_objs].
  assert (H : (if Nat.eqb (length l) (length l') then seq_eq (oeq R n) l l' else Ok false) = Ok true <-> parts).
  { unfold parts. destruct (Nat.eqb (length l) (length l')) eqn:Q.
    - apply seq_eq_true.
    - split; [discriminate|]. intros F. apply Nat.eqb_neq in Q. exfalso. apply Q. clear Q. induction F; cbn; congruence. }
  repeat split; try reflexivity; apply H.
Qed.

Lemma same_keys : forall (d d' : list (key * eobj)), NoDup (dkeys d) -> length d = length d' ->
  (forall x, In x (dkeys d) -> In x (dkeys d')) -> forall x, In x (dkeys d') -> In x (dkeys d).
Proof.
  intros d d' Hn Hl Hi. apply NoDup_length_incl; [exact Hn| |exact Hi]. unfold dkeys. rewrite !map_length. lia.
Qed.
Lemma map_eq_true : forall eq d d', NoDup (dkeys d) -> NoDup (dkeys d') ->
  (map_eq eq d d' = Ok true <->
   (forall x, In x (dkeys d) <-> In x (dkeys d')) /\ forall x v w, In (x, v) d -> In (x, w) d' -> eq v w = Ok true).
Proof.
  intros eq d d' N1 N2. unfold map_eq. destruct (Nat.eqb (length d) (length d')) eqn:Q.
  - apply Nat.eqb_eq in Q. rewrite map_loop_true. split.
    + intros H.
      assert (K : forall x, In x (dkeys d) -> In x (dkeys d')).
      { intros x Hx. unfold dkeys in Hx. apply in_map_iff in Hx. destruct Hx as ([y v] & <- & Hi).
        destruct (H _ _ Hi) as (w & Hw & _). unfold dkeys. apply in_map_iff. exists (y, w). split; [reflexivity|now apply dget_In]. }
      split; [intros x; split; [apply K|now apply same_keys]|].
      intros x v w Hv Hw. destruct (H _ _ Hv) as (w' & Hw' & He). rewrite (In_dget _ _ _ N2 Hw) in Hw'. now injection Hw' as <-.
    + intros [K H] x v Hi. assert (Hx : In x (dkeys d')) by (apply K; unfold dkeys; now apply (in_map fst) in Hi).
      unfold dkeys in Hx. apply in_map_iff in Hx. destruct Hx as ([y w] & <- & Hw). exists w. split; [now apply In_dget|eauto].
  - split; [discriminate|]. intros [K _]. apply Nat.eqb_neq in Q. exfalso. apply Q.
    assert (L : forall (a b : list (key * eobj)), NoDup (dkeys a) -> (forall x, In x (dkeys a) -> In x (dkeys b)) -> length a <= length b).
    { intros a b Na Hab. apply (NoDup_incl_length Na) in Hab. unfold dkeys in Hab. rewrite !map_length in Hab. exact Hab. }
    apply Nat.le_antisymm; apply L; auto; intros x Hx; now apply K.
Qed.

Lemma equal_mappings : forall R n d d', NoDup (dkeys d) -> NoDup (dkeys d') ->
  let same := (forall x, In x (dkeys d) <-> In x (dkeys d')) /\ forall x v w, In (x, v) d -> In (x, w) d' -> oeq R n v w = Ok true in
  (oeq R (S n) (ODict d) (ODict d') = Ok true <-> same) /\ (oeq R (S n) (OFrozenDict d) (OFrozenDict d') = Ok true <-> same) /\
  (oeq R (S n) (OFrozenDict d) (ODict d') = Ok true <-> same) /\ (oeq R (S n) (ODict d') (OFrozenDict d) = Ok true <-> same).
Proof. intros R n d d' N1 N2 same. cbn [oeq eq_objs]. pose proof (map_eq_true (oeq R n) d d' N1 N2) as H. exact (conj H (conj H (conj H H))). Qed.

Lemma comparing_raises_nothing : forall R n,
  (forall l l', (forall a b, In a l -> In b l' -> exists t, oeq R n a b = Ok t) ->
     (exists t, oeq R (S n) (OTuple l) (OTuple l') = Ok t) /\ exists t, oeq R (S n) (OList l) (OList l') = Ok t) /\
  forall d d', (forall x v y w, In (x, v) d -> In (y, w) d' -> exists t, oeq R n v w = Ok t) ->
     (exists t, oeq R (S n) (ODict d) (ODict d') = Ok t) /\ (exists t, oeq R (S n) (OFrozenDict d) (OFrozenDict d') = Ok t).
Proof.
  intros R n. cbn [oeq eq_objs]. split.
  - intros l l' H. destruct (seq_eq_ok _ _ _ H) as [t Ht]. destruct (Nat.eqb (length l) (length l')); rewrite ?Ht; split; eexists; reflexivity.
  - intros d d' H. destruct (map_loop_ok _ _ _ H) as [t Ht]. unfold map_eq.
    destruct (Nat.eqb (length d) (length d')); rewrite ?Ht; split; eexists; reflexivity.
Qed.

(** Frozen lists are compared with sequences of any kind by position; with dictionaries they are not comparable. *)
Lemma frozen_loop_true eq o l' : (forall i, item_at o i = match nth_error l' i with Some x => Ok x | None => Raise (XPy EIndexError) end) ->
  forall l (pre : list eobj), length pre + length l = length l' ->
  (frozen_loop eq l o (length pre) = Ok true <-> Forall2 (fun a b => eq a b = Ok true) l (skipn (length pre) l')).
Proof.
  intros HI. induction l as [|x l IH]; intros pre L; cbn [frozen_loop].
  - rewrite skipn_all2 by (cbn in L; lia). split; [constructor|reflexivity].
  - rewrite HI. destruct (nth_error l' (length pre)) as [y|] eqn:N; [|apply nth_error_None in N; cbn in L; lia]. cbn [rbind].
    assert (K : skipn (length pre) l' = y :: skipn (S (length pre)) l').
    { clear - N. revert N. generalize (length pre) as i. induction l' as [|z l' IHl]; intros [|i] N; try discriminate N; cbn in *; [congruence|now apply IHl]. }
    rewrite K. specialize (IH (pre ++ [x])). rewrite app_length in IH. cbn [length] in IH, L. rewrite Nat.add_1_r in IH. split.
    + destruct (eq x y) as [[|]|] eqn:Q; cbn [rbind]; try discriminate. intros H. constructor; [exact Q|]. apply IH; [lia|exact H].
    + inversion 1 as [|? ? ? ? Q F]; subst. rewrite Q. cbn [rbind]. apply IH; [lia|exact F].
Qed.
Lemma frozen_sequences : forall R n l l', let parts := Forall2 (fun a b => oeq R n a b = Ok true) l l' in
  (oeq R (S n) (OFrozenList l) (OList l') = Ok true <-> parts) /\ (oeq R (S n) (OFrozenList l) (OTuple l') = Ok true <-> parts) /\
  (oeq R (S n) (OFrozenList l) (OFrozenList l') = Ok true <-> parts).
Proof.
  intros R n l l' parts. cbn [oeq eq_objs]. unfold frozen_eq. cbn [size_of rbind].
  assert (G : forall o, (forall i, item_at o i = match nth_error l' i with Some x => Ok x | None => Raise (XPy EIndexError) end) ->
    ((if Nat.eqb (length l) (length l') then frozen_loop (oeq R n) l o 0 else Ok false) = Ok true <-> parts)).
  { intros o Ho. unfold parts. destruct (Nat.eqb (length l) (length l')) eqn:Q.
    - apply Nat.eqb_eq in Q. exact (frozen_loop_true (oeq R n) o l' Ho l [] Q).
    - split; [discriminate|]. intros F. apply Nat.eqb_neq in Q. exfalso. apply Q. clear - F. induction F; cbn; congruence. }
  split; [|split]; apply G; reflexivity.
Qed.
Lemma frozen_dictionary : forall R n x l d, length d = S (length l) -> dget (KInt 0) d = None ->
  oeq R (S n) (OFrozenList (x :: l)) (ODict d) = Raise (XPy EKeyError) /\ oeq R (S n) (OFrozenList (x :: l)) (OFrozenDict d) = Raise (XPy EKeyError).
Proof.
  intros R n x l d L D. cbn [oeq eq_objs]. unfold frozen_eq. cbn [size_of rbind]. rewrite L. cbn [length]. rewrite Nat.eqb_refl.
  cbn [frozen_loop item_at]. cbn [Z.of_nat]. rewrite D. auto.
Qed.
