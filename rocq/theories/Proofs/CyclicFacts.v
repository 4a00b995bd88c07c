(** Equality of instances that refer to each other: proofs. *)
From Verif.Model Require Import Py Core Cyclic.
From Verif.Spec Require Import CyclicSpec.
From Verif.Proofs Require Import DictLemmas.
From Coq Require Import Lia.

Lemma entry_eqb_eq e f : entry_eqb e f = true <-> e = f.
Proof.
  destruct e as [[a b] t], f as [[a' b'] t']. unfold entry_eqb. rewrite !Bool.andb_true_iff, !Nat.eqb_eq. split.
  - intros [[-> ->] ->]. reflexivity.
  - intros [= -> -> ->]. auto.
Qed.
Lemma in_memo_in e M : in_memo e M = true <-> In e M.
Proof.
  unfold in_memo. rewrite existsb_exists. split.
  - intros (f & H & E). apply entry_eqb_eq in E as ->. exact H.
  - intros H. exists e. split; [exact H|]. now apply entry_eqb_eq.
Qed.
Lemma leave_enter e M : in_memo e M = false -> leave e (e :: M) = M.
Proof.
  intros H. assert (N : ~ In e M) by (intros K; apply in_memo_in in K; congruence). clear H.
  unfold leave. cbn. assert (R : entry_eqb e e = true) by (now apply entry_eqb_eq). rewrite R. cbn.
  induction M as [|f M IH]; cbn; [reflexivity|]. destruct (entry_eqb e f) eqn:E.
  - apply entry_eqb_eq in E as <-. now destruct N; left.
  - cbn. f_equal. apply IH. intros K. apply N. now right.
Qed.
Lemma same_obj_eq x y : same_obj x y = true <-> x = y.
Proof. destruct x, y; cbn; rewrite ?Nat.eqb_eq; split; congruence. Qed.

Lemma same_length {A B} (P : A -> B -> Prop) l l' : Forall2 P l l' -> length l = length l'.
Proof. induction 1; cbn; congruence. Qed.

Section Eq.
  Context (h : heap) (aeq : nat -> nat -> res bool).

  (** *** The set is left as it was found *)
  Definition restores (eq : hval -> hval -> list entry -> res bool * list entry) : Prop := forall x y M, snd (eq x y M) = M.
  Lemma item_restores eq : restores eq -> restores (eq_item eq).
  Proof. intros R x y M. unfold eq_item. destruct (same_obj x y); [reflexivity|apply R]. Qed.
  Lemma seq_restores eq : restores eq -> forall l l' M, snd (seq_loop eq l l' M) = M.
  Proof.
    intros R. induction l as [|x l IH]; intros [|y l'] M; try reflexivity. cbn.
    pose proof (item_restores eq R x y M) as H. destruct (eq_item eq x y M) as [[[]|] M']; cbn in H |- *; subst M'; auto.
  Qed.
  Lemma dict_restores eq : restores eq -> forall d d' M, snd (dict_loop eq d d' M) = M.
  Proof.
    intros R. induction d as [|[x v] d IH]; intros d' M; [reflexivity|]. cbn. destruct (dget x d') as [w|]; [|reflexivity].
    pose proof (item_restores eq R v w M) as H. destruct (eq_item eq v w M) as [[[]|] M']; cbn in H |- *; subst M'; auto.
  Qed.
  Lemma field_restores eq : restores eq -> forall d d' M, snd (field_loop eq d d' M) = M.
  Proof.
    intros R. induction d as [|[x v] d IH]; intros d' M; [reflexivity|]. cbn.
    pose proof (R v (match dget x d' with Some w => w | None => HAtom 0 end) M) as H.
    destruct (eq v _ M) as [[[]|] M']; cbn in H |- *; subst M'; auto.
  Qed.
  Theorem heq_restores th n : restores (heq h aeq th n).
  Proof.
    induction n as [|n IH]; intros x y M; [reflexivity|]. cbn [heq]. destruct x as [i|a], y as [j|b]; try reflexivity.
    destruct (at_addr h a) as [t l|d|c d], (at_addr h b) as [t' l'|d'|c' d']; try reflexivity.
    - destruct (_ && _)%bool; [|reflexivity]. now apply seq_restores.
    - destruct (Nat.eqb _ _); [|reflexivity]. now apply dict_restores.
    - destruct (Nat.eqb a b); [reflexivity|]. destruct (negb _); [reflexivity|]. destruct (in_memo (a, b, th) M) eqn:E; [reflexivity|].
      pose proof (field_restores _ IH d d' ((a, b, th) :: M)) as H. destruct (field_loop _ d d' _) as [r M']. cbn in H |- *. subst M'.
      now apply leave_enter.
  Qed.

  (** *** Other threads do not matter *)
  Definition agree (th : nat) (M M' : list entry) : Prop := forall a b, In (a, b, th) M <-> In (a, b, th) M'.
  Definition blind (th : nat) (eq : hval -> hval -> list entry -> res bool * list entry) : Prop :=
    forall x y M M', agree th M M' -> fst (eq x y M) = fst (eq x y M').
  Lemma item_blind th eq : blind th eq -> blind th (eq_item eq).
  Proof. intros B x y M M' A. unfold eq_item. destruct (same_obj x y); [reflexivity|now apply B]. Qed.
  Lemma seq_blind th eq : restores eq -> blind th eq -> forall l l' M M', agree th M M' -> fst (seq_loop eq l l' M) = fst (seq_loop eq l l' M').
  Proof.
    intros R B. induction l as [|x l IH]; intros [|y l'] M M' A; try reflexivity. cbn.
    pose proof (item_restores eq R x y M) as H. pose proof (item_restores eq R x y M') as H'. pose proof (item_blind th eq B x y M M' A) as K.
    destruct (eq_item eq x y M) as [r N], (eq_item eq x y M') as [r' N']. cbn in H, H', K. subst. destruct r' as [[]|]; auto.
  Qed.
  Lemma dict_blind th eq : restores eq -> blind th eq -> forall d d' M M', agree th M M' -> fst (dict_loop eq d d' M) = fst (dict_loop eq d d' M').
  Proof.
    intros R B. induction d as [|[x v] d IH]; intros d' M M' A; [reflexivity|]. cbn. destruct (dget x d') as [w|]; [|reflexivity].
    pose proof (item_restores eq R v w M) as H. pose proof (item_restores eq R v w M') as H'. pose proof (item_blind th eq B v w M M' A) as K.
    destruct (eq_item eq v w M) as [r N], (eq_item eq v w M') as [r' N']. cbn in H, H', K. subst. destruct r' as [[]|]; auto.
  Qed.
  Lemma field_blind th eq : restores eq -> blind th eq -> forall d d' M M', agree th M M' -> fst (field_loop eq d d' M) = fst (field_loop eq d d' M').
  Proof.
    intros R B. induction d as [|[x v] d IH]; intros d' M M' A; [reflexivity|]. cbn. set (w := match dget x d' with Some w => w | None => HAtom 0 end).
    pose proof (R v w M) as H. pose proof (R v w M') as H'. pose proof (B v w M M' A) as K.
    destruct (eq v w M) as [r N], (eq v w M') as [r' N']. cbn in H, H', K. subst. destruct r' as [[]|]; auto.
  Qed.
  Theorem heq_blind th n : blind th (heq h aeq th n).
  Proof.
    induction n as [|n IH]; intros x y M M' A; [reflexivity|]. cbn [heq]. destruct x as [i|a], y as [j|b]; try reflexivity.
    pose proof (heq_restores th n) as R.
    destruct (at_addr h a) as [t l|d|c d], (at_addr h b) as [t' l'|d'|c' d']; try reflexivity.
    - destruct (_ && _)%bool; [|reflexivity]. now apply (seq_blind th).
    - destruct (Nat.eqb _ _); [|reflexivity]. now apply (dict_blind th).
    - destruct (Nat.eqb a b); [reflexivity|]. destruct (negb _); [reflexivity|].
      assert (E : in_memo (a, b, th) M = in_memo (a, b, th) M').
      { apply Bool.eq_iff_eq_true. rewrite !in_memo_in. apply A. }
      rewrite E. destruct (in_memo (a, b, th) M'); [reflexivity|].
      assert (A' : agree th ((a, b, th) :: M) ((a, b, th) :: M')) by (intros p q; cbn; rewrite (A p q); reflexivity).
      pose proof (field_blind th _ R IH d d' _ _ A') as K. destruct (field_loop (heq h aeq th n) d d' ((a, b, th) :: M)) as [r N], (field_loop (heq h aeq th n) d d' ((a, b, th) :: M')) as [r' N'].
      exact K.
  Qed.

  (** *** What the answer means *)
  Definition assumed (th : nat) (M : list entry) (x y : hval) : Prop := exists a b, x = HRef a /\ y = HRef b /\ In (a, b, th) M.
  Definition upto (th : nat) (M : list entry) (R : hval -> hval -> Prop) (x y : hval) : Prop := R x y \/ assumed th M x y.
  (** Some relation that is respected up to the assumptions. *)
  Definition backed (th : nat) (M : list entry) (x y : hval) : Prop :=
    exists R : hval -> hval -> Prop, upto th M R x y /\ forall v w, R v w -> alike h aeq (upto th M R) v w.
  Lemma alike_mono (S S' : hval -> hval -> Prop) : (forall v w, S v w -> S' v w) -> forall v w, alike h aeq S v w -> alike h aeq S' v w.
  Proof.
    intros H v w A. assert (P : forall v w, parts S v w -> parts S' v w) by (intros p q [->|K]; [now left|right; auto]).
    destruct A as [i j E|a b t l l' Ha Hb F|a b d d' Ha Hb L F|a c d Ha|a b c d d' Ha Hb F].
    - now constructor.
    - apply (al_seq _ _ _ a b t l l' Ha Hb). clear - F P. induction F; constructor; auto.
    - apply (al_dict _ _ _ a b d d' Ha Hb L). intros x p I. destruct (F x p I) as (q & D & K). eauto.
    - now apply (al_self _ _ _ a c d).
    - apply (al_inst _ _ _ a b c d d' Ha Hb). intros x p I. auto.
  Qed.
  (** Many such relations make one. *)
  Lemma backed_all {A} th M (f g : A -> hval) (l : list A) : (forall z, In z l -> backed th M (f z) (g z)) ->
    exists R : hval -> hval -> Prop, (forall z, In z l -> upto th M R (f z) (g z)) /\ forall v w, R v w -> alike h aeq (upto th M R) v w.
  Proof.
    intros H.
    exists (fun v w => exists R : hval -> hval -> Prop, R v w /\ forall p q, R p q -> alike h aeq (upto th M R) p q). split.
    - intros z I. destruct (H z I) as (R & [U|U] & C); [left; eauto|now right].
    - intros v w (R & U & C). eapply alike_mono; [|apply C, U]. intros p q [K|K]; [left; eauto|now right].
  Qed.
  Lemma assumed_cons th a b M x y : assumed th ((a, b, th) :: M) x y <-> (x = HRef a /\ y = HRef b) \/ assumed th M x y.
  Proof.
    split.
    - intros (p & q & -> & -> & [[= -> ->]|I]); [left; auto|right; exists p, q; auto].
    - intros [[-> ->]|(p & q & -> & -> & I)]; [exists a, b; cbn; auto|exists p, q; cbn; auto].
  Qed.
  (** The loops, once parts are understood. *)
  Lemma seq_true th eq : restores eq -> (forall x y M, fst (eq x y M) = Ok true -> backed th M x y) ->
    forall l l' M, length l = length l' -> fst (seq_loop eq l l' M) = Ok true -> Forall2 (fun x y => x = y \/ backed th M x y) l l'.
  Proof.
    intros R B. induction l as [|x l IH]; intros [|y l'] M L; try discriminate; [constructor|]. cbn.
    pose proof (item_restores eq R x y M) as H. destruct (eq_item eq x y M) as [[[]|] M'] eqn:E; cbn in H |- *; try discriminate. subst M'.
    intros K. constructor; [|apply IH; [cbn in L; lia|exact K]]. unfold eq_item in E. destruct (same_obj x y) eqn:S.
    - left. now apply same_obj_eq.
    - right. apply B. now rewrite E.
  Qed.
  Lemma dict_true th eq : restores eq -> (forall x y M, fst (eq x y M) = Ok true -> backed th M x y) ->
    forall d d' M, fst (dict_loop eq d d' M) = Ok true -> forall x v, In (x, v) d -> exists w, dget x d' = Some w /\ (v = w \/ backed th M v w).
  Proof.
    intros R B. induction d as [|[x v] d IH]; intros d' M; [intros _ ? ? []|]. cbn. destruct (dget x d') as [w|] eqn:D; [|discriminate].
    pose proof (item_restores eq R v w M) as H. destruct (eq_item eq v w M) as [[[]|] M'] eqn:E; cbn in H |- *; try discriminate. subst M'.
    intros K y p [[= <- <-]|I]; [|apply (IH d' M K y p I)]. exists w. split; [exact D|]. unfold eq_item in E. destruct (same_obj v w) eqn:S.
    - left. now apply same_obj_eq.
    - right. apply B. now rewrite E.
  Qed.
  Lemma field_true th eq : restores eq -> (forall x y M, fst (eq x y M) = Ok true -> backed th M x y) ->
    forall d d' M, fst (field_loop eq d d' M) = Ok true ->
      forall x v, In (x, v) d -> backed th M v (match dget x d' with Some w => w | None => HAtom 0 end).
  Proof.
    intros R B. induction d as [|[x v] d IH]; intros d' M; [intros _ ? ? []|]. cbn. set (w := match dget x d' with Some w => w | None => HAtom 0 end).
    pose proof (R v w M) as H. destruct (eq v w M) as [[[]|] M'] eqn:E; cbn in H |- *; try discriminate. subst M'.
    intros K y p [[= <- <-]|I]; [|apply (IH d' M K y p I)]. apply B. unfold w in E. now rewrite E.
  Qed.
  Theorem true_backed th n : forall x y M, fst (heq h aeq th n x y M) = Ok true -> backed th M x y.
  Proof.
    induction n as [|n IH]; intros x y M; [discriminate|]. cbn [heq].
    pose proof (heq_restores th n) as Rs.
    assert (One : forall (R : hval -> hval -> Prop), (forall v w, R v w -> alike h aeq (upto th M R) v w) -> alike h aeq (upto th M R) x y -> backed th M x y).
    { intros R C A. exists (fun v w => R v w \/ v = x /\ w = y). split; [left; right; auto|].
      assert (Up : forall v w, upto th M R v w -> upto th M (fun v w => R v w \/ v = x /\ w = y) v w) by (intros v w [K|K]; [left; auto|now right]).
      intros v w [K|[-> ->]]; (eapply alike_mono; [exact Up|]); auto. }
    destruct x as [i|a], y as [j|b]; try discriminate.
    { cbn. intros E. apply (One (fun _ _ => False)); [intros _ _ []|]. now constructor. }
    destruct (at_addr h a) as [t l|d|c d] eqn:Ha, (at_addr h b) as [t' l'|d'|c' d'] eqn:Hb; try discriminate.
    - destruct (Bool.eqb t t') eqn:T; [|discriminate]. destruct (Nat.eqb_spec (length l) (length l')) as [L|]; [|discriminate]. cbn.
      apply Bool.eqb_prop in T as <-. intros E. pose proof (seq_true th _ Rs IH l l' M L E) as F.
      destruct (backed_all th M fst snd (filter (fun p => negb (same_obj (fst p) (snd p))) (combine l l'))) as (R & U & C).
      { intros [v w] I. apply filter_In in I as [I N]. cbn in *. apply Bool.negb_true_iff in N. clear - F I N.
        induction F as [|p q l l' [->|K] F IHF]; [destruct I| |]; cbn in I; destruct I as [[= -> ->]|I]; auto.
        pose proof (proj2 (same_obj_eq w w) eq_refl). congruence. }
      apply (One R C). apply (al_seq _ _ _ a b t l l' Ha Hb). cbn in U. clear - L U. revert l' L U.
      induction l as [|v l IHl]; intros [|w l'] L U; try discriminate; constructor.
      + destruct (same_obj v w) eqn:S; [left; now apply same_obj_eq|right]. apply (U (v, w)). cbn. rewrite S. cbn. auto.
      + apply IHl; [cbn in L; lia|]. intros z I. apply U. cbn. destruct (negb _); [right|]; exact I.
    - destruct (Nat.eqb_spec (length d) (length d')) as [L|]; [|discriminate]. intros E. pose proof (dict_true th _ Rs IH d d' M E) as F.
      destruct (backed_all th M (fun p : key * hval => snd p) (fun p => match dget (fst p) d' with Some w => w | None => HAtom 0 end)
        (filter (fun p => negb (same_obj (snd p) (match dget (fst p) d' with Some w => w | None => HAtom 0 end))) d)) as (R & U & C).
      { intros [x v] I. apply filter_In in I as [I N]. cbn in *. destruct (F x v I) as (w & D & [->|K]); rewrite D in N |- *; [|exact K].
        pose proof (proj2 (same_obj_eq w w) eq_refl) as Q. rewrite Q in N. discriminate. }
      apply (One R C). apply (al_dict _ _ _ a b d d' Ha Hb L). intros x v I. destruct (F x v I) as (w & D & _). exists w. split; [exact D|].
      destruct (same_obj v w) eqn:S; [left; now apply same_obj_eq|right]. specialize (U (x, v)). cbn in U. rewrite D in U. apply U.
      apply filter_In. split; [exact I|]. cbn. now rewrite D, S.
    - destruct (Nat.eqb_spec a b) as [<-|Nab].
      { intros _. apply (One (fun _ _ => False)); [intros _ _ []|]. now apply (al_self _ _ _ a c d). }
      destruct (Nat.eqb_spec c c') as [<-|]; [|discriminate]. cbn. destruct (in_memo (a, b, th) M) eqn:E.
      { intros _. exists (fun _ _ => False). split; [|intros _ _ []]. right. exists a, b. apply in_memo_in in E. auto. }
      destruct (field_loop (heq h aeq th n) d d' ((a, b, th) :: M)) as [r M'] eqn:L. cbn. intros ->.
      assert (F := field_true th _ Rs IH d d' ((a, b, th) :: M)). rewrite L in F. specialize (F eq_refl).
      destruct (backed_all th ((a, b, th) :: M) (fun p : key * hval => snd p) (fun p => match dget (fst p) d' with Some w => w | None => HAtom 0 end) d) as (R & U & C).
      { intros [x v] I. cbn. now apply F. }
      exists (fun v w => R v w \/ v = HRef a /\ w = HRef b). split; [left; right; auto|].
      assert (Up : forall v w, upto th ((a, b, th) :: M) R v w -> upto th M (fun v w => R v w \/ v = HRef a /\ w = HRef b) v w).
      { intros v w [K|K]; [left; auto|]. apply assumed_cons in K as [K|K]; [left; auto|now right]. }
      intros v w [K|[-> ->]].
      + eapply alike_mono; [exact Up|]. now apply C.
      + apply (al_inst _ _ _ a b c d d' Ha Hb). intros x v I. apply Up. apply (U (x, v) I).
  Qed.
  Theorem true_equal th n x y M : (forall e, In e M -> snd e <> th) -> fst (heq h aeq th n x y M) = Ok true -> equal_graphs h aeq x y.
  Proof.
    intros N E. apply true_backed in E as (R & U & C).
    assert (No : forall v w, ~ assumed th M v w) by (intros v w (a & b & _ & _ & I); exact (N _ I eq_refl)).
    exists R. split; [destruct U as [U|U]; [exact U|now apply No in U]|]. intros v w K. eapply alike_mono; [|apply C, K].
    intros p q [Z|Z]; [exact Z|now apply No in Z].
  Qed.

  (** Conversely. *)
  Definition yes (r : res bool) : Prop := r = Ok true \/ r = Raise XFuel.
  Theorem equal_true (S : hval -> hval -> Prop) : (forall v w, S v w -> alike h aeq S v w) ->
    forall th n x y M, S x y -> yes (fst (heq h aeq th n x y M)).
  Proof.
    intros C th. induction n as [|n IH]; intros x y M H; [now right|]. apply C in H. cbn [heq]. pose proof (heq_restores th n) as Rs.
    assert (It : forall v w M, parts S v w -> yes (fst (eq_item (heq h aeq th n) v w M))).
    { intros v w M0 P. unfold eq_item. destruct (same_obj v w) eqn:E; [now left|]. destruct P as [->|P]; [|now apply IH].
      pose proof (proj2 (same_obj_eq w w) eq_refl). congruence. }
    destruct H as [i j E|a b t l l' Ha Hb F|a b d d' Ha Hb L F|a c d Ha|a b c d d' Ha Hb F].
    - left. exact E.
    - rewrite Ha, Hb, Bool.eqb_reflx, (proj2 (Nat.eqb_eq _ _) (same_length _ _ _ F)). cbn. clear Ha Hb. revert M.
      induction F as [|v w l l' P F IHF]; intros M; [now left|]. cbn. pose proof (item_restores _ Rs v w M) as Q. specialize (It v w M P).
      destruct (eq_item _ v w M) as [r M']. cbn in Q, It. subst M'. destruct It as [->| ->]; [apply IHF|now right].
    - rewrite Ha, Hb, L, Nat.eqb_refl. clear Ha Hb L. revert M F.
      induction d as [|[x v] d IHd]; intros M F; [now left|]. cbn. destruct (F x v (or_introl eq_refl)) as (w & D & P). rewrite D.
      pose proof (item_restores _ Rs v w M) as Q. specialize (It v w M P). destruct (eq_item _ v w M) as [r M']. cbn in Q, It. subst M'.
      destruct It as [->| ->]; [|now right]. apply IHd. intros y p I. apply F. now right.
    - rewrite Ha, Nat.eqb_refl. now left.
    - rewrite Ha, Hb. destruct (Nat.eqb a b); [now left|]. rewrite Nat.eqb_refl. cbn. destruct (in_memo (a, b, th) M); [now left|].
      assert (K : forall M, yes (fst (field_loop (heq h aeq th n) d d' M))).
      { clear Ha Hb M. revert F. induction d as [|[x v] d IHd]; intros F M; [now left|]. cbn. pose proof (F x v (or_introl eq_refl)) as P.
        set (w := match dget x d' with Some w => w | None => HAtom 0 end) in *. pose proof (Rs v w M) as Q. pose proof (IH v w M P) as It'.
        destruct (heq h aeq th n v w M) as [r M']. cbn in Q, It'. subst M'. destruct It' as [->| ->]; [|now right]. apply IHd. intros y p I. apply F. now right. }
      specialize (K ((a, b, th) :: M)). destruct (field_loop _ d d' _) as [r M']. exact K.
  Qed.

  (** *** Comparison ends *)
  Context (raises : forall i j, aeq i j <> Raise XFuel).
  Context (rank : nat -> nat) (bound : nat) (Rk : ranked h rank) (Bd : forall a, rank a <= bound).
  Definition pairs : list (nat * nat) := list_prod (seq 0 (length h)) (seq 0 (length h)).
  Definition free (th : nat) (M : list entry) : nat := length (filter (fun p => negb (in_memo (fst p, snd p, th) M)) pairs).
  Definition need (m : nat) (x : hval) : nat :=
    m * (bound + 3) + match x with
                      | HAtom _ => 1
                      | HRef a => match at_addr h a with HInst _ _ => 1 | _ => 2 + rank a end
                      end.
  Lemma filter_drop {A} (f g : A -> bool) l z : (forall w, g w = true -> f w = true) -> In z l -> f z = true -> g z = false ->
    length (filter g l) < length (filter f l).
  Proof.
    intros H. assert (Le : forall l, length (filter g l) <= length (filter f l)).
    { induction l0 as [|w l0 IH]; [auto|]. cbn. destruct (g w) eqn:G; [rewrite (H w G); cbn; lia|]. destruct (f w); cbn; lia. }
    induction l as [|w l IH]; [intros []|]. intros [->|I] F G; cbn.
    - rewrite F, G. cbn. specialize (Le l). lia.
    - specialize (IH I F G). destruct (g w) eqn:Gw; [rewrite (H w Gw); cbn; lia|]. destruct (f w); cbn; lia.
  Qed.
  Lemma inst_addr a c d : at_addr h a = HInst c d -> a < length h.
  Proof. intros H. destruct (Nat.ltb_spec a (length h)); [assumption|]. unfold at_addr in H. rewrite nth_overflow in H by assumption. discriminate. Qed.
  Lemma free_enter th a b M : a < length h -> b < length h -> in_memo (a, b, th) M = false -> free th ((a, b, th) :: M) < free th M.
  Proof.
    intros La Lb N. apply (filter_drop _ _ pairs (a, b)).
    - intros [p q]. cbn. rewrite !Bool.negb_true_iff, Bool.orb_false_iff. intuition.
    - unfold pairs. apply in_prod; apply in_seq; lia.
    - cbn. now rewrite N.
    - cbn. rewrite !Nat.eqb_refl. reflexivity.
  Qed.
  Definition ends {A} (p : res bool * A) : Prop := fst p <> Raise XFuel.
  Theorem heq_ends th n : forall x y M, need (free th M) x <= n -> ends (heq h aeq th n x y M).
  Proof using raises Rk Bd.
    induction n as [|n IH]; intros x y M Le.
    { unfold need in Le. destruct x as [i|a]; [lia|]. destruct (at_addr h a); lia. }
    cbn [heq]. pose proof (heq_restores th n) as Rs. destruct x as [i|a], y as [j|b]; try (unfold ends; cbn; discriminate).
    { unfold ends. cbn. apply raises. }
    destruct (at_addr h a) as [t l|d|c d] eqn:Ha, (at_addr h b) as [t' l'|d'|c' d'] eqn:Hb; try (unfold ends; cbn; discriminate).
    - destruct (_ && _)%bool; [|unfold ends; cbn; discriminate].
      assert (It : forall v, In v l -> forall w, ends (eq_item (heq h aeq th n) v w M)).
      { intros v I w. unfold eq_item. destruct (same_obj v w); [unfold ends; cbn; discriminate|]. apply IH. unfold need in Le |- *. rewrite Ha in Le.
        destruct v as [i|e]; [lia|]. assert (K := Rk a e). rewrite Ha in K. specialize (K I). destruct (at_addr h e); lia. }
      clear Le Ha Hb. revert l' It. induction l as [|v l IHl]; intros [|w l'] It; try (unfold ends; cbn; discriminate). cbn.
      pose proof (item_restores _ Rs v w M) as Q. pose proof (It v (or_introl eq_refl) w) as E. destruct (eq_item _ v w M) as [r M']. cbn in Q. subst M'.
      destruct r as [[]|]; [apply IHl; intros p I; apply It; now right|unfold ends; cbn; discriminate|exact E].
    - destruct (Nat.eqb _ _); [|unfold ends; cbn; discriminate].
      assert (It : forall x v, In (x, v) d -> forall w, ends (eq_item (heq h aeq th n) v w M)).
      { intros x v I w. unfold eq_item. destruct (same_obj v w); [unfold ends; cbn; discriminate|]. apply IH. unfold need in Le |- *. rewrite Ha in Le.
        destruct v as [i|e]; [lia|]. assert (K := Rk a e). rewrite Ha in K. specialize (K (ex_intro _ x I)). destruct (at_addr h e); lia. }
      clear Le Ha. induction d as [|[x v] d IHd]; [unfold ends; cbn; discriminate|]. cbn. destruct (dget x d') as [w|]; [|unfold ends; cbn; discriminate].
      pose proof (item_restores _ Rs v w M) as Q. pose proof (It x v (or_introl eq_refl) w) as E. destruct (eq_item _ v w M) as [r M']. cbn in Q. subst M'.
      destruct r as [[]|]; [apply IHd; intros y p I; apply (It y); now right|unfold ends; cbn; discriminate|exact E].
    - destruct (Nat.eqb a b); [unfold ends; cbn; discriminate|]. destruct (negb _); [unfold ends; cbn; discriminate|].
      destruct (in_memo (a, b, th) M) eqn:E; [unfold ends; cbn; discriminate|].
      pose proof (free_enter th a b M (inst_addr _ _ _ Ha) (inst_addr _ _ _ Hb) E) as Fr.
      assert (It : forall v w, ends (heq h aeq th n v w ((a, b, th) :: M))).
      { intros v w. apply IH. unfold need in Le |- *. rewrite Ha in Le.
        assert (B : match v with HAtom _ => 1 | HRef e => match at_addr h e with HInst _ _ => 1 | _ => 2 + rank e end end <= bound + 2).
        { destruct v as [i|e]; [lia|]. specialize (Bd e). destruct (at_addr h e); lia. }
        assert (F1 : free th ((a, b, th) :: M) + 1 <= free th M) by lia. remember (free th ((a, b, th) :: M)) as f1. remember (free th M) as f2. nia. }
      assert (K : ends (field_loop (heq h aeq th n) d d' ((a, b, th) :: M))).
      { clear Le Ha. induction d as [|[x v] d IHd]; [unfold ends; cbn; discriminate|]. cbn. set (w := match dget x d' with Some w => w | None => HAtom 0 end).
        pose proof (Rs v w ((a, b, th) :: M)) as Q. pose proof (It v w) as Ev. destruct (heq h aeq th n v w _) as [r M']. cbn in Q. subst M'.
        destruct r as [[]|]; [exact IHd|unfold ends; cbn; discriminate|exact Ev]. }
      destruct (field_loop _ d d' _) as [r M']. exact K.
  Qed.
End Eq.

Lemma filter_le {A} (f : A -> bool) l : length (filter f l) <= length l.
Proof. induction l as [|x l IH]; [auto|]. cbn. destruct (f x); cbn; lia. Qed.

Section Main.
  Context (h : heap) (aeq : nat -> nat -> res bool).
  Theorem false_differ th n x y M : fst (heq h aeq th n x y M) = Ok false -> ~ equal_graphs h aeq x y.
  Proof. intros E (S & H & C). destruct (equal_true h aeq S C th n x y M H) as [K|K]; congruence. Qed.
  Context (raises : forall i j, aeq i j <> Raise XFuel).
  Context (rank : nat -> nat) (bound : nat) (Rk : ranked h rank) (Bd : forall a, rank a <= bound).
  Definition depth : nat := length h * length h * (bound + 3) + bound + 2.
  Theorem comparison_ends : exists m, forall n th x y M, m <= n -> fst (heq h aeq th n x y M) <> Raise XFuel.
  Proof using raises Rk Bd.
    exists depth. intros n th x y M Le. apply (heq_ends h aeq raises rank bound Rk Bd).
    assert (F : free h th M <= length h * length h).
    { unfold free. etransitivity; [apply filter_le|]. unfold pairs. rewrite prod_length, seq_length. lia. }
    assert (B : match x with HAtom _ => 1 | HRef e => match at_addr h e with HInst _ _ => 1 | _ => 2 + rank e end end <= bound + 2).
    { destruct x as [i|e]; [lia|]. specialize (Bd e). destruct (at_addr h e); lia. }
    unfold need. unfold depth in Le. nia.
  Qed.
  Theorem meaning : exists m, forall n th x y M, m <= n -> (forall e, In e M -> snd e <> th) ->
    (fst (heq h aeq th n x y M) = Ok true <-> equal_graphs h aeq x y).
  Proof using raises Rk Bd.
    destruct comparison_ends as [m H]. exists m. intros n th x y M Le N. split; [now apply true_equal|].
    intros (S & K & C). destruct (equal_true h aeq S C th n x y M K) as [E|E]; [exact E|]. now apply H in E.
  Qed.
End Main.

(** A list that contains itself. *)
Theorem list_cycles th n M : fst (heq [HSeq false [HRef 0]; HSeq false [HRef 1]] (fun i j => Ok (Nat.eqb i j)) th n (HRef 0) (HRef 1) M) = Raise XFuel.
Proof.
  revert M. induction n as [|n IH]; intros M; [reflexivity|]. cbn [heq at_addr nth Bool.eqb length Nat.eqb andb seq_loop].
  unfold eq_item. cbn [same_obj Nat.eqb]. specialize (IH M). destruct (heq _ _ th n (HRef 0) (HRef 1) M) as [r M']. cbn in IH |- *. subst r. reflexivity.
Qed.
