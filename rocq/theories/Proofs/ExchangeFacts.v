(** Data that travel between two versions of a program. *)
From Verif.Model Require Import Py Core Export Api.
From Verif.Spec Require Import ImportSpec FuelSpec PrimitiveSpec ExportSpec OrderSpec EvolveSpec ForwardSpec ExchangeSpec.
From Verif.Proofs Require Import DictLemmas FuelBound RoundTrip EvolveFacts ForwardFacts.

Section Exchange.
  Context (E E2 : env).

  Lemma given_clean n : forall b v, vdepth v < n -> given E E2 b v -> clean v.
  Proof.
    induction n as [|n IH]; intros b v D G; [lia|]. destruct G as [v H|l H|l H|d H].
    - destruct v; try contradiction; now apply cn_other.
    - apply cn_list. intros v Hi. rewrite vdepth_list in D. pose proof (ldepth_In _ _ Hi). rewrite Forall_forall in H.
      eapply IH; [|exact (H _ Hi)]. lia.
    - apply cn_tuple. intros v Hi. rewrite vdepth_tuple in D. pose proof (ldepth_In _ _ Hi). rewrite Forall_forall in H.
      eapply IH; [|exact (H _ Hi)]. lia.
    - apply cn_dict. intros y v Hi. rewrite vdepth_dict in D. pose proof (ddepth_In _ _ _ Hi).
      eapply IH; [|exact (proj1 (H y v Hi))]. lia.
  Qed.

  Lemma Forall2_eq {A} (R : A -> A -> Prop) l m : (forall x y, In x l -> R x y -> y = x) -> Forall2 R l m -> m = l.
  Proof.
    intros H F. induction F as [|x y l m Rxy F IHF]; [reflexivity|]. f_equal; [apply H; [now left|exact Rxy]|].
    apply IHF. intros a b Ha. apply H. now right.
  Qed.
  Lemma Forall2_swap {A} (R : A -> A -> Prop) l m : Forall2 R l m -> Forall2 (fun y x => R x y) m l.
  Proof. induction 1; constructor; assumption. Qed.
  (** Without instances nothing is left out. *)
  Lemma trim_raw n : forall b s f v w, vdepth v < n -> given E E2 b v -> trim E E2 s f v w -> w = v.
  Proof.
    induction n as [|n IH]; intros b s f v w D G T; [lia|].
    destruct T as [| | | |o g l m F|o g ck d e F|o c a m p U1 U2 A B]; try reflexivity.
    - f_equal. inversion G as [? P|l' H|l' H|d' H]; subst; [contradiction P|]. rewrite vdepth_list in D. rewrite Forall_forall in H.
      revert F. apply Forall2_eq. intros x y Hx Rxy. pose proof (ldepth_In _ _ Hx). eapply IH; [|exact (H x Hx)|exact Rxy]. lia.
    - f_equal. inversion G as [? P|l' H|l' H|d' H]; subst; [contradiction P|]. rewrite vdepth_dict in D.
      revert F. apply Forall2_eq. intros [x v] [y w] Hx [Q Rxy]. cbn in Q, Rxy. subst y. f_equal. pose proof (ddepth_In _ _ _ Hx).
      eapply IH; [|exact (proj1 (H x v Hx))|exact Rxy]. lia.
    - inversion G as [? P|l' H|l' H|d' H]; contradiction P.
  Qed.
  Lemma kin_raw n : forall b s f v w, vdepth w < n -> sent E E2 b w -> kin E E2 s f v w -> v = w.
  Proof.
    induction n as [|n IH]; intros b s f v w D G T; [lia|].
    destruct T as [| | | |o g m l F|o g ck e d F|o c a m p U1 U2 A B]; try reflexivity.
    - f_equal. inversion G as [? P|l' H|l' H|d' H]; subst; [contradiction P|]. rewrite vdepth_list in D. rewrite Forall_forall in H.
      apply Forall2_swap in F. revert F. apply Forall2_eq. intros x y Hx Rxy. pose proof (ldepth_In _ _ Hx). eapply IH; [|exact (H x Hx)|exact Rxy]. lia.
    - f_equal. inversion G as [? P|l' H|l' H|d' H]; subst; [contradiction P|]. rewrite vdepth_dict in D.
      apply Forall2_swap in F. revert F. apply Forall2_eq. intros [x v] [y w] Hx [Q Rxy]. cbn in Q, Rxy. subst y. f_equal. pose proof (ddepth_In _ _ _ Hx).
      eapply IH; [|exact (proj1 (H x v Hx))|exact Rxy]. lia.
    - inversion G as [? P|l' H|l' H|d' H]; contradiction P.
  Qed.

  Lemma kin_data_rest c m n y : kin_data E E2 c m n -> ~ In y (dkeys (fields_of E c)) -> chain_get m y = None.
  Proof.
    intros (U1 & U2 & A & B) H.
    assert (L : forall d e, layer E E2 (kin E E2 false) c d e -> dget y d = None).
    { intros d e (_ & _ & _ & _ & _ & N & O). destruct (kmem y (dkeys (fields_of E2 c))) eqn:I; [apply kmem_In in I|apply (O y); intros J; apply kmem_In in J; congruence].
      unfold dkeys in I. apply in_map_iff in I. destruct I as ([z f] & Q & I). cbn in Q. subst z. apply (N y f). now split. }
    unfold chain_get. rewrite U1. cbn [dget]. rewrite (L _ _ A). exact (L _ _ B).
  Qed.

  (** What went to the later version and came back. *)
  Lemma back n : forall f u v w, vdepth u < n -> kin E E2 false f u v -> trim E E2 true f v w -> agree E f u w.
  Proof.
    induction n as [|n IH]; intros f u v w D K T; [lia|].
    destruct K as [f v G|f|o l v|o ms v|o g l l' F|o g ck d d' F|o c b m m' U1 U2 A B].
    - rewrite (trim_raw (S (vdepth v)) _ _ _ _ _ (Nat.lt_succ_diag_r _) G T). apply ag_same.
    - inversion T; subst; try apply ag_same.
    - apply trim_leaf_eq in T as <-. apply ag_same.
    - apply trim_union_eq in T as <-. apply ag_same.
    - inversion T as [? ? G| | | |? ? ? m F2| |]; subst.
      + assert (Q : VList l = VList l') by (eapply kin_raw; [apply Nat.lt_succ_diag_r|exact G|exact (kin_list E E2 false o g l l' F)]).
        rewrite Q. apply ag_same.
      + apply ag_list. rewrite vdepth_list in D.
        assert (D' : forall x, In x l -> vdepth x < n) by (intros x Hx; apply ldepth_In in Hx; lia). clear D T.
        revert m F2. induction F as [|x y l l' Kxy F IHF]; intros m F2; inversion F2 as [|? z ? m2 Tyz F3]; subst; constructor.
        * eapply IH; [apply D'; now left|exact Kxy|exact Tyz].
        * apply IHF; [|exact F3]. intros a Ha. apply D'. now right.
    - inversion T as [? ? G| | | | |? ? ? ? m F2|]; subst.
      + assert (Q : VDict d = VDict d') by (eapply kin_raw; [apply Nat.lt_succ_diag_r|exact G|exact (kin_dict E E2 false o g ck d d' F)]).
        rewrite Q. apply ag_same.
      + apply ag_dict. rewrite vdepth_dict in D.
        assert (D' : forall x a, In (x, a) d -> vdepth a < n) by (intros x a Hx; apply ddepth_In in Hx; lia). clear D T.
        revert m F2. induction F as [|[x a] [y a'] l l' [Q Kxy] F IHF]; intros m F2; inversion F2 as [|? [z a''] ? m2 [Q2 Tyz] F3]; subst; cbn in *; subst; constructor.
        * split; [reflexivity|]. cbn. eapply IH; [eapply D'; left; reflexivity|exact Kxy|exact Tyz].
        * apply IHF; [|exact F3]. intros p q Ha. apply (D' p q). right. exact Ha.
    - inversion T as [? ? G| | | | | |? ? ? ? p U3 U4 A2 B2]; subst; [inversion G as [? P| | |]; contradiction P|].
      pose proof (conj U1 (conj U2 (conj A B)) : kin_data E E2 b m m') as K.
      pose proof (conj U3 (conj U4 (conj A2 B2)) : trim_data E E2 b m' p) as T2.
      apply ag_model.
      + intros y f Hf. pose proof (kin_reads E E2 b m m' y f K Hf) as R1. pose proof (trim_reads E E2 b m' p y f T2 Hf) as R2.
        destruct (chain_get m y) as [a|] eqn:G1; inversion R1 as [Q1 Q2|? a' Ka Q1 Q2]; subst; rewrite <- Q2 in R2;
          inversion R2 as [Q3 Q4|? a'' Ta Q3 Q4]; subst; constructor.
        eapply IH; [|exact Ka|exact Ta]. pose proof (chain_depth b m y a G1). lia.
      + intros y Hy. split; [now apply (kin_data_rest b m m')|now apply (trim_other E E2 b m')].
  Qed.
  Lemma back_data c m m2 m3 : kin_data E E2 c m m2 -> trim_data E E2 c m2 m3 -> agree_data E c m m3.
  Proof.
    intros K T. split.
    - intros y f Hf. pose proof (kin_reads E E2 c m m2 y f K Hf) as R1. pose proof (trim_reads E E2 c m2 m3 y f T Hf) as R2.
      destruct R1 as [|a a' Ka]; inversion R2 as [Q3 Q4|? a'' Ta Q3 Q4]; subst; constructor.
      exact (back _ _ _ _ _ (Nat.lt_succ_diag_r _) Ka Ta).
    - intros y Hy. split; [now apply (kin_data_rest c m m2)|now apply (trim_other E E2 c m2)].
  Qed.

  Lemma upgrade : extends E E2 -> clear_env E -> forall x n c m w d, ordinary w -> kw_validate w = false ->
    restorable_instance E x (kw_partial w) c m -> model_export_top E (export_at E n) c m x = Ok d -> given E E2 (kw_strict w) (VDict d) ->
    exists m2, model_init E2 (conv_at E2 (4 + 2 * n)) c (VDict d) (VDict []) w = Ok m2 /\ kin_data E E2 c m m2.
  Proof.
    intros X Cl x n c m w d Wo V R Ex G. destruct Wo as [W1 W2].
    pose proof (export_import E x n (2 * n + 1) c m w d Cl W1 W2 V R Ex (Nat.le_refl _)) as H.
    apply (init_tolerant E E2 X (2 * n + 1) c d w m (conj W1 W2) G) in H; [|congruence].
    replace (4 + 2 * n) with (3 + (2 * n + 1)) by lia. exact H.
  Qed.
  Lemma downgrade : adds E E2 -> clear_env E2 -> forall x n c m w d, ordinary w -> kw_validate w = false ->
    restorable_instance E2 x (kw_partial w) c m -> model_export_top E2 (export_at E2 n) c m x = Ok d -> sent E E2 (kw_strict w) (VDict d) ->
    exists m2, model_init E (conv_at E (1 + 2 * n)) c (VDict d) (VDict []) w = Ok m2 /\ trim_data E E2 c m m2.
  Proof.
    intros X Cl x n c m w d Wo V R Ex G. destruct Wo as [W1 W2].
    pose proof (export_import E2 x n (2 * n + 1) c m w d Cl W1 W2 V R Ex (Nat.le_refl _)) as H.
    apply (init_lenient E E2 X (2 * n + 1) c d w m (conj W1 W2) G) in H. destruct H as (m2 & H & T).
    exists m2. split; [replace (1 + 2 * n) with (2 * n + 1) by lia; exact H|]. apply T. congruence.
  Qed.
  Lemma there_and_back : extends E E2 -> adds E E2 -> clear_env E -> forall x x2, restoring_env E2 x2 ->
    forall n c m w d, ordinary w -> kw_validate w = false -> kw_init_values w = true ->
    restorable_instance E x (kw_partial w) c m -> model_export_top E (export_at E n) c m x = Ok d -> given E E2 (kw_strict w) (VDict d) ->
    exists m2, model_init E2 (conv_at E2 (4 + 2 * n)) c (VDict d) (VDict []) w = Ok m2 /\
      forall n2 d2, model_export_top E2 (export_at E2 n2) c m2 x2 = Ok d2 -> sent E E2 (kw_strict w) (VDict d2) ->
      exists m3, model_init E (conv_at E (1 + 2 * n2)) c (VDict d2) (VDict []) w = Ok m3 /\ agree_data E c m m3.
  Proof.
    intros X Y Cl x x2 Rs n c m w d Wo V I R Ex G.
    destruct (upgrade X Cl x n c m w d Wo V R Ex G) as (m2 & H & K). exists m2. split; [exact H|].
    intros n2 d2 Ex2 G2. destruct Wo as [W1 W2].
    assert (Hc : forall y v, In (y, v) d -> clean v).
    { pose proof (given_clean _ _ _ (Nat.lt_succ_diag_r _) G) as Q. inversion Q as [| |? Hd| |? P]; subst; [exact Hd|contradiction P]. }
    pose proof (init_export_init E2 x2 (4 + 2 * n) n2 (2 * n2 + 1) c d w m2 d2 Rs W1 W2 V I Hc H Ex2 (Nat.le_refl _)) as H2.
    apply (init_lenient E E2 Y (2 * n2 + 1) c d2 w m2 (conj W1 W2) G2) in H2. destruct H2 as (m3 & H3 & T).
    exists m3. split; [replace (1 + 2 * n2) with (2 * n2 + 1) by lia; exact H3|]. apply (back_data c m m2 m3 K). apply T. congruence.
  Qed.
End Exchange.
