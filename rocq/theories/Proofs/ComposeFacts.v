(** The export of an instance is made of the exports of its parts. *)
From Verif.Model Require Import Py Core Export Api.
From Verif.Spec Require Import ImportSpec CompoundSpec ExportSpec IndependSpec ComposeSpec.
From Verif.Proofs Require Import DictLemmas ImportLemmas ApiLemmas ExportLemmas.

Section Compose.
  Context (E : env) (HN : distinct_names E) (x : ectx).

  Lemma public_nodup c : NoDup (map (fun p => public_name (fst p) (snd p)) (fields_of E c)).
  Proof using HN.
    destruct (HN c) as [N I]. revert N I. generalize (fields_of E c). intros l. induction l as [|[n f] l IH]; intros N I; cbn; constructor.
    - intros H. apply in_map_iff in H as ([n' f'] & Q & H). cbn [dkeys map fst] in N. inversion N as [|? ? NI ?]; subst. apply NI.
      rewrite (I n f n' f'); [|now left|now right|now symmetry]. apply in_map_iff. now exists (n', f').
    - inversion N; subst. apply IH; [assumption|]. intros a fa b fb Ha Hb. apply I; now right.
  Qed.
  (** What stands under the public name of a field. *)
  Lemma field_out fe c obj d filt n h : export_loop E fe x c obj = Ok d -> role_in_force E c x filt -> In (n, h) (fields_of E c) ->
    forall w, dget (public_name n h) d = Some w <-> writes E fe x filt obj n h w.
  Proof using HN.
    intros X R Hi w. rewrite (export_loop_get _ _ _ _ _ _ filt (public_name n h) w (public_nodup c) X R). destruct (HN c) as [N I]. split.
    - intros (n' & f' & H' & Q & W). assert (n = n') as <- by (eapply I; eauto). assert (h = f') as <-; [|assumption].
      apply (In_dget _ _ _ N) in Hi. apply (In_dget _ _ _ N) in H'. congruence.
    - intros W. eauto.
  Qed.
  Lemma written_elems_nth fe g lvl l r : written_elems fe g x lvl l r -> (2 < lvl)%Z ->
    forall i a, nth_error l i = Some a -> exists w, nth_error r i = Some w /\ fe g a x = Ok w.
  Proof.
    intros W L. induction W as [|v w l r Fe H1 H2 W IH|v w l r Fe H W IH]; intros [|i] a Q; cbn in Q |- *; try discriminate; eauto.
    - injection Q as ->. eauto.
    - exfalso. destruct H as [[_ ?]|(_ & _ & ?)]; lia.
    - exfalso. destruct H as [[_ ?]|(_ & _ & ?)]; lia.
  Qed.
  Lemma written_entries_get fe g lvl l r : written_entries fe g x lvl l r -> NoDup (dkeys l) ->
    forall y a, dget y l = Some a -> exists w, fe g a x = Ok w /\
      dget y r = if skip_elem g lvl w then None else Some w.
  Proof.
    intros W. induction W as [|z v w l r Fe H1 H2 W IH|z v w l r Fe H W IH]; intros N y a Q; [discriminate| |];
      cbn [dkeys map fst] in N; inversion N as [|? ? NI N']; subst; cbn [dget] in Q; destruct (key_eqb y z) eqn:K.
    - injection Q as ->. exists w. split; [assumption|]. cbn [dget]. rewrite K.
      replace (skip_elem g lvl w) with false; [reflexivity|symmetry; apply noskip_spec; auto].
    - cbn [dget]. rewrite K. eauto.
    - injection Q as ->. exists w. split; [assumption|].
      replace (skip_elem g lvl w) with true; [|symmetry; apply skip_spec; auto].
      apply dget_None_keys. apply key_eqb_eq in K. subst z. intros HI. apply NI.
      now apply (proj2 (written_entries_keys fe g x lvl l r W N')).
    - eauto.
  Qed.

  Lemma written_field fe filt obj fs l n h : written E fe x filt obj fs l -> In (n, h) fs ->
    (exists w, writes E fe x filt obj n h w) \/ (forall w, ~ writes E fe x filt obj n h w) /\ (forall e, ~ export_fails E fe x filt obj n h e).
  Proof.
    intros W. induction W as [|n' f' w fs l H W IH|n' f' fs l H1 H2 W IH]; intros Hi; [destruct Hi| |]; destruct Hi as [[= -> ->]|Hi]; eauto.
  Qed.
  Lemma out_empty p v w : p <> [] -> empty_value w \/ w = VNone \/ w = VUndef -> out_at E p v w = None.
  Proof.
    intros P H. destruct p as [|[n|i|y] q]; [congruence| | |]; cbn [out_at];
      destruct v as [| | | | | | |l| |d|c m| | | | | | |]; try reflexivity;
      destruct H as [[->|[->|[->|[->| ->]]]]|[->| ->]]; try reflexivity.
    - destruct (dget n (fields_of E c)); reflexivity.
    - destruct (nth_error l i); [|reflexivity]. now destruct i.
    - destruct (dget y d); reflexivity.
  Qed.
  (** Something below a field. *)
  Lemma field_below fe c m d filt n h lvl q : export_loop E fe x c (VModel c m) = Ok d -> role_in_force E c x filt -> In (n, h) (fields_of E c) ->
    level_in_force E (fd_spec h) x lvl -> is_nil (reading E (VModel c m) n) = false -> q <> [] ->
    ((hidden filt n (reading E (VModel c m) n) \/ lvl = 0%Z) /\ out_at E (SField n :: q) (VModel c m) (VDict d) = None) \/
    (~ hidden filt n (reading E (VModel c m) n) /\ lvl <> 0%Z /\ exists w, fe (fd_spec h) (reading E (VModel c m) n) x = Ok w /\
       out_at E (SField n :: q) (VModel c m) (VDict d) = out_at E q (reading E (VModel c m) n) w).
  Proof using HN.
    intros X R Hi L Nn Q. set (a := reading E (VModel c m) n) in *. destruct (HN c) as [N _].
    assert (out_at E (SField n :: q) (VModel c m) (VDict d) = match dget (public_name n h) d with Some w => out_at E q a w | None => None end) as O.
    { cbn [out_at]. now rewrite (In_dget _ _ _ N Hi). }
    rewrite O. clear O. pose proof (field_out fe c _ d filt n h X R Hi) as G.
    assert (hidden filt n a \/ ~ hidden filt n a) as [Hd|Hd].
    { pose proof (hidden_dec filt n a) as D. destruct (match filt with Some g => g n a | None => false end); [left|right; intros H]; apply D in H || apply D; auto; discriminate. }
    - left. split; [auto|]. destruct (dget (public_name n h) d) as [w|] eqn:D; [|reflexivity]. destruct (proj1 (G w) eq_refl) as [F _]. now destruct F.
    - destruct (Z.eq_dec lvl 0) as [->|L0].
      + left. split; [auto|]. destruct (dget (public_name n h) d) as [w|] eqn:D; [|reflexivity].
        destruct (proj1 (G w) eq_refl) as (_ & l1 & w0 & L1 & _ & S & _). destruct S. now rewrite (level_fun _ _ _ _ _ L L1) in *.
      + right. split; [assumption|]. split; [assumption|].
        apply export_loop_ok in X as (filt' & l & R' & W & ->). rewrite (role_fun _ _ _ _ _ R R') in *.
        destruct (fe (fd_spec h) a x) as [w|e] eqn:Fe.
        * exists w. split; [reflexivity|]. destruct (dget (public_name n h) (dupdate [] l)) as [w1|] eqn:D.
          -- destruct (proj1 (G w1) eq_refl) as (_ & l1 & w0 & L1 & X1 & S & ->). assert (w0 = w) as ->.
             { unfold exported in X1. fold a in X1. destruct X1 as [[? _]|[_ ?]]; congruence. }
             destruct (is_undef w) eqn:U; [|reflexivity]. destruct w; try discriminate. rewrite !out_empty; auto.
          -- symmetry. apply out_empty; [assumption|].
             destruct (is_nil w) eqn:Nw; [right; destruct w; try discriminate; auto|]. left. apply empty_len_spec.
             destruct (empty_len w) eqn:Ew; [reflexivity|]. exfalso.
             assert (writes E fe x filt' (VModel c m) n h w) as Wr; [|apply G in Wr; congruence].
             split; [assumption|]. exists lvl, w. split; [assumption|]. split; [right; split; assumption|]. split.
             ++ split; [assumption|]. split; [intros ->; discriminate Nw|]. split; [intros ->; discriminate Nw|]. intros _ Z. apply empty_len_spec in Z. congruence.
             ++ destruct w; try reflexivity; discriminate Nw.
        * exfalso. assert (export_fails E fe x filt' (VModel c m) n h e) as Ef by (repeat split; auto; exists lvl; auto).
          destruct (written_field _ _ _ _ _ _ _ W Hi) as [(w1 & _ & l1 & w0 & L1 & X1 & _)|[_ NF]]; [|exact (NF e Ef)].
          unfold exported in X1. fold a in X1. destruct X1 as [[? _]|[_ ?]]; congruence.
  Qed.

  Lemma instance_step f j c m w : instance_field f -> export_at E (S j) f (VModel c m) x = Ok w ->
    exists d, w = VDict d /\ export_loop E (export_at E j) x c (VModel c m) = Ok d.
  Proof.
    unfold instance_field. intros I H. cbn [export_at] in H. unfold export_step in H. destruct (fs_type f); try contradiction.
    - unfold model_export in H. destruct (export_loop _ _ _ _ _) as [d|]; [injection H as <-; eauto|discriminate].
    - unfold poly_export in H. destruct (poly_allowed _ _ _); [|discriminate]. destruct (export_loop _ _ _ _ _) as [d|]; [injection H as <-; eauto|discriminate].
  Qed.
  Lemma loop_role fe c obj d : export_loop E fe x c obj = Ok d -> exists filt, role_in_force E c x filt.
  Proof. intros H. apply export_loop_ok in H as (filt & _ & R & _). eauto. Qed.
  Lemma level_some f : exists lvl, level_in_force E f x lvl.
  Proof. exists (get_export_level E f x). now apply level_spec. Qed.
  Lemma list_step o h j l w : writes_none E h x -> export_at E (S j) (FS o (TList h)) (VList l) x = Ok w ->
    exists r, w = VList r /\ forall i a, nth_error l i = Some a -> exists w', nth_error r i = Some w' /\ export_at E j h a x = Ok w'.
  Proof.
    intros Wn H. apply list_export_ok in H as (lvl & L & [[-> _]|(_ & l' & r & Q & W & ->)]); [specialize (Wn _ L); lia|].
    injection Q as <-. exists r. split; [reflexivity|]. apply (written_elems_nth _ _ _ _ _ W). exact (Wn _ L).
  Qed.
  Lemma dict_step o h ck j d w : NoDup (dkeys d) -> export_at E (S j) (FS o (TDict h ck)) (VDict d) x = Ok w ->
    exists r lvl, w = VDict r /\ level_in_force E h x lvl /\ forall y a, dget y d = Some a ->
      lvl = 0%Z /\ dget y r = None \/
      lvl <> 0%Z /\ exists w', export_at E j h a x = Ok w' /\ dget y r = if skip_elem h lvl w' then None else Some w'.
  Proof.
    intros N H. apply dict_export_ok in H as (lvl & L & [[-> ->]|(L0 & r & W & ->)]); [| |exact N].
    - exists [], 0%Z. repeat split; auto.
    - exists r, lvl. repeat split; auto. intros y a Q. right. split; [assumption|]. exact (written_entries_get _ _ _ _ _ W N y a Q).
  Qed.
  Lemma part_nil f p v g u : part_at E x f p v g u -> is_nil v = true -> p = [] /\ g = f /\ u = v.
  Proof. intros H. inversion H; subst; try discriminate; auto. Qed.

  (** What stands for a part is what exporting that part gives. *)
  Definition form_of (j : nat) (g : fspec) (u w : pyval) : Prop :=
    exists w0, (is_nil u = true /\ w0 = u \/ exists i, i <= j /\ export_at E i g u x = Ok w0) /\ (w = w0 \/ w0 = VUndef /\ w = VNone).
  Lemma form_le i j g u w : i <= j -> form_of i g u w -> form_of j g u w.
  Proof. intros L (w0 & [H|(a & A & H)] & Q); exists w0; (split; [|exact Q]); [auto|]. right. exists a. split; [lia|assumption]. Qed.
  Theorem part_form f p v g u : part_at E x f p v g u -> forall j w w', export_at E j f v x = Ok w -> out_at E p v w = Some w' -> form_of j g u w'.
  Proof using HN.
    induction 1 as [f v|f n h p c m g u I Hi P IH|o h i p l a g u Wn Na P IH|o h ck y p d a g u Nd Da P IH]; intros j w w' X O.
    - cbn [out_at] in O. injection O as <-. exists w. split; [|auto]. right. exists j. auto.
    - destruct j as [|j]; [discriminate|]. destruct (instance_step _ _ _ _ _ I X) as (d & -> & L).
      apply (form_le j); [lia|]. destruct (HN c) as [N _]. cbn [out_at] in O. rewrite (In_dget _ _ _ N Hi) in O.
      destruct (loop_role _ _ _ _ L) as [filt R]. destruct (dget (public_name n h) d) as [w1|] eqn:D; [|discriminate].
      apply (field_out _ c _ d filt n h L R Hi) in D as (_ & lvl & w0 & _ & Xp & _ & ->). destruct Xp as [[Nn ->]|[Nn Fw]].
      + destruct (part_nil _ _ _ _ _ P Nn) as (-> & -> & ->). cbn [out_at] in O. assert (forall y z : pyval, Some y = Some z -> y = z) as SI by congruence. apply SI in O. rewrite <- O. exists (reading E (VModel c m) n). split; [left; split; [exact Nn|reflexivity]|].
        clear - Nn. revert Nn. generalize (reading E (VModel c m) n). intros v Nn. destruct v; try discriminate Nn; cbn; auto.
      + destruct (is_undef w0) eqn:U; [|eauto]. destruct w0; try discriminate U. destruct p as [|s q]; [|rewrite out_empty in O; [discriminate|discriminate|auto]].
        inversion P; subst. cbn [out_at] in O. injection O as <-. exists VUndef. split; [|auto]. right. eauto.
    - destruct j as [|j]; [discriminate|]. destruct (list_step _ _ _ _ _ Wn X) as (r & -> & G). destruct (G i a Na) as (w1 & R1 & F1).
      cbn [out_at] in O. rewrite Na, R1 in O. apply (form_le j); [lia|]. eauto.
    - destruct j as [|j]; [discriminate|]. destruct (dict_step _ _ _ _ _ _ Nd X) as (r & lvl & -> & _ & G). cbn [out_at] in O. rewrite Da in O.
      destruct (G y a Da) as [[_ Q]|(_ & w1 & F1 & Q)]; rewrite Q in O; [discriminate|]. destruct (skip_elem h lvl w1); [discriminate|].
      apply (form_le j); [lia|]. eauto.
  Qed.

  (** Parts that are the same are exported to the same, whatever the rest is. *)
  Theorem part_same f p v v' : name_roles E x -> same_part E x f p v v' -> forall j w w', export_at E j f v x = Ok w -> export_at E j f v' x = Ok w' ->
    out_at E p v w = out_at E p v' w'.
  Proof using HN.
    intros NR. induction 1 as [f p v|f n h p c m m' I Hi S IH|o h i p l l' a b Wn Na Nb S IH|o h ck y p d e a b Nd Ne Da De S IH]; intros j w w' X X'.
    - congruence.
    - destruct j as [|j]; [discriminate|]. destruct (instance_step _ _ _ _ _ I X) as (d & -> & L). destruct (instance_step _ _ _ _ _ I X') as (d' & -> & L').
      destruct (loop_role _ _ _ _ L) as [filt R]. destruct (level_some (fd_spec h)) as [lvl Lv]. destruct (HN c) as [N _].
      assert (reading E (VModel c m) n = reading E (VModel c m') n \/
              is_nil (reading E (VModel c m) n) = false /\ is_nil (reading E (VModel c m') n) = false /\ p <> []) as [Q|(Q1 & Q2 & Qp)].
      { clear - S. revert S. generalize (reading E (VModel c m) n) (reading E (VModel c m') n). intros a b S. inversion S; subst; [now left| | |]; right; repeat split; discriminate || reflexivity. }
      + cbn [out_at]. rewrite (In_dget _ _ _ N Hi). rewrite <- Q.
        assert (forall w, writes E (export_at E j) x filt (VModel c m) n h w <-> writes E (export_at E j) x filt (VModel c m') n h w) as Wr
          by (intros w; unfold writes; now rewrite Q).
        assert (dget (public_name n h) d = dget (public_name n h) d') as ->; [|reflexivity].
        destruct (dget (public_name n h) d) as [w|] eqn:D.
        * symmetry. apply (field_out _ c _ d' filt n h L' R Hi), Wr. now apply (field_out _ c _ d filt n h L R Hi).
        * destruct (dget (public_name n h) d') as [w|] eqn:D'; [|reflexivity].
          apply (field_out _ c _ d' filt n h L' R Hi), Wr, (field_out _ c _ d filt n h L R Hi) in D'. congruence.
      + destruct (field_below _ c m d filt n h lvl p L R Hi Lv Q1 Qp) as [[B1 O1]|(B1 & B1' & w1 & F1 & O1)];
        destruct (field_below _ c m' d' filt n h lvl p L' R Hi Lv Q2 Qp) as [[B2 O2]|(B2 & B2' & w2 & F2 & O2)]; rewrite O1, O2.
        * reflexivity.
        * exfalso. destruct B1 as [B1|B1]; [|contradiction]. apply B2. eapply NR; eauto.
        * exfalso. destruct B2 as [B2|B2]; [|contradiction]. apply B1. eapply NR; eauto.
        * eauto.
    - destruct j as [|j]; [discriminate|]. destruct (list_step _ _ _ _ _ Wn X) as (r & -> & G). destruct (list_step _ _ _ _ _ Wn X') as (r' & -> & G').
      destruct (G i a Na) as (w1 & R1 & F1). destruct (G' i b Nb) as (w2 & R2 & F2). cbn [out_at]. rewrite Na, Nb, R1, R2. eauto.
    - destruct j as [|j]; [discriminate|]. destruct (dict_step _ _ _ _ _ _ Nd X) as (r & lvl & -> & Lv & G).
      destruct (dict_step _ _ _ _ _ _ Ne X') as (r' & lvl' & -> & Lv' & G'). rewrite <- (level_fun _ _ _ _ _ Lv Lv') in G'. clear lvl' Lv'.
      cbn [out_at]. rewrite Da, De. destruct (G y a Da) as [[L0 Q]|(L0 & w1 & F1 & Q)]; destruct (G' y b De) as [[L0' Q']|(L0' & w2 & F2 & Q')]; try contradiction; rewrite Q, Q'.
      + reflexivity.
      + assert (out_at E p a w1 = out_at E p b w2) as O by eauto.
        assert (a = b \/ p <> []) as [->|Qp] by (inversion S; subst; [now left| | |]; right; discriminate).
        * assert (w1 = w2) as -> by congruence. destruct (skip_elem h lvl w2); [reflexivity|exact O].
        * assert (forall v w, skip_elem h lvl w = true -> out_at E p v w = None) as SK.
          { intros v w Sk. apply out_empty; [exact Qp|]. apply skip_spec in Sk as [[-> _]|(_ & Sk & _)]; auto. }
          destruct (skip_elem h lvl w1) eqn:S1; destruct (skip_elem h lvl w2) eqn:S2; auto.
          -- now rewrite <- O, SK.
          -- now rewrite O, SK.
  Qed.

  (** Nothing is left out. *)
  Theorem part_shown f p v g u : open_export E x -> part_at E x f p v g u -> forall j w, export_at E j f v x = Ok w -> exists w', out_at E p v w = Some w'.
  Proof using HN.
    intros (NH & l0 & L0 & G0).
    assert (forall h lvl, level_in_force E h x lvl -> lvl = l0) as LV by (intros h lvl L; inversion L; congruence).
    induction 1 as [f v|f n h p c m g u I Hi P IH|o h i p l a g u Wn Na P IH|o h ck y p d a g u Nd Da P IH]; intros j w X.
    - cbn [out_at]. eauto.
    - destruct j as [|j]; [discriminate|]. destruct (instance_step _ _ _ _ _ I X) as (d & -> & L). destruct (HN c) as [N _].
      destruct (loop_role _ _ _ _ L) as [filt R]. destruct (level_some (fd_spec h)) as [lvl Lv]. pose proof (LV _ _ Lv) as ->.
      destruct p as [|s q].
      + cbn [out_at]. rewrite (In_dget _ _ _ N Hi). destruct (dget (public_name n h) d) as [w1|] eqn:D; [eauto|]. exfalso.
        assert (forall w, ~ writes E (export_at E j) x filt (VModel c m) n h w) as NW.
        { intros w Wr. apply (field_out _ c _ d filt n h L R Hi) in Wr. congruence. }
        apply export_loop_ok in L as (filt' & l & R' & W & _). rewrite (role_fun _ _ _ _ _ R R') in *.
        destruct (written_field _ _ _ _ _ _ _ W Hi) as [[w Wr]|[_ NF]]; [exact (NW w Wr)|].
        assert (forall w0, exported (export_at E j) (fd_spec h) x (reading E (VModel c m) n) w0 -> False) as NX.
        { intros w0 Xp. apply (NW (if is_undef w0 then VNone else w0)). split; [apply (NH c _ n _ R')|]. exists l0, w0. repeat split; auto; lia. }
        destruct (is_nil (reading E (VModel c m) n)) eqn:Nn; [apply (NX (reading E (VModel c m) n)); left; auto|].
        destruct (export_at E j (fd_spec h) (reading E (VModel c m) n) x) as [w0|e] eqn:Fe; [apply (NX w0); right; auto|].
        apply (NF e). split; [apply (NH c _ n _ R')|]. repeat split; auto. exists l0. split; [assumption|lia].
      + assert (is_nil (reading E (VModel c m) n) = false) as Nn.
        { clear - P. revert P. generalize (reading E (VModel c m) n). intros a P. inversion P; reflexivity. }
        destruct (field_below _ c m d filt n h l0 (s :: q) L R Hi Lv Nn) as [[B _]|(_ & _ & w1 & F1 & O1)]; [discriminate| |].
        * exfalso. destruct B as [B| ->]; [exact (NH _ _ _ _ R B)|lia].
        * rewrite O1. eauto.
    - destruct j as [|j]; [discriminate|]. destruct (list_step _ _ _ _ _ Wn X) as (r & -> & G). destruct (G i a Na) as (w1 & R1 & F1).
      cbn [out_at]. rewrite Na, R1. eauto.
    - destruct j as [|j]; [discriminate|]. destruct (dict_step _ _ _ _ _ _ Nd X) as (r & lvl & -> & Lv & G). cbn [out_at]. rewrite Da.
      pose proof (LV _ _ Lv) as ->. destruct (G y a Da) as [[Q _]|(_ & w1 & F1 & Q)]; [lia|].
      replace (skip_elem h l0 w1) with false in Q; [rewrite Q; eauto|]. symmetry. apply noskip_spec. split; intros; lia.
  Qed.

  Lemma top_field j c m d : model_export_top E (export_at E j) c m x = Ok d -> export_at E (S j) (holder c) (VModel c m) x = Ok (VDict d).
  Proof. unfold model_export_top. intros H. cbn [export_at]. unfold export_step, holder, model_export. cbn [fs_type]. now rewrite H. Qed.
  Theorem top_part j c m d p g u w : model_export_top E (export_at E j) c m x = Ok d -> part_at E x (holder c) p (VModel c m) g u ->
    out_at E p (VModel c m) (VDict d) = Some w -> own_form E x g u w.
  Proof using HN.
    intros X P O. destruct (part_form _ _ _ _ _ P _ _ _ (top_field _ _ _ _ X) O) as (w0 & H & Q). exists w0. split; [|exact Q].
    destruct H as [H|(i & _ & H)]; eauto.
  Qed.
  Theorem top_same j c m m' d d' p : name_roles E x -> same_part E x (holder c) p (VModel c m) (VModel c m') ->
    model_export_top E (export_at E j) c m x = Ok d -> model_export_top E (export_at E j) c m' x = Ok d' ->
    out_at E p (VModel c m) (VDict d) = out_at E p (VModel c m') (VDict d').
  Proof using HN. intros NR S X X'. exact (part_same _ _ _ _ NR S _ _ _ (top_field _ _ _ _ X) (top_field _ _ _ _ X')). Qed.
  Theorem top_shown j c m d p g u : open_export E x -> model_export_top E (export_at E j) c m x = Ok d -> part_at E x (holder c) p (VModel c m) g u ->
    exists w, out_at E p (VModel c m) (VDict d) = Some w.
  Proof using HN. intros O X P. exact (part_shown _ _ _ _ _ O P _ _ (top_field _ _ _ _ X)). Qed.
End Compose.
