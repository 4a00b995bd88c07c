(** The order of the fields in a class: export. *)
From Coq Require Import Permutation.
From Verif.Model Require Import Py Core Export Api.
From Verif.Spec Require Import ImportSpec ExportSpec PrimitiveSpec OrderSpec ReorderSpec.
From Verif.Proofs Require Import DictLemmas ExportLemmas OrderFacts OrderMain OrderExport ReorderFacts ReorderMain.

Section Out.
  Context (K : key -> Prop).
  Local Notation alike := (alike K).
  Local Notation keyed := (keyed K).
  Context (E E' : env) (HE : blind_env K E) (HR : reordered E E') (HS : steady_env E) (x : ectx) (HX : blind_export K E x).

  Definition fe_same (fe fe' : fspec -> pyval -> ectx -> res pyval) : Prop := forall f v w,
    blind_writer K x f -> writable E f v -> alike v w -> agree alike (fe f v x) (fe' f w x).

  Lemma level_right f : get_export_level E' f x = get_export_level E f x.
  Proof using HR.
    unfold get_export_level. destruct (fo_owner (fs_opts f)) as [c|]; [|reflexivity]. now rewrite (ro_level _ _ HR c).
  Qed.
  Lemma filter_right c : export_filter (e_class E' c) x = export_filter (e_class E c) x.
  Proof using HR. unfold export_filter. now rewrite (ro_roles _ _ HR c). Qed.

  Section Fields.
    Context (F : env) (fe : fspec -> pyval -> ectx -> res pyval) (filt : option rolefn) (obj : pyval).
    Local Notation ef p := (export_field F fe x filt obj (fst p) (snd p)).
    Definition blocked (p : key * field) : bool := match ef p with Ok _ => false | Raise _ => true end.
    Definition written (fs : list (key * field)) : list (key * pyval) :=
      flat_map (fun p => match ef p with Ok (Some q) => [q] | _ => [] end) fs.
    Lemma export_fields_spec fs d : 
      if existsb blocked fs then exists e, export_fields F fe x filt obj fs d = Raise e
      else export_fields F fe x filt obj fs d = Ok (dupdate d (written fs)).
    Proof.
      revert d. induction fs as [|[n f] fs IH]; intros d; cbn [existsb export_fields]; [reflexivity|].
      unfold blocked at 1, written. cbn [fst snd flat_map].
      destruct (export_field F fe x filt obj n f) as [[[s w]|]|e]; cbn [rbind orb]; [apply (IH (dset s w d))|apply IH|eauto].
    Qed.
    Lemma written_In fs q : In q (written fs) <-> exists n f, In (n, f) fs /\ export_field F fe x filt obj n f = Ok (Some q).
    Proof.
      unfold written. rewrite in_flat_map. split.
      - intros ([n f] & Hi & H). cbn in H. destruct (export_field F fe x filt obj n f) as [[q'|]|] eqn:Q; [|destruct H..].
        destruct H as [<-|[]]. eauto.
      - intros (n & f & Hi & Q). exists (n, f). split; [assumption|]. cbn. rewrite Q. now left.
    Qed.
    Lemma field_name n f s w : export_field F fe x filt obj n f = Ok (Some (s, w)) -> s = sname_of n (fd_spec f).
    Proof.
      unfold export_field. destruct (match filt with Some g => _ | None => false end); [discriminate|].
      destruct (Z.eqb _ DROP); [discriminate|]. destruct (if is_nil _ then _ else _) as [a|]; cbn [rbind]; [|discriminate].
      destruct (is_undef a); [destruct (Z.leb _ _); [discriminate|]; now intros [= <- _]|].
      destruct (is_none a); [destruct (Z.leb _ _); [discriminate|]; now intros [= <- _]|].
      destruct (_ && _ && _); [discriminate|]. now intros [= <- _].
    Qed.
    Lemma written_NoDup fs : NoDup (map (fun p => sname_of (fst p) (fd_spec (snd p))) fs) -> NoDup (dkeys (written fs)).
    Proof.
      unfold dkeys. induction fs as [|[n f] fs IH]; cbn; [constructor|]. intros N. inversion N as [|? ? N1 N2]; subst.
      destruct (export_field F fe x filt obj n f) as [[[s w]|]|] eqn:Q; cbn; try apply IH, N2. constructor; [|apply IH, N2].
      apply field_name in Q. subst s. intros Hi. apply in_map_iff in Hi. destruct Hi as ([s w'] & Q & Hi). cbn in Q. subst s.
      change (In (sname_of n (fd_spec f), w') (written fs)) in Hi. apply written_In in Hi. destruct Hi as (n0 & f0 & Hi & Q).
      apply field_name in Q. apply N1. rewrite Q. apply (in_map (fun p => sname_of (fst p) (fd_spec (snd p)))) in Hi. exact Hi.
    Qed.
  End Fields.

  Section Fe.
    Context (fe fe' : fspec -> pyval -> ectx -> res pyval) (Hfe : fe_same fe fe').

    Lemma export_field_same filt obj obj' c n f : In (n, f) (mc_fields (e_class E c)) ->
      (forall g, filt = Some g -> blind_role K g) -> alike obj obj' ->
      is_nil (reading E obj n) = true \/ typed E (fd_spec f) (reading E obj n) ->
      agree (both (fun p q => fst p = fst q /\ K (fst p) /\ alike (snd p) (snd q)))
        (export_field E fe x filt obj n f) (export_field E' fe' x filt obj' n f).
    Proof using HE HR HX Hfe.
      intros Hi Hg Ho Ht. unfold export_field. rewrite level_right.
      pose proof (atom_value_same K E E' HE HR obj obj' n Ho) as Hv. rewrite <- reading_atom in Ht.
      set (v := atom_value E obj n) in *. set (w := atom_value E' obj' n) in *. clearbody v w.
      assert (match filt with Some g => g n v | None => false end = match filt with Some g => g n w | None => false end) as <-.
      { destruct filt as [g|]; [|reflexivity]. now apply (Hg g). }
      destruct (match filt with Some g => g n v | None => false end); [constructor; constructor|].
      set (lvl := get_export_level E (fd_spec f) x). destruct (Z.eqb lvl DROP); [constructor; constructor|].
      pose proof (be_names K E x HX c n f Hi) as Hn.
      eapply agree_bind with (R := alike).
      { rewrite <- (alike_nil _ _ _ Hv). destruct (is_nil v) eqn:N; [now constructor|].
        apply Hfe; [eapply be_fields; [exact HX|exact Hi]| |assumption]. right. left. destruct Ht as [Ht|Ht]; [congruence|assumption]. }
      intros a b Hab. rewrite <- (alike_undef _ _ _ Hab), <- (alike_none _ _ _ Hab), <- (empty_len_same _ _ _ Hab).
      assert (alike VNone VNone) as H0 by now constructor.
      destruct (is_undef a); [destruct (Z.leb lvl DEFAULT); constructor; constructor; cbn; auto|].
      destruct (is_none a); [destruct (Z.leb lvl NOT_NONE); constructor; constructor; cbn; auto|].
      destruct (is_compound (fd_spec f) && empty_len a && Z.leb lvl NONEMPTY); constructor; constructor; cbn; auto.
    Qed.
    Lemma export_fields_same filt obj obj' c : (forall g, filt = Some g -> blind_role K g) -> alike obj obj' ->
      (forall n f, In (n, f) (mc_fields (e_class E c)) -> is_nil (reading E obj n) = true \/ typed E (fd_spec f) (reading E obj n)) ->
      agree (keyed alike) (export_fields E fe x filt obj (mc_fields (e_class E c)) [])
                          (export_fields E' fe' x filt obj' (mc_fields (e_class E' c)) []).
    Proof using HE HR HS HX Hfe.
      intros Hg Ho Ht.
      assert (forall n f, In (n, f) (mc_fields (e_class E c)) ->
        agree (both (fun p q => fst p = fst q /\ K (fst p) /\ alike (snd p) (snd q)))
          (export_field E fe x filt obj n f) (export_field E' fe' x filt obj' n f)) as Hout.
      { intros n f Hi. eapply export_field_same; eauto. }
      pose proof (export_fields_spec E fe filt obj (mc_fields (e_class E c)) []) as S1.
      pose proof (export_fields_spec E' fe' filt obj' (mc_fields (e_class E' c)) []) as S2.
      assert (existsb (blocked E fe filt obj) (mc_fields (e_class E c)) = existsb (blocked E' fe' filt obj') (mc_fields (e_class E' c))) as Q.
      { apply eq_true_iff_eq. rewrite !existsb_exists. unfold blocked. split; intros ([n f] & Hi & Hf); exists (n, f); cbn [fst snd] in *.
        - split; [now apply (fields_left E E' HR)|]. now destruct (Hout n f Hi).
        - apply (fields_left E E' HR) in Hi. split; [assumption|]. now destruct (Hout n f Hi). }
      rewrite <- Q in S2. destruct (existsb (blocked E fe filt obj) (mc_fields (e_class E c))).
      { destruct S1 as (e1 & ->), S2 as (e2 & ->). constructor. }
      rewrite S1, S2. constructor. rewrite !dupdate_nil_l; [|apply written_NoDup; eapply public_right; eassumption|apply written_NoDup, HS].
      split.
      - intros y Hy. unfold dkeys in Hy. apply in_map_iff in Hy. destruct Hy as ([s w] & <- & Hi). apply written_In in Hi.
        destruct Hi as (n & f & Hi & Qf). apply field_name in Qf. cbn. subst s. eapply be_names; eassumption.
      - apply entries_In; [apply written_NoDup, HS|apply written_NoDup; eapply public_right; eassumption| |].
        + intros s w Hi. apply written_In in Hi. destruct Hi as (n & f & Hi & Qf). pose proof (Hout n f Hi) as O. rewrite Qf in O.
          inversion O as [a b Hab Qa Qb|]; subst. inversion Hab as [|a' [s' b'] (R1 & R2 & R3)]; subst. cbn in R1, R3. subst s'.
          exists b'. split; [|assumption]. apply written_In. exists n, f. split; [now apply (fields_left E E' HR)|congruence].
        + intros s w Hi. apply written_In in Hi. destruct Hi as (n & f & Hi & Qf). apply (fields_left E E' HR) in Hi.
          pose proof (Hout n f Hi) as O. rewrite Qf in O.
          inversion O as [a b Hab Qa Qb|]; subst. inversion Hab as [|[s' a'] b' (R1 & R2 & R3)]; subst. cbn in R1, R3. subst s'.
          exists a'. apply written_In. exists n, f. split; [assumption|congruence].
    Qed.
    Lemma export_loop_same c obj obj' : alike obj obj' -> typed_instance E c obj ->
      agree (keyed alike) (export_loop E fe x c obj) (export_loop E' fe' x c obj').
    Proof using HE HR HS HX Hfe.
      intros Ho Hti. inversion Hti as [c0 obj0 Ht Q1 Q2]; subst c0 obj0. unfold export_loop. rewrite filter_right.
      assert (forall n g, dget n (mc_roles (e_class E c)) = Some g -> blind_role K g) as Hr.
      { intros n g G. apply dget_In in G. eapply be_roles; [exact HX|exact G]. }
      assert (forall filt, (forall g, filt = Some g -> blind_role K g) ->
        agree (keyed alike) (export_fields E fe x filt obj (mc_fields (e_class E c)) [])
                            (export_fields E' fe' x filt obj' (mc_fields (e_class E' c)) [])) as Hx.
      { intros filt Hg. now apply export_fields_same. }
      unfold export_filter. destruct (ec_role x) as [|n|g] eqn:R.
      - cbn. apply Hx. intros g G. eapply Hr, G.
      - destruct (dget n (mc_roles (e_class E c))) as [g|] eqn:G; cbn.
        + apply Hx. intros g' [= <-]. eapply Hr, G.
        + destruct (key_true n && ec_raise x); cbn; [constructor|]. apply Hx. intros g G'. eapply Hr, G'.
      - cbn. apply Hx. intros g' [= <-]. eapply be_role; [exact HX|exact R].
    Qed.
    Lemma list_loop_same g lvl l m d d' : blind_writer K x g -> (forall v, In v l -> writable E g v) -> Forall2 alike l m ->
      Forall2 alike d d' -> agree (Forall2 alike) (list_export_loop fe g lvl x l d) (list_export_loop fe' g lvl x m d').
    Proof using Hfe.
      intros Hg Hw F. revert d d'. induction F as [|v w l m H F IH]; intros d d' Hd; cbn; [now constructor|].
      eapply agree_bind; [apply Hfe; [assumption|apply Hw; now left|assumption]|]. intros a b Hab.
      apply IH; [intros; apply Hw; now right|]. rewrite <- (skip_same K g lvl _ _ Hab). destruct (skip_elem g lvl a); [assumption|].
      apply Forall2_app; [assumption|]. constructor; [assumption|constructor].
    Qed.

    Lemma dict_loop_same g lvl l m : blind_writer K x g -> (forall y v, In (y, v) l -> writable E g v) -> keyed alike l m ->
      agree (keyed alike) (dict_export_loop fe g lvl x l []) (dict_export_loop fe' g lvl x m []).
    Proof using Hfe.
      intros Hg Hw Hd. pose proof (keyed_entries _ _ _ _ Hd) as He.
      assert (forall y v w, In (y, v) l -> alike v w -> agree alike (fe g v x) (fe' g w x)) as Hout.
      { intros y v w Hi Hvw. apply Hfe; [assumption|eapply Hw; eassumption|assumption]. }
      assert (existsb (OrderExport.fails x fe g) l = existsb (OrderExport.fails x fe' g) m) as Hc.
      { apply eq_true_iff_eq. rewrite !existsb_exists. split.
        - intros ([y v] & Hi & C). destruct (entries_In_l _ _ _ _ _ He Hi) as (w & Hi' & Hvw). exists (y, w). split; [assumption|].
          unfold OrderExport.fails in *. cbn in *. now destruct (Hout y v w Hi Hvw).
        - intros ([y w] & Hi & C). destruct (entries_In_r _ _ _ _ _ He Hi) as (v & Hi' & Hvw). exists (y, v). split; [assumption|].
          unfold OrderExport.fails in *. cbn in *. now destruct (Hout y v w Hi' Hvw). }
      pose proof (OrderExport.dict_loop_spec x fe g lvl l []) as S1. pose proof (OrderExport.dict_loop_spec x fe' g lvl m []) as S2. rewrite <- Hc in S2.
      destruct (existsb (OrderExport.fails x fe g) l).
      { destruct S1 as (e1 & ->), S2 as (e2 & ->). constructor. }
      rewrite S1, S2. constructor. destruct He as (N1 & N2 & Hget). pose proof (conj N1 (conj N2 Hget)) as He.
      rewrite !dupdate_nil_l by (apply kept_NoDup; assumption). split.
      - intros y Hy. unfold dkeys in Hy. apply in_map_iff in Hy. destruct Hy as ([z w] & Q & Hi). cbn in Q. subst z.
        apply kept_In in Hi. destruct Hi as (v & Hi & _). apply (proj1 Hd). apply (in_map fst) in Hi. exact Hi.
      - apply entries_In; [now apply kept_NoDup|now apply kept_NoDup| |].
        + intros y w Hi. apply kept_In in Hi. destruct Hi as (v & Hi & Q & S).
          destruct (entries_In_l _ _ _ _ _ He Hi) as (v' & Hi' & Hvw).
          pose proof (Hout y v v' Hi Hvw) as O. rewrite Q in O. inversion O as [a b Hab Q1 Q2|]; subst. exists b. split; [|assumption].
          apply kept_In. exists v'. split; [assumption|]. split; [congruence|]. now rewrite <- (skip_same K g lvl _ _ Hab).
        + intros y w Hi. apply kept_In in Hi. destruct Hi as (v' & Hi & Q & S).
          destruct (entries_In_r _ _ _ _ _ He Hi) as (v & Hi' & Hvw).
          pose proof (Hout y v v' Hi' Hvw) as O. rewrite Q in O. inversion O as [a b Hab Q1 Q2|]; subst. exists a.
          apply kept_In. exists v. split; [assumption|]. split; [congruence|]. now rewrite (skip_same K g lvl _ _ Hab).
    Qed.

    Lemma union_export_same ms v w : (forall m, In m ms -> exists o l, m = FS o (TLeaf l) /\ blind K alike (lf_native l) /\ blind_form K x l) ->
      alike v w ->
      agree (fun p q => fst p = fst q /\ In (fst p) ms /\ exists u, export_convert E fe x (fst p) v = Ok u)
        (union_resolve (export_convert E fe x) ms v) (union_resolve (export_convert E' fe' x) ms w).
    Proof.
      intros Hm H. induction ms as [|m ms IH]; cbn; [constructor|].
      destruct (Hm m (or_introl eq_refl)) as (o & l & -> & Hl & _). cbn.
      pose proof (Hl v w H) as Hvw. destruct (lf_native l v) as [a|a] eqn:Q, (lf_native l w) as [b|b]; try now inversion Hvw.
      - constructor. cbn. split; [reflexivity|]. split; [now left|]. eauto.
      - assert (agree (fun p q => fst p = fst q /\ (FS o (TLeaf l) = fst p \/ In (fst p) ms) /\ exists u, export_convert E fe x (fst p) v = Ok u)
          (union_resolve (export_convert E fe x) ms v) (union_resolve (export_convert E' fe' x) ms w)) as IH'.
        { destruct IH as [p q (Q1 & Q2 & Q3)|p q]; [intros; apply Hm; now right| |constructor]. constructor. auto. }
        inversion Hvw as [|? ? Hab]; subst. clear Hvw Q. destruct Hab as [es|s es|d e Q|d e p q Q Q'|a b Q Q']; try constructor; [exact IH'|].
        destruct a, b; cbn in *; try tauto; constructor.
    Qed.
  End Fe.

  Lemma export_step_same fe fe' : fe_same fe fe' -> fe_same (export_step E fe) (export_step E' fe').
  Proof using HE HR HS HX.
    intros Hfe f v w Hf Hw H. unfold export_step. destruct f as [o t]. cbn [fs_type blind_writer] in *.
    destruct t as [l|ms|c|p|g|g ck].
    - change (agree alike (leaf_form x l v) (leaf_form x l w)). apply Hf; [assumption|].
      destruct Hw as [->|[T|(o' & l' & u0 & Q & Hu)]]; [left; now left| |injection Q as <- <-; right; eauto].
      inversion T; subst. left. right. eauto.
    - eapply agree_bind; [apply (union_export_same fe fe' ms v w Hf H)|]. intros [m a] [m' b] (Q & Hi & u0 & Hu). cbn in *. subst m'.
      destruct (Hf m Hi) as (o' & l & -> & Hl & Hb). cbn in Hu.
      apply Hfe; [exact Hb| |assumption]. right. right. eauto 6.
    - unfold model_export.
      assert (match v with VModel d _ => d | _ => c end = match w with VModel d _ => d | _ => c end) as <-.
      { destruct H as [u H|l m F|l m F|d e H|c' m n H1 H2 H3 H4]; reflexivity. }
      eapply agree_bind; [apply export_loop_same; [assumption|assumption|]|].
      + destruct Hw as [->|[T|(o' & l' & u0 & Q & Hu)]]; [apply OrderExport.none_typed| |discriminate]. inversion T; subst. assumption.
      + intros d d' Hd. constructor. now constructor.
    - unfold poly_export.
      rewrite (poly_allowed_right E E' HR).
      assert (poly_allowed E p v = poly_allowed E p w) as <-.
      { destruct H as [u H|l m F|l m F|d e H|c' m n H1 H2 H3 H4]; reflexivity. }
      destruct (poly_allowed E p v); [|constructor].
      destruct Hw as [->|[T|(o' & l' & u0 & Q & Hu)]]; [inversion H; subst; constructor| |discriminate]. inversion T as [| | | | |o' p' c m Ti]; subst.
      inversion H; subst; [discriminate|]. eapply agree_bind; [apply export_loop_same; [assumption|exact H|assumption]|].
      intros d d' Hd. constructor. now constructor.
    - unfold list_export. rewrite level_right. destruct (Z.eqb _ DROP); [constructor; constructor; constructor|].
      destruct Hw as [->|[T|(o' & l' & u0 & Q & Hu)]]; [inversion H; subst; constructor| |discriminate]. inversion T as [| |o' g' l Hl| | |]; subst.
      inversion H as [|l' m F| | |]; subst; [discriminate|]. cbn [py_iter rbind].
      eapply agree_bind; [apply list_loop_same; try eassumption; [intros v Hv; destruct (Hl v Hv); [now left|right; now left]|constructor]|]. intros d d' Hd. constructor. now constructor.
    - unfold dict_export. rewrite level_right. destruct (Z.eqb _ DROP); [constructor; apply al_dict, keyed_nil|].
      destruct Hw as [->|[T|(o' & l' & u0 & Q & Hu)]]; [inversion H; subst; constructor| |discriminate]. inversion T as [| | |o' g' ck' d Hd| |]; subst.
      inversion H as [| | |d' e F|]; subst; [discriminate|]. cbn [py_item_pairs rbind].
      eapply agree_bind; [apply dict_loop_same; try eassumption; intros y v Hv; destruct (Hd y v Hv); [now left|right; now left]|]. intros a a' Ha. constructor. now constructor.
  Qed.
  Lemma export_at_same n : fe_same (export_at E n) (export_at E' n).
  Proof using HE HR HS HX.
    induction n as [|n IH]; cbn [export_at]; [intros f v w _ _ _; constructor|now apply export_step_same].
  Qed.
  Lemma export_top_same n c m m' : alike_data K m m' -> typed_instance E c (VModel c m) ->
    agree (keyed alike) (model_export_top E (export_at E n) c m x) (model_export_top E' (export_at E' n) c m' x).
  Proof using HE HR HS HX.
    intros (H1 & H2 & H3 & H4) Ht. unfold model_export_top. apply export_loop_same; [apply export_at_same| |assumption].
    now apply al_model.
  Qed.
End Out.
