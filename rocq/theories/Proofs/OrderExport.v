(** Export does not look at the order of dictionaries. *)
From Verif.Model Require Import Py Core Export Api.
From Verif.Spec Require Import ImportSpec ExportSpec PrimitiveSpec OrderSpec.
From Verif.Proofs Require Import DictLemmas ExportLemmas OrderFacts.

Section Out.
  Context (K : key -> Prop).
  Local Notation alike := (alike K).
  Local Notation keyed := (keyed K).
  Context (E : env) (HE : blind_env K E) (x : ectx) (HX : blind_export K E x).

  Lemma agree_bind {A B} (R : A -> A -> Prop) (S : B -> B -> Prop) r s f g : agree R r s ->
    (forall a b, R a b -> agree S (f a) (g b)) -> agree S (rbind r f) (rbind s g).
  Proof. intros [a b H|a b] HF; cbn; [now apply HF|constructor]. Qed.

  (** What is exported: None, or a value of the form the type prescribes. *)
  Definition writable f v := v = VNone \/ typed E f v \/ exists o l u, f = FS o (TLeaf l) /\ lf_native l v = Ok u.
  Definition fe_same (fe : fspec -> pyval -> ectx -> res pyval) : Prop := forall f v w,
    blind_writer K x f -> writable f v -> alike v w -> agree alike (fe f v x) (fe f w x).

  Lemma empty_len_same v w : alike v w -> empty_len v = empty_len w.
  Proof.
    intros [u H|l m F|l m F|d e H|c m n H1 H2 H3 H4]; cbn; try reflexivity.
    - now destruct F.
    - now destruct F.
    - apply keyed_entries, entries_empty in H. destruct H as [H H']. destruct d, e; try reflexivity.
      + now specialize (H eq_refl).
      + now specialize (H' eq_refl).
  Qed.

  Section Fe.
    Context (fe : fspec -> pyval -> ectx -> res pyval) (Hfe : fe_same fe).

    Lemma export_field_same filt obj obj' c n f : In (n, f) (mc_fields (e_class E c)) ->
      (forall g, filt = Some g -> blind_role K g) -> alike obj obj' ->
      is_nil (reading E obj n) = true \/ typed E (fd_spec f) (reading E obj n) ->
      agree (both (fun p q => fst p = fst q /\ K (fst p) /\ alike (snd p) (snd q)))
        (export_field E fe x filt obj n f) (export_field E fe x filt obj' n f).
    Proof using HE HX Hfe.
      intros Hi Hg Ho Ht. unfold export_field.
      pose proof (atom_value_same K E HE obj obj' n Ho) as Hv. rewrite <- reading_atom in Ht.
      set (v := atom_value E obj n) in *. set (w := atom_value E obj' n) in *. clearbody v w.
      assert (match filt with Some g => g n v | None => false end = match filt with Some g => g n w | None => false end) as <-.
      { destruct filt as [g|]; [|reflexivity]. now apply (Hg g). }
      destruct (match filt with Some g => g n v | None => false end); [constructor; constructor|].
      set (lvl := get_export_level E (fd_spec f) x). destruct (Z.eqb lvl DROP); [constructor; constructor|].
      pose proof (be_names K E x HX c n f Hi) as Hn.
      eapply agree_bind with (R := alike).
      { rewrite <- (alike_nil _ _ _ Hv). destruct (is_nil v) eqn:N; [now constructor|].
        apply Hfe; [eapply be_fields; [exact HX|exact Hi]| |assumption]. right. left. destruct Ht as [Ht|Ht]; [congruence|assumption]. }
      intros a b Hab. rewrite <- (alike_undef _ _ _ Hab), <- (alike_none _ _ _ Hab), <- (empty_len_same _ _ Hab).
      assert (alike VNone VNone) as H0 by now constructor.
      destruct (is_undef a); [destruct (Z.leb lvl DEFAULT); constructor; constructor; cbn; auto|].
      destruct (is_none a); [destruct (Z.leb lvl NOT_NONE); constructor; constructor; cbn; auto|].
      destruct (is_compound (fd_spec f) && empty_len a && Z.leb lvl NONEMPTY); constructor; constructor; cbn; auto.
    Qed.
    Lemma export_fields_same filt obj obj' c fs d d' : (forall n f, In (n, f) fs -> In (n, f) (mc_fields (e_class E c))) ->
      (forall g, filt = Some g -> blind_role K g) -> alike obj obj' ->
      (forall n f, In (n, f) fs -> is_nil (reading E obj n) = true \/ typed E (fd_spec f) (reading E obj n)) ->
      keyed alike d d' ->
      agree (keyed alike) (export_fields E fe x filt obj fs d) (export_fields E fe x filt obj' fs d').
    Proof using HE HX Hfe.
      intros Hi Hg Ho Ht. revert d d'. induction fs as [|[n f] fs IH]; intros d d' Hd; cbn [export_fields]; [now constructor|].
      eapply agree_bind; [eapply export_field_same; try eassumption; [apply Hi; now left|apply Ht; now left]|].
      intros a b Hab. apply IH; [intros; apply Hi; now right|intros; apply Ht; now right|].
      destruct Hab as [|[p v] [q w] (Q & Hk & Hvw)]; [assumption|]. cbn in *. subst q. now apply keyed_dset.
    Qed.
    Lemma export_loop_same c obj obj' : alike obj obj' -> typed_instance E c obj ->
      agree (keyed alike) (export_loop E fe x c obj) (export_loop E fe x c obj').
    Proof using HE HX Hfe.
      intros Ho Hti. inversion Hti as [c0 obj0 Ht Q1 Q2]; subst c0 obj0. unfold export_loop.
      assert (forall n g, dget n (mc_roles (e_class E c)) = Some g -> blind_role K g) as Hr.
      { intros n g G. apply dget_In in G. eapply be_roles; [exact HX|exact G]. }
      assert (forall filt, (forall g, filt = Some g -> blind_role K g) ->
        agree (keyed alike) (export_fields E fe x filt obj (mc_fields (e_class E c)) [])
                            (export_fields E fe x filt obj' (mc_fields (e_class E c)) [])) as Hx.
      { intros filt Hg. apply export_fields_same with (c := c); auto. apply keyed_nil. }
      unfold export_filter. destruct (ec_role x) as [|n|g] eqn:R.
      - cbn. apply Hx. intros g G. eapply Hr, G.
      - destruct (dget n (mc_roles (e_class E c))) as [g|] eqn:G; cbn.
        + apply Hx. intros g' [= <-]. eapply Hr, G.
        + destruct (key_true n && ec_raise x); cbn; [constructor|]. apply Hx. intros g G'. eapply Hr, G'.
      - cbn. apply Hx. intros g' [= <-]. eapply be_role; [exact HX|exact R].
    Qed.
    Lemma none_typed c : typed_instance E c VNone.
    Proof. constructor. intros n f _. now left. Qed.

    Lemma skip_same f lvl v w : alike v w -> skip_elem f lvl v = skip_elem f lvl w.
    Proof. intros H. unfold skip_elem. now rewrite (alike_none _ _ _ H), (empty_len_same _ _ H). Qed.
    Lemma list_loop_same g lvl l m d d' : blind_writer K x g -> (forall v, In v l -> writable g v) -> Forall2 alike l m ->
      Forall2 alike d d' -> agree (Forall2 alike) (list_export_loop fe g lvl x l d) (list_export_loop fe g lvl x m d').
    Proof using Hfe.
      intros Hg Hw F. revert d d'. induction F as [|v w l m H F IH]; intros d d' Hd; cbn; [now constructor|].
      eapply agree_bind; [apply Hfe; [assumption|apply Hw; now left|assumption]|]. intros a b Hab.
      apply IH; [intros; apply Hw; now right|]. rewrite <- (skip_same g lvl _ _ Hab). destruct (skip_elem g lvl a); [assumption|].
      apply Forall2_app; [assumption|]. constructor; [assumption|constructor].
    Qed.

    (** The entries of a dictionary that are written. *)
    Definition kept g lvl (l : list (key * pyval)) : list (key * pyval) :=
      flat_map (fun p => match fe g (snd p) x with Ok w => if skip_elem g lvl w then [] else [(fst p, w)] | Raise _ => [] end) l.
    Definition fails g (p : key * pyval) : bool := match fe g (snd p) x with Ok _ => false | Raise _ => true end.
    Lemma dict_loop_spec g lvl l d :
      if existsb (fails g) l then exists e, dict_export_loop fe g lvl x l d = Raise e
      else dict_export_loop fe g lvl x l d = Ok (dupdate d (kept g lvl l)).
    Proof.
      revert d. induction l as [|[y v] l IH]; intros d; cbn [existsb dict_export_loop]; [reflexivity|].
      unfold fails at 1, kept. cbn [flat_map fst snd]. destruct (fe g v x) as [w|e]; cbn [orb rbind]; [|eauto].
      destruct (skip_elem g lvl w); apply IH.
    Qed.
    Lemma kept_In g lvl l y w : In (y, w) (kept g lvl l) <-> exists v, In (y, v) l /\ fe g v x = Ok w /\ skip_elem g lvl w = false.
    Proof.
      unfold kept. rewrite in_flat_map. split.
      - intros ([z v] & Hi & H). cbn in H. destruct (fe g v x) as [w'|] eqn:Q; [|destruct H].
        destruct (skip_elem g lvl w') eqn:S; [destruct H|]. destruct H as [H|[]]. injection H as <- <-. eauto.
      - intros (v & Hi & Q & S). exists (y, v). split; [assumption|]. cbn. rewrite Q, S. now left.
    Qed.
    Lemma kept_NoDup g lvl l : NoDup (dkeys l) -> NoDup (dkeys (kept g lvl l)).
    Proof.
      unfold dkeys. induction l as [|[y v] l IH]; cbn; [constructor|]. intros N. inversion N as [|? ? N1 N2]; subst.
      destruct (fe g v x) as [w|]; [|apply IH, N2]. destruct (skip_elem g lvl w); [apply IH, N2|]. cbn. constructor; [|apply IH, N2].
      intros Hi. apply in_map_iff in Hi. destruct Hi as ([z u] & Q & Hi). cbn in Q. subst z.
      change (In (y, u) (kept g lvl l)) in Hi. apply kept_In in Hi. destruct Hi as (v' & Hz & _). apply N1. apply (in_map fst) in Hz. exact Hz.
    Qed.
    Lemma dict_loop_same g lvl l m : blind_writer K x g -> (forall y v, In (y, v) l -> writable g v) -> keyed alike l m ->
      agree (keyed alike) (dict_export_loop fe g lvl x l []) (dict_export_loop fe g lvl x m []).
    Proof using Hfe.
      intros Hg Hw Hd. pose proof (keyed_entries _ _ _ _ Hd) as He.
      assert (forall y v w, In (y, v) l -> alike v w -> agree alike (fe g v x) (fe g w x)) as Hout.
      { intros y v w Hi Hvw. apply Hfe; [assumption|eapply Hw; eassumption|assumption]. }
      assert (existsb (fails g) l = existsb (fails g) m) as Hc.
      { apply eq_true_iff_eq. rewrite !existsb_exists. split.
        - intros ([y v] & Hi & C). destruct (entries_In_l _ _ _ _ _ He Hi) as (w & Hi' & Hvw). exists (y, w). split; [assumption|].
          unfold fails in *. cbn in *. now destruct (Hout y v w Hi Hvw).
        - intros ([y w] & Hi & C). destruct (entries_In_r _ _ _ _ _ He Hi) as (v & Hi' & Hvw). exists (y, v). split; [assumption|].
          unfold fails in *. cbn in *. now destruct (Hout y v w Hi' Hvw). }
      pose proof (dict_loop_spec g lvl l []) as S1. pose proof (dict_loop_spec g lvl m []) as S2. rewrite <- Hc in S2.
      destruct (existsb (fails g) l).
      { destruct S1 as (e1 & ->), S2 as (e2 & ->). constructor. }
      rewrite S1, S2. constructor. destruct He as (N1 & N2 & Hget). pose proof (conj N1 (conj N2 Hget)) as He.
      rewrite !dupdate_nil_l by (apply kept_NoDup; assumption). split.
      - intros y Hy. unfold dkeys in Hy. apply in_map_iff in Hy. destruct Hy as ([z w] & Q & Hi). cbn in Q. subst z.
        apply kept_In in Hi. destruct Hi as (v & Hi & _). apply (proj1 Hd). apply (in_map fst) in Hi. exact Hi.
      - apply entries_In; [now apply kept_NoDup|now apply kept_NoDup| |].
        + intros y w Hi. apply kept_In in Hi. destruct Hi as (v & Hi & Q & S).
          destruct (entries_In_l _ _ _ _ _ He Hi) as (v' & Hi' & Hvw).
          pose proof (Hout y v v' Hi Hvw) as O. rewrite Q in O. inversion O as [a b Hab Q1 Q2|]; subst. exists b. split; [|assumption].
          apply kept_In. exists v'. split; [assumption|]. split; [congruence|]. now rewrite <- (skip_same g lvl _ _ Hab).
        + intros y w Hi. apply kept_In in Hi. destruct Hi as (v' & Hi & Q & S).
          destruct (entries_In_r _ _ _ _ _ He Hi) as (v & Hi' & Hvw).
          pose proof (Hout y v v' Hi' Hvw) as O. rewrite Q in O. inversion O as [a b Hab Q1 Q2|]; subst. exists a.
          apply kept_In. exists v. split; [assumption|]. split; [congruence|]. now rewrite (skip_same g lvl _ _ Hab).
    Qed.

    Lemma union_export_same ms v w : (forall m, In m ms -> exists o l, m = FS o (TLeaf l) /\ blind K alike (lf_native l) /\ blind_form K x l) ->
      alike v w ->
      agree (fun p q => fst p = fst q /\ In (fst p) ms /\ exists u, export_convert E fe x (fst p) v = Ok u)
        (union_resolve (export_convert E fe x) ms v) (union_resolve (export_convert E fe x) ms w).
    Proof.
      intros Hm H. induction ms as [|m ms IH]; cbn; [constructor|].
      destruct (Hm m (or_introl eq_refl)) as (o & l & -> & Hl & _). cbn.
      pose proof (Hl v w H) as Hvw. destruct (lf_native l v) as [a|a] eqn:Q, (lf_native l w) as [b|b]; try now inversion Hvw.
      - constructor. cbn. split; [reflexivity|]. split; [now left|]. eauto.
      - assert (agree (fun p q => fst p = fst q /\ (FS o (TLeaf l) = fst p \/ In (fst p) ms) /\ exists u, export_convert E fe x (fst p) v = Ok u)
          (union_resolve (export_convert E fe x) ms v) (union_resolve (export_convert E fe x) ms w)) as IH'.
        { destruct IH as [p q (Q1 & Q2 & Q3)|p q]; [intros; apply Hm; now right| |constructor]. constructor. auto. }
        inversion Hvw as [|? ? Hab]; subst. clear Hvw Q. destruct Hab as [es|s es|d e Q|d e p q Q Q'|a b Q Q']; try constructor; [exact IH'|].
        destruct a, b; cbn in *; try tauto; constructor.
    Qed.
  End Fe.

  Lemma export_step_same fe : fe_same fe -> fe_same (export_step E fe).
  Proof using HE HX.
    intros Hfe f v w Hf Hw H. unfold export_step. destruct f as [o t]. cbn [fs_type blind_writer] in *.
    destruct t as [l|ms|c|p|g|g ck].
    - change (agree alike (leaf_form x l v) (leaf_form x l w)). apply Hf; [assumption|].
      destruct Hw as [->|[T|(o' & l' & u0 & Q & Hu)]]; [left; now left| |injection Q as <- <-; right; eauto].
      inversion T; subst. left. right. eauto.
    - eapply agree_bind; [apply (union_export_same fe ms v w Hf H)|]. intros [m a] [m' b] (Q & Hi & u0 & Hu). cbn in *. subst m'.
      destruct (Hf m Hi) as (o' & l & -> & Hl & Hb). cbn in Hu.
      apply Hfe; [exact Hb| |assumption]. right. right. eauto 6.
    - unfold model_export.
      assert (match v with VModel d _ => d | _ => c end = match w with VModel d _ => d | _ => c end) as <-.
      { destruct H as [u H|l m F|l m F|d e H|c' m n H1 H2 H3 H4]; reflexivity. }
      eapply agree_bind; [apply export_loop_same; [assumption|assumption|]|].
      + destruct Hw as [->|[T|(o' & l' & u0 & Q & Hu)]]; [apply none_typed| |discriminate]. inversion T; subst. assumption.
      + intros d d' Hd. constructor. now constructor.
    - unfold poly_export.
      assert (poly_allowed E p v = poly_allowed E p w) as <-.
      { destruct H as [u H|l m F|l m F|d e H|c' m n H1 H2 H3 H4]; reflexivity. }
      destruct (poly_allowed E p v); [|constructor].
      destruct Hw as [->|[T|(o' & l' & u0 & Q & Hu)]]; [inversion H; subst; constructor| |discriminate]. inversion T as [| | | | |o' p' c m Ti]; subst.
      inversion H; subst; [discriminate|]. eapply agree_bind; [apply export_loop_same; [assumption|exact H|assumption]|].
      intros d d' Hd. constructor. now constructor.
    - unfold list_export. destruct (Z.eqb _ DROP); [constructor; constructor; constructor|].
      destruct Hw as [->|[T|(o' & l' & u0 & Q & Hu)]]; [inversion H; subst; constructor| |discriminate]. inversion T as [| |o' g' l Hl| | |]; subst.
      inversion H as [|l' m F| | |]; subst; [discriminate|]. cbn [py_iter rbind].
      eapply agree_bind; [apply list_loop_same; try eassumption; [intros v Hv; destruct (Hl v Hv); [now left|right; now left]|constructor]|]. intros d d' Hd. constructor. now constructor.
    - unfold dict_export. destruct (Z.eqb _ DROP); [constructor; apply al_dict, keyed_nil|].
      destruct Hw as [->|[T|(o' & l' & u0 & Q & Hu)]]; [inversion H; subst; constructor| |discriminate]. inversion T as [| | |o' g' ck' d Hd| |]; subst.
      inversion H as [| | |d' e F|]; subst; [discriminate|]. cbn [py_item_pairs rbind].
      eapply agree_bind; [apply dict_loop_same; try eassumption; intros y v Hv; destruct (Hd y v Hv); [now left|right; now left]|]. intros a a' Ha. constructor. now constructor.
  Qed.
  Lemma export_at_same n : fe_same (export_at E n).
  Proof using HE HX.
    induction n as [|n IH]; cbn [export_at]; [intros f v w _ _ _; constructor|now apply export_step_same].
  Qed.
  Lemma export_top_same n c m m' : alike_data K m m' -> typed_instance E c (VModel c m) ->
    agree (keyed alike) (model_export_top E (export_at E n) c m x) (model_export_top E (export_at E n) c m' x).
  Proof using HE HX.
    intros (H1 & H2 & H3 & H4) Ht. unfold model_export_top. apply export_loop_same; [apply export_at_same| |assumption].
    now apply al_model.
  Qed.
End Out.
