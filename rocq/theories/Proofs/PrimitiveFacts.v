(** What exported data is made of. *)
From Verif.Model Require Import Py Core Export Api.
From Verif.Spec Require Import ImportSpec ValidateSpec CompoundSpec ExportSpec DeepSpec PrimitiveSpec.
From Verif.Proofs Require Import DictLemmas ImportLemmas ApiLemmas CompoundLemmas PolyLemmas ExportLemmas Fuel ExportDeep Idem Sound RoundTrip.

Lemma dupdate_In {V} (l : list (key * V)) y v : In (y, v) (dupdate [] l) -> In (y, v) l.
Proof.
  intros H. apply In_dget in H; [|apply NoDup_dupdate; constructor].
  rewrite dget_dupdate_last in H. destruct (dlast y l) eqn:D; [|discriminate]. injection H as ->.
  unfold dlast in D. apply dget_In in D. now apply in_rev.
Qed.

Section Export.
  Context (E : env) (x : ectx) (Q : pyval -> Prop) (HE : gives_env E x Q).
  Definition none_or_typed f v := v = VNone \/ typed E f v.
  Definition field_ok (obj : pyval) (fs : list (key * field)) := forall n f, In (n, f) fs ->
    gives x Q (fd_spec f) /\ (is_nil (reading E obj n) = true \/ typed E (fd_spec f) (reading E obj n)).

  Lemma nothing_typed c v : (forall c' m, v <> VModel c' m) -> (forall d, v <> VDict d) -> typed_instance E c v.
  Proof. intros H1 H2. constructor. intros n f _. left. destruct v; try reflexivity; [exfalso; eapply H2|exfalso; eapply H1]; eauto. Qed.

  Lemma exports_made :
    (forall f v w, exports E x f v w -> gives x Q f -> none_or_typed f v -> made_of Q w) /\
    (forall c obj d, exports_object E x c obj d -> typed_instance E c obj -> made_of Q (VDict d)) /\
    (forall filt obj fs l, exports_fields E x filt obj fs l -> field_ok obj fs -> forall y v, In (y, v) l -> made_of Q v) /\
    (forall f v w, exports_value E x f v w -> gives x Q f -> is_nil v = true \/ typed E f v -> made_of Q w \/ w = VUndef) /\
    (forall g lvl l r, exports_elems E x g lvl l r -> gives x Q g -> (forall v, In v l -> none_or_typed g v) ->
       forall w, In w r -> made_of Q w) /\
    (forall g lvl l r, exports_entries E x g lvl l r -> gives x Q g -> (forall y v, In (y, v) l -> none_or_typed g v) ->
       forall y w, In (y, w) r -> made_of Q w) /\
    (forall f v, chosen E x f v -> True) /\ (forall g l, each_exports E x g l -> True).
  Proof.
    apply exports_all; try (intros; exact I).
    - intros o l v w H G T. cbn in G. apply (G v w); [|exact H]. destruct T as [->|T]; [now left|]. right. inversion T; subst. eauto.
    - intros o pre m post v w _ Hc _ Hx _ [GL GU] T.
      destruct (GL m) as (o1 & l1 & ->); [apply in_or_app; right; now left|].
      inversion Hc; subst. inversion Hx; subst.
      assert (Hm : In (FS o1 (TLeaf l1)) (pre ++ FS o1 (TLeaf l1) :: post)) by (apply in_or_app; right; now left).
      destruct T as [->|T].
      + eapply (GU o1 l1 o1 l1); eauto. now left.
      + inversion T as [|? ? m0 ? I0 T0| | | |]; subst. destruct (GL m0 I0) as (o0 & l0 & ->). inversion T0; subst.
        eapply (GU o0 l0 o1 l1); eauto. right; eauto.
    - intros o c c' m d _ IH _ [T|T]; [discriminate|]. apply IH. now inversion T.
    - intros o c v d N _ IH _ [->|T].
      + apply IH. apply nothing_typed; congruence.
      + inversion T; subst. exfalso; eapply N; eauto.
    - intros o p c m d _ _ IH _ [T|T]; [discriminate|]. apply IH. now inversion T.
    - intros o g v _ _ _. apply mo_list. intros v0 [].
    - intros o g v lvl l r _ _ I _ IH G [->|T]; [discriminate|]. inversion T; subst. cbn in I. injection I as <-.
      apply mo_list. apply IH; assumption.
    - intros o g ck v _ _ _. apply mo_dict. intros y v0 [].
    - intros o g ck v lvl l r _ _ I _ IH G [->|T]; [discriminate|]. inversion T; subst. cbn in I. injection I as <-.
      apply mo_dict. intros y w Hi. apply dupdate_In in Hi. revert y w Hi. apply IH; assumption.
    - intros c obj filt l _ _ IH T. apply mo_dict. intros y v Hi. apply dupdate_In in Hi. revert y v Hi. apply IH.
      intros n f Hf. split; [eapply HE; exact Hf|]. inversion T; subst; auto.
    - intros filt obj _ y v [].
    - intros filt obj n f fs l _ _ IH K. apply IH. intros n' f' Hi. apply K. now right.
    - intros filt obj n f fs l _ _ IH K. apply IH. intros n' f' Hi. apply K. now right.
    - intros filt obj n f fs l lvl w _ _ _ _ _ _ _ IH K. apply IH. intros n' f' Hi. apply K. now right.
    - intros filt obj n f fs l lvl w _ _ _ IHv _ _ IH K y v [Hi|Hi].
      + injection Hi as _ <-. destruct (K n f (or_introl eq_refl)) as [G T]. destruct (IHv G T) as [M| ->]; [|constructor].
        destruct (is_undef w); [constructor|exact M].
      + revert Hi. apply IH. intros n' f' Hi. apply K. now right.
    - intros f v Nv _ _. destruct v; try discriminate; [left; constructor|now right].
    - intros f v w Nv _ IH G [T|T]; [congruence|]. left. apply IH; [exact G|now right].
    - intros g lvl _ _ w [].
    - intros g lvl v w l r _ IHv _ _ _ IH G T w' [<-|Hi]; [apply IHv; auto; apply T; now left|].
      revert w' Hi. apply IH; [exact G|]. intros v' Hv. apply T. now right.
    - intros g lvl v w l r _ _ _ _ IH G T. apply IH; [exact G|]. intros v' Hv. apply T. now right.
    - intros g lvl _ _ y w [].
    - intros g lvl y v w l r _ IHv _ _ _ IH G T y' w' [Hi|Hi].
      + injection Hi as _ <-. apply IHv; auto. eapply T. now left.
      + revert y' w' Hi. apply IH; [exact G|]. intros y' v' Hv. eapply T. right; exact Hv.
    - intros g lvl y v w l r _ _ _ _ IH G T. apply IH; [exact G|]. intros y' v' Hv. eapply T. right; exact Hv.
  Qed.

  Lemma export_made n c m d : typed_instance E c (VModel c m) ->
    model_export_top E (export_at E n) c m x = Ok d -> made_of Q (VDict d).
  Proof.
    intros T H. apply (proj1 (proj2 exports_made) c (VModel c m)); [|exact T].
    eapply object_exports; [|exact H]. intros f v w. apply export_at_exports.
  Qed.
  Lemma export_value_made n f v w : gives x Q f -> none_or_typed f v -> export_at E n f v x = Ok w -> made_of Q w.
  Proof. intros G T H. apply export_at_exports in H. eapply (proj1 exports_made); eauto. Qed.
End Export.

Section Import.
  Context (E : env) (part chk : bool) (HT : tidy_env E).
  Context (HM : chk = false -> forall c n f, In (n, f) (fields_of E c) -> monomorphic (fd_spec f)).

  Lemma mono_member o ms m : monomorphic (FS o (TUnion ms)) -> In m ms -> monomorphic m.
  Proof. cbn. induction ms as [|m' ms IH]; [intros _ []|]. intros [H1 H2] [<-|Hi]; auto. Qed.
  Lemma plain_reading c m n f : In (n, f) (fields_of E c) ->
    reading E (VModel c m) n = match chain_get m n with Some v => v | None => VUndef end.
  Proof.
    intros Hi. cbn. rewrite (In_dget _ _ _ (ti_nodup E HT c) Hi). destruct (ti_plain E HT c n f Hi) as [-> _]. reflexivity.
  Qed.
  Lemma instance_typed c m :
    (forall n f, In (n, f) (fields_of E c) ->
       let v := match chain_get m n with Some v => v | None => VUndef end in is_nil v = true \/ typed E (fd_spec f) v) ->
    typed_instance E c (VModel c m).
  Proof. intros H. constructor. intros n f Hi. rewrite (plain_reading c m n f Hi). apply (H n f Hi). Qed.

  Lemma clean_list l : clean (VList l) -> forall v, In v l -> clean v.
  Proof. intros C. inversion C as [l0 C0| | | |? F]; [exact C0|destruct F]. Qed.
  Lemma clean_dict d : clean (VDict d) -> forall y v, In (y, v) d -> clean v.
  Proof. intros C. inversion C as [| |l0 C0| |? F]; [exact C0|destruct F]. Qed.
  Lemma clean_model c m : clean (VModel c m) -> forall y v, chain_get m y = Some v -> clean v.
  Proof. intros C. inversion C as [| | |? ? C0|? F]; [exact C0|destruct F]. Qed.

  Fixpoint sound_typed f v (H : sound E part chk f v) {struct H} :
    (chk = false -> monomorphic f) -> v = VUndef \/ clean v -> is_nil v = true \/ typed E f v
  with fits_typed f v (H : fits E part chk f v) {struct H} :
    (chk = false -> monomorphic f) -> v = VUndef \/ clean v -> typed E f v
  with shape_typed t v (H : shape E part chk t v) {struct H} :
    forall o, (chk = false -> monomorphic (FS o t)) -> v = VUndef \/ clean v -> typed E (FS o t) v
  with sound_instance c m (H : sound_model E part chk c m) {struct H} :
    clean (VModel c m) -> typed_instance E c (VModel c m).
  Proof.
    - destruct H as [f v N _|f v H]; intros M C; [now left|right; now apply fits_typed].
    - destruct H as [o t v H _]; intros M C. now apply shape_typed.
    - destruct H as [l u v H|ms m v Hi H|g l IH|g ck d _ IH|c c' m _ H|p c m u _ H|p v K _]; intros o M C.
      + econstructor; exact H.
      + eapply ty_union; [exact Hi|]. apply fits_typed; [exact H| |exact C]. intros K. eapply mono_member; [apply M, K|exact Hi].
      + destruct C as [C|C]; [discriminate|]. constructor. intros v Hi.
        pose proof (clean_list l C) as C0.
        destruct (sound_typed g v (IH v Hi)) as [N|T]; [intros K; apply (M K)|right; auto| |now right].
        left. specialize (C0 v Hi). destruct v; try discriminate; [reflexivity|now apply clean_defined in C0].
      + destruct C as [C|C]; [discriminate|]. constructor. intros y v Hi.
        pose proof (clean_dict d C y v Hi) as C0. destruct (IH y v Hi) as [S _].
        destruct (sound_typed g v S) as [N|T]; [intros K; apply (M K)|right; auto| |now right].
        left. destruct v; try discriminate; [reflexivity|now apply clean_defined in C0].
      + destruct C as [C|C]; [discriminate|]. constructor. now apply sound_instance.
      + destruct C as [C|C]; [discriminate|]. constructor. now apply sound_instance.
      + destruct (M K).
    - destruct H as [c data IH _ _]. intros C. apply instance_typed. intros n f Hi.
      assert (CG : chain_get (MD [] data [] None) n = dget n data).
      { unfold chain_get. cbn. now destruct (dget n data). }
      rewrite CG. cbv zeta. apply sound_typed; [apply (IH n f Hi)|intros K; eapply HM; eauto|].
      destruct (dget n data) as [v|] eqn:D; [|now left]. right.
      apply (clean_model _ _ C n). now rewrite CG.
  Qed.
End Import.

Lemma init_typed E j c d w m : tidy_env E -> (forall c, e_issub E c c = true) ->
  (forall c n f, In (n, f) (fields_of E c) -> monomorphic (fd_spec f)) ->
  kw_validate w = false -> kw_mapping w = no_mapping -> kw_convert w = true ->
  model_init E (conv_at E j) c (VDict d) (VDict []) w = Ok m -> clean (VModel c m) -> typed_instance E c (VModel c m).
Proof.
  intros HT Hr HM Hv Hm Hc H C. eapply init_sound in H; eauto.
  eapply sound_instance; eauto.
Qed.
Lemma validate_typed E j c m w m' : tidy_env E -> (forall c, e_issub E c c = true) ->
  kw_mapping w = no_mapping -> kw_convert w = true ->
  defined_layers m -> NoDup (dkeys (md_converted m)) -> (md_converted m <> [] \/ kw_partial w = false) ->
  model_validate E (conv_at E j) c m w = (m', None) -> clean (VModel c m') -> typed_instance E c (VModel c m').
Proof.
  intros HT Hr Hm Hc Hd Hk Hrun H C. apply instance_typed; [exact HT|]. intros n f Hi.
  pose proof (validate_sound E j c m w m' HT Hr Hm Hc Hd Hk Hrun H n f Hi) as S.
  eapply (sound_typed E _ true HT ltac:(discriminate)) in S; [exact S|discriminate|].
  destruct (chain_get m' n) as [v|] eqn:D; [|now left]. right.
  eapply clean_model; eauto.
Qed.
