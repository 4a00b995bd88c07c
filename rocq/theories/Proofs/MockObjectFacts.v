(** Facts about mock objects. *)
From Verif.Model Require Import Py Core Mock MockObject.
From Verif.Spec Require Import EnumSpec MockSpec.
From Verif.Proofs Require Import DictLemmas MockLemmas.
Local Open Scope Z_scope.

Section Facts.
  Context {St : Type} (R : rng St) (fields : cid -> list (key * mfield St)) (make : cid -> list (key * pyval) -> res pyval).
  Notation obj := (mock_object R fields make).
  Implicit Types (w : @world St) (gm : cid -> @mockm St pyval).

  Lemma in_memo_iff c m : in_memo c m = true <-> In c m.
  Proof.
    unfold in_memo. rewrite existsb_exists. split; [intros (d & H & E); apply N.eqb_eq in E; now subst|].
    intros H. exists c. split; [assumption|apply N.eqb_refl].
  Qed.
  Lemma refers_model_class t d : refers t d -> @model_class_of St t = Some d.
  Proof. induction 1; [reflexivity|assumption]. Qed.

  (** *** The memo only grows, by nested classes. *)
  Definition grows (P : cid -> Prop) {A} (m : @mockm St A) : Prop :=
    forall w r w', m w = (r, w') -> incl (fst w) (fst w') /\ forall e, In e (fst w') -> In e (fst w) \/ P e.
  Lemma times_grows P {A} n (m : @mockm St A) : grows P m -> grows P (times n m).
  Proof.
    intros G. induction n as [|n IH]; intros w r w'; cbn.
    - intros [= <- <-]. split; [apply incl_refl|auto].
    - destruct (m w) as [[e|x] w1] eqn:E; apply G in E as [I1 M1].
      + intros [= <- <-]. auto.
      + destruct (times n m w1) as [[e|l] w2] eqn:E; apply IH in E as [I2 M2]; intros [= <- <-];
          (split; [eapply incl_tran; eassumption|]); intros y H; apply M2 in H as [H|H]; auto.
  Qed.
  Lemma type_grows P gm t : (forall d, refers t d -> grows P (gm d)) -> grows P (type_mock R gm t).
  Proof.
    induction t as [d|m|c|lo hi ch t IH]; intros G w r w'; cbn.
    - destruct (d (snd w)) as [x s]. intros [= <- <-]. cbn. split; [apply incl_refl|auto].
    - intros [= <- <-]. split; [apply incl_refl|auto].
    - apply G. constructor.
    - destruct (range_endpoints lo hi 0 0) as [[a b]|]; [|intros [= <- <-]; split; [apply incl_refl|auto]].
      destruct (rnd_int R a b (snd w)) as [n s].
      destruct (times (Z.to_nat n) (type_mock R gm t) (fst w, s)) as [[e|l] w2] eqn:E; intros [= <- <-];
        (apply (times_grows P _ _ (IH (fun d K => G d (ref_list _ _ _ _ _ K)))) in E; exact E).
  Qed.
  Lemma choose_grows P l : grows P (choose R l).
  Proof.
    intros w r w'. unfold choose. destruct l as [|x l].
    - intros [= <- <-]. split; [apply incl_refl|auto].
    - destruct (rnd_index R _ _) as [i s]. intros [= <- <-]. split; [apply incl_refl|auto].
  Qed.
  Lemma given_grows P gm f : (forall d, refers (mf_type f) d -> grows P (gm d)) ->
    grows P (fun w => match mf_choices f with Some l => choose R l w | None => type_mock R gm (mf_type f) w end).
  Proof. intros G w r w'. destruct (mf_choices f); [apply choose_grows|now apply type_grows]. Qed.
  Lemma field_grows P gm f : (forall d, refers (mf_type f) d -> grows P (gm d)) -> grows P (field_mock R gm f).
  Proof.
    intros G w r w'. unfold field_mock. pose proof (given_grows P gm f G) as K.
    destruct (mf_required f); [apply K|]. destruct (rnd_coin R (snd w)) as [[] s]; [apply (K (fst w, s))|].
    intros [= <- <-]. split; [apply incl_refl|auto].
  Qed.
  Lemma values_grow P gm over fs : (forall x f d, In (x, f) fs -> refers (mf_type f) d -> grows P (gm d)) ->
    forall values, grows P (field_values R gm over fs values).
  Proof.
    induction fs as [|[x f] fs IH]; intros G values w r w'; cbn [field_values].
    - intros [= <- <-]. split; [apply incl_refl|auto].
    - assert (G' : forall y g d, In (y, g) fs -> refers (mf_type g) d -> grows P (gm d)) by (intros; eapply G; [right|]; eassumption).
      destruct (dmem x over); [now apply IH|]. destruct (seen f (fst w)); [now apply IH|].
      destruct (field_mock R gm f w) as [[[|e]|v] w1] eqn:E; apply (field_grows P) in E as [I1 M1];
        try (intros d Hd; eapply G; [left; reflexivity|assumption]); try (intros [= <- <-]; auto).
      intros H. apply IH in H as [I2 M2]; [|assumption]. split; [eapply incl_tran; eassumption|].
      intros y Hy. apply M2 in Hy as [Hy|Hy]; auto.
  Qed.
  Lemma object_grows n over c : grows (fun e => e = c \/ nested_in fields c e) (obj n over c).
  Proof.
    revert over c. induction n as [|n IH]; intros over c w r w'; cbn [mock_object].
    - intros [= <- <-]. split; [apply incl_refl|auto].
    - destruct (field_values R (obj n []) over (fields c) [] (c :: fst w, snd w)) as [x w1] eqn:E. intros H.
      assert (W : w1 = w') by (destruct x as [e|vs]; [congruence|destruct (make c _); congruence]). subst w1.
      apply (values_grow (fun e => nested_in fields c e)) in E as [I M].
      + cbn [fst] in *. split; [intros y Hy; apply I; now right|]. intros e He. apply M in He as [[<-|He]|He]; auto.
      + intros y f d Hin Hd. intros w2 r2 w3 E2. apply IH in E2 as [I2 M2]. split; [assumption|].
        pose proof (nest_one fields c d y f Hin Hd) as N. intros e He. apply M2 in He as [He|[->|He]]; auto. right. now apply nest_more with d.
  Qed.

  (** *** Termination *)
  Definition left (U m : list cid) : nat := length (filter (fun c => negb (in_memo c m)) U).
  Lemma left_mono U m m' : incl m m' -> (left U m' <= left U m)%nat.
  Proof.
    intros I. unfold left. induction U as [|c U IH]; cbn; [lia|].
    destruct (in_memo c m) eqn:E; cbn.
    - apply in_memo_iff, I, in_memo_iff in E. rewrite E. exact IH.
    - destruct (in_memo c m'); cbn; lia.
  Qed.
  Lemma left_cons U m d : In d U -> ~ In d m -> (left U (d :: m) < left U m)%nat.
  Proof.
    intros H N. unfold left. induction U as [|c U IH]; [destruct H|]. cbn [filter].
    assert (L : (length (filter (fun c => negb (in_memo c (d :: m))) U) <= length (filter (fun c => negb (in_memo c m)) U))%nat).
    { apply (left_mono U m (d :: m)). intros y Hy. now right. }
    destruct (N.eq_dec c d) as [->|Hc].
    - assert (A : in_memo d m = false) by (destruct (in_memo d m) eqn:A; [apply in_memo_iff in A; contradiction|reflexivity]).
      assert (B : in_memo d (d :: m) = true) by (apply in_memo_iff; now left). rewrite A, B. cbn [negb length]. lia.
    - destruct H as [->|H]; [congruence|]. specialize (IH H).
      assert (B : in_memo c (d :: m) = in_memo c m). { cbn. apply N.eqb_neq in Hc. now rewrite Hc. }
      rewrite B. destruct (in_memo c m); cbn [negb length]; lia.
  Qed.
  Lemma left_le U m : (left U m <= length U)%nat.
  Proof. unfold left. induction U as [|c U IH]; cbn; [lia|]. destruct (negb _); cbn; lia. Qed.

  (** Computations that agree (and keep a property of the outcome) from all worlds whose memo contains [m]. *)
  Definition agree (Q : mexn -> Prop) (m : list cid) {A} (a b : @mockm St A) : Prop :=
    forall w, incl m (fst w) -> a w = b w /\ (incl m (fst (snd (a w)))) /\ forall e, fst (a w) = inl e -> Q e.
  Lemma times_agree Q m {A} n (a b : @mockm St A) : agree Q m a b -> agree Q m (times n a) (times n b).
  Proof.
    intros G. induction n as [|n IH]; intros w I; cbn.
    - split; [reflexivity|]. split; [assumption|discriminate].
    - destruct (G w I) as (E & I1 & H1). rewrite <- E. destruct (a w) as [[e|x] w1]; cbn in *; [split; [reflexivity|split; [assumption|intros ? [= <-]; now apply H1]]|].
      destruct (IH w1 I1) as (E2 & I2 & H2). rewrite <- E2. destruct (times n a w1) as [[e|l] w2]; cbn in *; [split; [reflexivity|split; [assumption|intros ? [= <-]; now apply H2]]|].
      split; [reflexivity|]. split; [assumption|discriminate].
  Qed.
  Section Outcome.
    Variable Q : mexn -> Prop.
    Hypothesis Qm : Q MockCreation.
    Hypothesis Qi : Q (Other (XPy EIndexError)).
    Hypothesis Qa : Q (Other (XPy EAttributeError)).
    Hypothesis Qd : forall c x f d s e s', In (x, f) (fields c) -> draws (mf_type f) d -> d s = (inl e, s') -> Q e.
    Hypothesis Qk : forall c args e, make c args = Raise e -> Q (Other e).

    Lemma type_agree gm gm' t m : (forall d s e s', draws t d -> d s = (inl e, s') -> Q e) ->
      (forall d, refers t d -> agree Q m (gm d) (gm' d)) -> agree Q m (type_mock R gm t) (type_mock R gm' t).
    Proof using Qm.
      induction t as [d|o|c|lo hi ch t IH]; intros D G w I; cbn.
      - destruct (d (snd w)) as [x s] eqn:E. cbn. split; [reflexivity|]. split; [assumption|]. intros e ->.
        eapply D; [constructor|eassumption].
      - split; [reflexivity|]. split; [assumption|discriminate].
      - apply G; [constructor|assumption].
      - destruct (range_endpoints lo hi 0 0) as [[a b]|]; [|cbn; split; [reflexivity|split; [assumption|now intros e [= <-]]]].
        destruct (rnd_int R a b (snd w)) as [n s].
        assert (A : agree Q m (type_mock R gm t) (type_mock R gm' t)).
        { apply IH; [intros; eapply D; [constructor; eassumption|eassumption]|intros; apply G; now constructor]. }
        destruct (times_agree Q m (Z.to_nat n) _ _ A (fst w, s) I) as (E & I1 & H1). rewrite <- E.
        destruct (times (Z.to_nat n) (type_mock R gm t) (fst w, s)) as [[e|l] w2]; cbn in *; [split; [reflexivity|split; [assumption|intros ? [= <-]; now apply H1]]|].
        split; [reflexivity|]. split; [assumption|discriminate].
    Qed.
    Lemma field_agree gm gm' f m : (forall d s e s', draws (mf_type f) d -> d s = (inl e, s') -> Q e) ->
      (forall d, refers (mf_type f) d -> agree Q m (gm d) (gm' d)) -> agree Q m (field_mock R gm f) (field_mock R gm' f).
    Proof using Qm Qi.
      intros D G. pose proof (type_agree gm gm' (mf_type f) m D G) as T.
      assert (K : agree Q m (fun w => match mf_choices f with Some l => choose R l w | None => type_mock R gm (mf_type f) w end)
                            (fun w => match mf_choices f with Some l => choose R l w | None => type_mock R gm' (mf_type f) w end)).
      { destruct (mf_choices f) as [l|]; [|exact T]. intros w I. split; [reflexivity|]. unfold choose. destruct l as [|v l].
        - cbn. split; [assumption|]. now intros e [= <-].
        - destruct (rnd_index R _ _) as [i s]. cbn. split; [assumption|discriminate]. }
      intros w I. unfold field_mock. destruct (mf_required f); [exact (K w I)|].
      destruct (rnd_coin R (snd w)) as [[] s]; [exact (K (fst w, s) I)|]. cbn. split; [reflexivity|]. split; [assumption|discriminate].
    Qed.
    Lemma values_agree U gm gm' over m k fs :
      (forall x f d, In (x, f) fs -> refers (mf_type f) d -> In d U) ->
      (forall x f d s e s', In (x, f) fs -> draws (mf_type f) d -> d s = (inl e, s') -> Q e) ->
      (left U m <= k)%nat ->
      (forall d m', In d U -> (left U (d :: m') < k)%nat -> agree Q m' (gm d) (gm' d)) ->
      forall values, agree Q m (field_values R gm over fs values) (field_values R gm' over fs values).
    Proof using Qm Qi Qa.
      induction fs as [|[x f] fs IH]; intros C D L G values w I; cbn [field_values].
      - cbn. split; [reflexivity|]. split; [assumption|discriminate].
      - assert (IH' := IH (fun y g d K => C y g d (or_intror K)) (fun y g d s e s' K => D y g d s e s' (or_intror K)) L G).
        destruct (dmem x over); [now apply IH'|]. destruct (seen f (fst w)) eqn:S; [now apply IH'|].
        assert (A : agree Q (fst w) (field_mock R gm f) (field_mock R gm' f)).
        { apply field_agree; [intros; eapply D; [left; reflexivity|eassumption..]|]. intros d Hd.
          assert (Hu : In d U) by (eapply C; [left; reflexivity|eassumption]). apply G; [assumption|].
          unfold seen in S. rewrite (refers_model_class _ _ Hd) in S.
          assert (N : ~ In d (fst w)) by (intros K; apply in_memo_iff in K; congruence).
          pose proof (left_cons U (fst w) d Hu N). pose proof (left_mono U m (fst w) I). lia. }
        destruct (A w (incl_refl _)) as (E & I1 & H1). rewrite <- E.
        destruct (field_mock R gm f w) as [[[|e]|v] w1]; cbn [fst snd] in *.
        + split; [reflexivity|]. split; [eapply incl_tran; eassumption|]. now intros e [= <-].
        + split; [reflexivity|]. split; [eapply incl_tran; eassumption|intros ? [= <-]; now apply H1].
        + apply IH'. eapply incl_tran; eassumption.
    Qed.
    Lemma object_agree U : closed fields U -> forall n n' over c m, In c U -> (left U (c :: m) < n)%nat -> (left U (c :: m) < n')%nat ->
      agree Q m (obj n over c) (obj n' over c).
    Proof using Qm Qi Qa Qd Qk.
      intros C. induction n as [|n IH]; intros n' over c m Hc L L'; [lia|]. destruct n' as [|n']; [lia|]. intros w I. cbn [mock_object].
      assert (A : agree Q (c :: m) (field_values R (obj n []) over (fields c) []) (field_values R (obj n' []) over (fields c) [])).
      { apply (values_agree U) with (k := left U (c :: m)).
        - intros x f d Hin Hd. eapply C; eassumption.
        - intros x f d s e s' Hin Hd. eapply Qd; eassumption.
        - lia.
        - intros d m' Hd Ld. apply IH; [assumption|lia..]. }
      destruct (A (c :: fst w, snd w)) as (E & I1 & H1); [intros y [<-|Hy]; [now left|right; now apply I]|]. rewrite <- E.
      destruct (field_values R (obj n []) over (fields c) [] (c :: fst w, snd w)) as [[e|vs] w1]; cbn [fst snd] in *.
      - split; [reflexivity|]. split; [intros y Hy; apply I1; now right|intros ? [= <-]; now apply H1].
      - destruct (make c (dupdate vs over)) as [v|e] eqn:Em; cbn; (split; [reflexivity|split; [intros y Hy; apply I1; now right|]]);
          [discriminate|intros e' [= <-]; eapply Qk; eassumption].
    Qed.
  End Outcome.

  Lemma left_start U c m : In c U -> (left U (c :: m) < length U)%nat.
  Proof. intros H. pose proof (left_cons U [] c H (fun K => K)). pose proof (left_mono U [c] (c :: m)).
    assert (I : incl [c] (c :: m)) by (intros y [<-|[]]; now left). specialize (H1 I). pose proof (left_le U []). lia. Qed.

  Theorem enough_depth U c over n w : closed fields U -> In c U -> (length U <= n)%nat -> obj n over c w = obj (length U) over c w.
  Proof.
    intros C Hc L. pose proof (left_start U c (fst w) Hc) as S.
    exact (proj1 (object_agree (fun _ => True) I I I (fun _ _ _ _ _ _ _ _ _ _ => I) (fun _ _ _ _ => I) U C n (length U) over c (fst w) Hc
             ltac:(lia) ltac:(lia) w (incl_refl _))).
  Qed.
  Theorem never_too_deep U c over n w : closed fields U -> In c U -> (length U <= n)%nat ->
    (forall c x f d s s', In (x, f) (fields c) -> draws (mf_type f) d -> d s <> (inl (Other XFuel), s')) ->
    (forall c args, make c args <> Raise XFuel) -> fst (obj n over c w) <> inl (Other XFuel).
  Proof.
    intros C Hc L D K. pose proof (left_start U c (fst w) Hc) as S.
    assert (A : agree (fun e => e <> Other XFuel) (fst w) (obj n over c) (obj n over c)).
    { apply (object_agree (fun e => e <> Other XFuel)) with (U := U); try discriminate; try assumption; try lia.
      - intros c' x f d s e s' Hin Hd Hs ->. eapply D; eassumption.
      - intros c' args e He [= ->]. eapply K; eassumption. }
    intros E. destruct (A w (incl_refl _)) as (_ & _ & H). now apply H in E.
  Qed.

  (** *** MockCreationError never leaves get_mock_object. *)
  Lemma no_creation_error n over c w : fst (obj n over c w) <> inl MockCreation.
  Proof.
    destruct n as [|n]; cbn [mock_object]; [discriminate|].
    assert (K : forall fs values w, fst (field_values R (obj n []) over fs values w) <> inl MockCreation).
    { induction fs as [|[x f] fs IH]; intros values w'; cbn [field_values]; [discriminate|].
      destruct (dmem x over); [apply IH|]. destruct (seen f (fst w')); [apply IH|].
      destruct (field_mock R (obj n []) f w') as [[[|e]|v] w1]; [discriminate|discriminate|apply IH]. }
    specialize (K (fields c) [] (c :: fst w, snd w)).
    destruct (field_values R (obj n []) over (fields c) [] (c :: fst w, snd w)) as [[e|vs] w1]; cbn in *; [congruence|].
    destruct (make c (dupdate vs over)); discriminate.
  Qed.

  (** *** What the values are. *)
  Section Values.
    Hypothesis F : fair_rng R.
    Notation tg := (type_gives fields make).
    Notation fg := (field_gives fields make).
    Notation og := (object_gives fields make).

    Lemma times_give {A} (P : A -> Prop) n (m : @mockm St A) : (forall w v w', m w = (inr v, w') -> P v) ->
      forall w l w', times n m w = (inr l, w') -> length l = n /\ Forall P l.
    Proof.
      intros H. induction n as [|n IH]; intros w l w'; cbn.
      - intros [= <- <-]. auto.
      - destruct (m w) as [[e|x] w1] eqn:E; [discriminate|]. destruct (times n m w1) as [[e|r] w2] eqn:E2; [discriminate|].
        intros [= <- <-]. apply IH in E2 as [L Fo]. cbn. split; [lia|]. constructor; [eapply H; eassumption|assumption].
    Qed.
    Lemma type_gives_ok gm t : (forall d w v w', gm d w = (inr v, w') -> og d v) ->
      forall w v w', type_mock R gm t w = (inr v, w') -> tg t v.
    Proof using F.
      intros G. induction t as [d|o|c|lo hi ch t IH]; intros w v w'; cbn.
      - destruct (d (snd w)) as [x s] eqn:E. intros [= -> <-]. econstructor; eassumption.
      - intros [= <- <-]. constructor.
      - intros E. constructor. eapply G; eassumption.
      - destruct (range_endpoints lo hi 0 0) as [[a b]|] eqn:E; [|discriminate]. apply endpoints_sound in E as [L E]; [|lia].
        destruct (rnd_int R a b (snd w)) as [n s] eqn:En. destruct F as [_ Fi]. specialize (Fi a b (snd w) L). rewrite En in Fi. cbn in Fi.
        destruct (times (Z.to_nat n) (type_mock R gm t) (fst w, s)) as [[e|l] w2] eqn:Et; [discriminate|]. intros [= <- <-].
        apply (times_give (tg t)) in Et as [Ll Fl]; [|assumption]. constructor; [|assumption].
        destruct (E n Fi) as [Hn W]. rewrite Ll. now replace (Z.of_nat (Z.to_nat n)) with (n + 0) by lia.
    Qed.
    Lemma field_gives_ok gm f : (forall d w v w', gm d w = (inr v, w') -> og d v) ->
      forall w v w', field_mock R gm f w = (inr v, w') -> fg f v.
    Proof using F.
      intros G. assert (K : forall w v w', match mf_choices f with Some l => choose R l w | None => type_mock R gm (mf_type f) w end = (inr v, w') -> fg f v).
      { intros w v w'. destruct (mf_choices f) as [l|] eqn:E.
        - unfold choose. destruct l as [|x l]; [discriminate|]. destruct (rnd_index R (length (x :: l)) (snd w)) as [i s] eqn:Ei.
          intros [= <- <-]. eapply fg_choice; [eassumption|]. destruct F as [Fi _]. specialize (Fi (length (x :: l)) (snd w) ltac:(cbn; lia)).
          rewrite Ei in Fi. exact (nth_In (x :: l) VNone Fi).
        - intros H. apply fg_type; [assumption|]. eapply type_gives_ok; eassumption. }
      intros w v w'. unfold field_mock. destruct (mf_required f) eqn:Er; [apply K|].
      destruct (rnd_coin R (snd w)) as [[] s]; [apply K|]. intros [= <- <-]. now constructor.
    Qed.
    Lemma values_ok gm over c fs : (forall d w v w', gm d w = (inr v, w') -> og d v) -> (forall p, In p fs -> In p (fields c)) ->
      forall values, (forall x u, dget x values = Some u -> exists f, In (x, f) (fields c) /\ fg f u) ->
      forall w vs w', field_values R gm over fs values w = (inr vs, w') ->
      forall x u, dget x vs = Some u -> exists f, In (x, f) (fields c) /\ fg f u.
    Proof using F.
      intros G. induction fs as [|[x f] fs IH]; intros I values V w vs w'; cbn [field_values].
      - intros [= <- <-]. exact V.
      - assert (I' : forall p, In p fs -> In p (fields c)) by (intros; apply I; now right).
        destruct (dmem x over); [now apply IH|]. destruct (seen f (fst w)); [now apply IH|].
        destruct (field_mock R gm f w) as [[[|e]|v] w1] eqn:E; [discriminate|discriminate|]. apply IH; [assumption|].
        intros y u. destruct (key_eqb y x) eqn:Ey.
        + apply key_eqb_eq in Ey as ->. rewrite dget_dset_eq. intros [= <-]. exists f. split; [apply I; now left|].
          eapply field_gives_ok; eassumption.
        + rewrite dget_dset_neq by (intros ->; now rewrite key_eqb_refl in Ey). apply V.
    Qed.
    Lemma object_ok n over c w v w' : obj n over c w = (inr v, w') -> NoDup (dkeys over) ->
      exists args, make c args = Ok v /\ (forall x u, dget x over = Some u -> dget x args = Some u) /\
        forall x u, dget x args = Some u -> dget x over = None -> exists f, In (x, f) (fields c) /\ fg f u.
    Proof using F.
      revert over c w v w'. induction n as [|n IH]; intros over c w v w'; cbn [mock_object]; [discriminate|].
      destruct (field_values R (obj n []) over (fields c) [] (c :: fst w, snd w)) as [[e|vs] w1] eqn:E; [discriminate|].
      destruct (make c (dupdate vs over)) as [v'|e] eqn:Em; [|discriminate]. intros [= <- <-] N.
      exists (dupdate vs over). split; [assumption|]. split.
      - intros x u Hx. rewrite dget_dupdate by assumption. now rewrite Hx.
      - intros x u Hx Ho. rewrite dget_dupdate, Ho in Hx by assumption.
        eapply (values_ok (obj n []) over c (fields c)); try eassumption; [|auto|discriminate].
        intros d w2 v2 w3 E2. apply IH in E2 as (args & A & _ & B); [|constructor]. econstructor; [exact A|]. intros; now apply B.
    Qed.
  End Values.

  (** *** Which fields get a value. *)
  Lemma values_keep gm over fs : forall values w vs w' x, field_values R gm over fs values w = (inr vs, w') ->
    (dget x values <> None -> dget x vs <> None).
  Proof.
    induction fs as [|[y f] fs IH]; intros values w vs w' x; cbn [field_values]; [intros [= <- <-]; auto|].
    destruct (dmem y over); [apply IH|]. destruct (seen f (fst w)); [apply IH|].
    destruct (field_mock R gm f w) as [[[|e]|v] w1]; [discriminate|discriminate|]. intros E H. eapply IH; [eassumption|].
    destruct (key_eqb x y) eqn:Ey; [apply key_eqb_eq in Ey as ->; rewrite dget_dset_eq; discriminate|].
    rewrite dget_dset_neq by (intros ->; now rewrite key_eqb_refl in Ey). assumption.
  Qed.
  Lemma value_given gm over pre x f post values w vs w' (P : cid -> Prop) :
    (forall y g d, In (y, g) pre -> refers (mf_type g) d -> grows P (gm d)) ->
    (forall d, model_class_of (mf_type f) = Some d -> ~ In d (fst w) /\ ~ P d) -> dget x over = None ->
    field_values R gm over (pre ++ (x, f) :: post) values w = (inr vs, w') -> dget x vs <> None.
  Proof.
    intros G S Ho. revert values w S. induction pre as [|[y g] pre IH]; intros values w S; cbn [app field_values].
    - unfold dmem. rewrite Ho. assert (E : seen f (fst w) = false).
      { unfold seen. destruct (model_class_of (mf_type f)) as [d|]; [|reflexivity]. destruct (S d eq_refl) as [N _].
        destruct (in_memo d (fst w)) eqn:E; [apply in_memo_iff in E; contradiction|reflexivity]. }
      rewrite E. destruct (field_mock R gm f w) as [[[|e]|v] w1]; [discriminate|discriminate|]. intros H.
      eapply values_keep; [eassumption|]. rewrite dget_dset_eq. discriminate.
    - assert (G' : forall z h d, In (z, h) pre -> refers (mf_type h) d -> grows P (gm d)) by (intros; eapply G; [right|]; eassumption).
      destruct (dmem y over); [now apply IH|]. destruct (seen g (fst w)); [now apply IH|].
      destruct (field_mock R gm g w) as [[[|e]|v] w1] eqn:E; [discriminate|discriminate|]. apply IH; [assumption|].
      apply (field_grows P) in E as [_ M]; [|intros d Hd; eapply G; [left; reflexivity|assumption]].
      intros d Hd. destruct (S d Hd) as [N1 N2]. split; [|assumption]. intros K. apply M in K as [K|K]; contradiction.
  Qed.
  Lemma dget_over {A} x (vs over : list (key * A)) : dget x vs <> None -> dget x (dupdate vs over) <> None.
  Proof.
    unfold dupdate. revert vs. induction over as [|[y u] over IH]; intros vs H; cbn [fold_left]; [assumption|]. apply IH. cbn [fst snd].
    destruct (key_eqb x y) eqn:Ey; [apply key_eqb_eq in Ey as ->; rewrite dget_dset_eq; discriminate|].
    rewrite dget_dset_neq by (intros ->; now rewrite key_eqb_refl in Ey). assumption.
  Qed.
  Lemma field_filled n over c w v w' pre x f post :
    obj n over c w = (inr v, w') -> fields c = (pre ++ (x, f) :: post)%list -> dget x over = None ->
    (forall d, model_class_of (mf_type f) = Some d -> d <> c /\ ~ In d (fst w) /\ forall y g, In (y, g) pre -> ~ reached fields g d) ->
    exists args, make c args = Ok v /\ dget x args <> None.
  Proof.
    destruct n as [|n]; cbn [mock_object]; [discriminate|]. intros E Hf Ho S. rewrite Hf in E.
    destruct (field_values R (obj n []) over (pre ++ (x, f) :: post) [] (c :: fst w, snd w)) as [[e|vs] w1] eqn:Ev; [discriminate|].
    destruct (make c (dupdate vs over)) as [v'|e] eqn:Em; [|discriminate]. injection E as <- <-.
    exists (dupdate vs over). split; [assumption|]. apply dget_over.
    eapply (value_given _ _ _ _ _ _ _ _ _ _ (fun e => exists y g, In (y, g) pre /\ reached fields g e)); try eassumption.
    - intros y g d Hin Hd w2 r2 w3 E2. apply object_grows in E2 as [I M]. split; [assumption|].
      intros e He. apply M in He as [He|He]; [now left|right]. exists y, g. split; [assumption|]. exists d. auto.
    - intros d Hd. destruct (S d Hd) as (N1 & N2 & N3). split; [cbn; intros [K|K]; congruence|].
      intros (y & g & Hin & Hr). exact (N3 y g Hin Hr).
  Qed.
  Lemma value_absent gm over fs x : (forall d, grows (fun _ => True) (gm d)) ->
    forall values w vs w', field_values R gm over fs values w = (inr vs, w') ->
    (forall f, In (x, f) fs -> exists d, model_class_of (mf_type f) = Some d /\ In d (fst w)) ->
    dget x values = None -> dget x vs = None.
  Proof.
    intros G. induction fs as [|[y f] fs IH]; intros values w vs w'; cbn [field_values]; [now intros [= <- <-]|].
    intros E S V. assert (S' : forall g, In (x, g) fs -> exists d, model_class_of (mf_type g) = Some d /\ In d (fst w)) by (intros; apply S; now right).
    destruct (dmem y over); [now apply IH in E|]. destruct (seen f (fst w)) eqn:Es; [now apply IH in E|].
    destruct (field_mock R gm f w) as [[[|e]|v] w1] eqn:Ef; [discriminate|discriminate|].
    apply (field_grows (fun _ => True)) in Ef as [I _]; [|auto]. apply IH in E; [assumption| |].
    - intros g Hg. destruct (S' g Hg) as (d & Hd & Hin). exists d. auto.
    - rewrite dget_dset_neq; [assumption|]. intros <-. destruct (S f (or_introl eq_refl)) as (d & Hd & Hin).
      unfold seen in Es. rewrite Hd in Es. apply in_memo_iff in Hin. congruence.
  Qed.
  Lemma field_skipped n over c w v w' x :
    obj n over c w = (inr v, w') -> NoDup (dkeys over) -> dget x over = None ->
    (forall f, In (x, f) (fields c) -> exists d, model_class_of (mf_type f) = Some d /\ (d = c \/ In d (fst w))) ->
    exists args, make c args = Ok v /\ dget x args = None.
  Proof.
    destruct n as [|n]; cbn [mock_object]; [discriminate|]. intros E N Ho S.
    destruct (field_values R (obj n []) over (fields c) [] (c :: fst w, snd w)) as [[e|vs] w1] eqn:Ev; [discriminate|].
    destruct (make c (dupdate vs over)) as [v'|e] eqn:Em; [|discriminate]. injection E as <- <-.
    exists (dupdate vs over). split; [assumption|]. rewrite dget_dupdate, Ho by assumption.
    eapply value_absent; [|exact Ev| |reflexivity].
    - intros d w2 r2 w3 E2. apply object_grows in E2 as [I _]. auto.
    - intros f Hf. destruct (S f Hf) as (d & Hd & [-> |Hin]); exists d || exists c; cbn; auto.
  Qed.
End Facts.
