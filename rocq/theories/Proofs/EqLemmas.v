(** Equality of values and of model instances. *)
From Verif.Model Require Import Py Core Num Calendar Api Equality.
From Verif.Spec Require Import ImportSpec FuelSpec EqSpec.
From Verif.Proofs Require Import DictLemmas ImportLemmas ApiLemmas FuelBound.

Lemma pstr_eqb_eq a b : pstr_eqb a b = true <-> a = b.
Proof.
  revert b. induction a as [|x a IH]; destruct b as [|y b]; cbn; try (split; congruence).
  rewrite andb_true_iff, N.eqb_eq, IH. split; [intros [-> ->]; reflexivity|intros [= -> ->]; auto].
Qed.
Lemma pstr_eqb_refl a : pstr_eqb a a = true. Proof. now apply pstr_eqb_eq. Qed.
Lemma pstr_eqb_sym a b : pstr_eqb a b = pstr_eqb b a.
Proof.
  revert b. induction a as [|x a IH]; destruct b as [|y b]; cbn; auto. now rewrite N.eqb_sym, IH.
Qed.
Lemma num_eqb_sym a b : num_eqb a b = num_eqb b a.
Proof.
  destruct a, b; cbn; auto; [apply Z.eqb_sym|]. destruct neg, neg0; reflexivity.
Qed.
Lemma num_eqb_refl a : a <> NNan -> num_eqb a a = true.
Proof. destruct a; cbn; intros H; [apply Z.eqb_refl|destruct neg; reflexivity|congruence]. Qed.
Lemma date_eqb_sym a b : date_eqb a b = date_eqb b a.
Proof. unfold date_eqb. rewrite (Z.eqb_sym (d_year a)), (Z.eqb_sym (d_month a)), (Z.eqb_sym (d_day a)). reflexivity. Qed.
Lemma time_eqb_sym a b : time_eqb a b = time_eqb b a.
Proof.
  unfold time_eqb. rewrite (Z.eqb_sym (t_hour a)), (Z.eqb_sym (t_minute a)), (Z.eqb_sym (t_second a)), (Z.eqb_sym (t_micro a)). reflexivity.
Qed.
Lemma date_eqb_refl a : date_eqb a a = true. Proof. unfold date_eqb. now rewrite !Z.eqb_refl. Qed.
Lemma time_eqb_refl a : time_eqb a a = true. Proof. unfold time_eqb. now rewrite !Z.eqb_refl. Qed.

Lemma atom_eq_sym a b : atom_eq a b = atom_eq b a.
Proof.
  unfold atom_eq. destruct (num_of a) as [x|] eqn:A, (num_of b) as [y|] eqn:B; [apply num_eqb_sym|..].
  - destruct a; try discriminate A; destruct b; try discriminate B; try destruct off; reflexivity.
  - destruct a; try discriminate A; destruct b; try discriminate B; try destruct off; reflexivity.
  - destruct a; try discriminate A; destruct b; try discriminate B; try (try destruct off; reflexivity).
    + apply pstr_eqb_sym.
    + apply pstr_eqb_sym.
    + apply date_eqb_sym.
    + destruct off, off0; try reflexivity; [apply Z.eqb_sym|]. now rewrite date_eqb_sym, time_eqb_sym.
    + apply Z.eqb_sym.
    + apply N.eqb_sym.
    + now rewrite N.eqb_sym, pstr_eqb_sym.
    + apply N.eqb_sym.
Qed.

Section Plain.
  Context (E : env).
  Hypothesis HE : forall c, plain_fields (fields_of E c).

  Lemma get_held c m x f : In (x, f) (fields_of E c) -> model_get E c m x VNone = Ok (held m x).
  Proof.
    intros Hi. unfold model_get, held.
    destruct (dget x (mc_fields (e_class E c))) as [g|] eqn:G.
    - apply dget_In in G. destruct (HE c x g G) as [Hg _]. unfold field_get. rewrite Hg.
      destruct (chain_get m x) as [v|]; [|reflexivity]. destruct v; reflexivity.
    - exfalso. apply dget_None_keys in G. apply G. apply in_map_iff. exists (x, f). auto.
  Qed.
  Lemma held_depth c m x : vdepth (held m x) < vdepth (VModel c m).
  Proof.
    unfold held. destruct (chain_get m x) as [v|] eqn:G.
    - apply (chain_depth c) in G. destruct v; exact G.
    - rewrite vdepth_model. cbn. lia.
  Qed.
  Lemma iter_In c m x : In x (model_iter E c m) -> exists f, In (x, f) (fields_of E c) /\ chain_mem m x = true.
  Proof.
    unfold model_iter. intros H. apply in_map_iff in H as ([y f] & <- & H). apply filter_In in H as [H1 H2].
    cbn [fst snd] in *. apply andb_true_iff in H2 as [H2 _]. eauto.
  Qed.

  Definition total (eq : pyval -> pyval -> res bool) (d : nat) : Prop :=
    forall a b, vdepth a <= d -> exists t, eq a b = Ok t.
  Lemma list_eq_total eq d : total eq d -> forall a b, ldepth a <= d -> exists t, list_eq eq a b = Ok t.
  Proof.
    intros H. induction a as [|x a IH]; intros [|y b] Hd; cbn [list_eq]; eauto. cbn [ldepth] in Hd.
    destruct (H x y) as [t Ht]; [lia|]. rewrite Ht. cbn [rbind]. destruct t; [|eauto]. apply IH. lia.
  Qed.
  Lemma dict_eq_total eq d : total eq d -> forall a b, ddepth a <= d -> exists t, dict_eq eq a b = Ok t.
  Proof.
    intros H. induction a as [|[x v] a IH]; intros b Hd; cbn [dict_eq]; eauto. cbn [ddepth] in Hd.
    destruct (dget x b) as [w|]; [|eauto]. destruct (H v w) as [t Ht]; [lia|]. rewrite Ht. cbn [rbind]. destruct t; [|eauto]. apply IH. lia.
  Qed.
  Lemma loop_total eq c d a b : total eq d -> (forall x, vdepth (held a x) <= d) ->
    forall ks, (forall x, In x ks -> exists f, In (x, f) (fields_of E c)) -> exists t, model_eq_loop E eq c a b ks = Ok t.
  Proof.
    intros H Ha. induction ks as [|x ks IH]; intros Hk; cbn [model_eq_loop]; eauto.
    destruct (Hk x (or_introl eq_refl)) as [f Hf]. rewrite !(get_held c _ x f Hf). cbn [rbind].
    destruct (H (held a x) (held b x) (Ha x)) as [t Ht]. rewrite Ht. cbn [rbind]. destruct t; [|eauto].
    apply IH. intros; apply Hk; cbn; auto.
  Qed.
  Lemma eq_total n : forall a b, vdepth a < n -> exists t, eq_at E n a b = Ok t.
  Proof.
    induction n as [|n IH]; intros a b Hd; [lia|]. cbn [eq_at].
    assert (T : forall d, d < n -> total (eq_at E n) d) by (intros d Hn x y Hx; apply IH; lia).
    unfold eq_step. destruct a; eauto; destruct b; eauto.
    - rewrite vdepth_list in Hd. destruct (Nat.eqb _ _); eauto. apply (list_eq_total _ (ldepth l)); [apply T; lia|lia].
    - rewrite vdepth_tuple in Hd. destruct (Nat.eqb _ _); eauto. apply (list_eq_total _ (ldepth l)); [apply T; lia|lia].
    - rewrite vdepth_dict in Hd. destruct (Nat.eqb _ _); eauto. apply (dict_eq_total _ (ddepth d)); [apply T; lia|lia].
    - destruct (N.eqb c c0); eauto. apply (loop_total _ _ (pred (vdepth (VModel c m)))).
      + apply T. rewrite vdepth_model in *. lia.
      + intros x. pose proof (held_depth c m x). lia.
      + intros x Hx. apply iter_In in Hx as (f & Hf & _). eauto.
  Qed.

  (** ** What equality of instances means *)
  Lemma loop_true eq c a b ks : (forall x, In x ks -> exists f, In (x, f) (fields_of E c)) ->
    (model_eq_loop E eq c a b ks = Ok true <-> forall x, In x ks -> eq (held a x) (held b x) = Ok true).
  Proof.
    induction ks as [|x ks IH]; intros Hk; cbn [model_eq_loop]; [split; [intros _ x []|reflexivity]|].
    destruct (Hk x (or_introl eq_refl)) as [f Hf]. rewrite !(get_held c _ x f Hf). cbn [rbind].
    assert (Hk' : forall y, In y ks -> exists f, In (y, f) (fields_of E c)) by (intros; apply Hk; cbn; auto).
    specialize (IH Hk'). destruct (eq (held a x) (held b x)) as [[|]|e] eqn:Q; cbn [rbind].
    - rewrite IH. split; [intros H y [<-|Hy]; auto|intros H y Hy; apply H; cbn; auto].
    - split; [discriminate|]. intros H. specialize (H x (or_introl eq_refl)). congruence.
    - split; [discriminate|]. intros H. specialize (H x (or_introl eq_refl)). congruence.
  Qed.
  Lemma model_eq_iff n c a b :
    eq_at E (S n) (VModel c a) (VModel c b) = Ok true <->
    forall x f, In (x, f) (fields_of E c) -> chain_mem a x = true -> eq_at E n (held a x) (held b x) = Ok true.
  Proof.
    cbn [eq_at eq_step]. rewrite N.eqb_refl. rewrite loop_true by (intros x Hx; apply iter_In in Hx as (f & Hf & _); eauto).
    split.
    - intros H x f Hf Hm. apply H. unfold model_iter. apply in_map_iff. exists (x, f). split; [reflexivity|].
      apply filter_In. split; [exact Hf|]. cbn [fst snd]. destruct (HE c x f Hf) as [_ Hs]. rewrite Hm, Hs. reflexivity.
    - intros H x Hx. apply iter_In in Hx as (f & Hf & Hm). eauto.
  Qed.
  Lemma classes_differ n c d a b : c <> d -> eq_at E (S n) (VModel c a) (VModel d b) = Ok false.
  Proof. intros H. cbn. destruct (N.eqb_spec c d); [contradiction|reflexivity]. Qed.

  (** ** Symmetry *)
  Definition sym_at (n : nat) : Prop := forall a b s t, same_fields E a b -> eq_at E n a b = Ok s -> eq_at E n b a = Ok t -> s = t.
  Lemma list_eq_sym n : sym_at n -> forall a b s t, Forall2 (same_fields E) a b ->
    list_eq (eq_at E n) a b = Ok s -> list_eq (eq_at E n) b a = Ok t -> s = t.
  Proof.
    intros H a b s t F. revert s t. induction F as [|x y a b Hxy F IH]; cbn [list_eq]; intros s t; [congruence|].
    destruct (eq_at E n x y) as [p|] eqn:P; [|discriminate]. destruct (eq_at E n y x) as [q|] eqn:Q; [|discriminate].
    cbn [rbind]. pose proof (H x y p q Hxy P Q) as <-. destruct p; [apply IH|congruence].
  Qed.
  Lemma loop_sym n c a b : sym_at n -> (forall x v w, chain_get a x = Some v -> chain_get b x = Some w -> same_fields E v w) ->
    forall ks s t, (forall x, In x ks -> exists f, In (x, f) (fields_of E c)) ->
    model_eq_loop E (eq_at E n) c a b ks = Ok s -> model_eq_loop E (eq_at E n) c b a ks = Ok t -> s = t.
  Proof.
    intros H Hv. induction ks as [|x ks IH]; intros s t Hk; cbn [model_eq_loop]; [congruence|].
    destruct (Hk x (or_introl eq_refl)) as [f Hf]. rewrite !(get_held c _ x f Hf). cbn [rbind].
    destruct (eq_at E n (held a x) (held b x)) as [p|] eqn:P; [|discriminate].
    destruct (eq_at E n (held b x) (held a x)) as [q|] eqn:Q; [|discriminate]. cbn [rbind].
    assert (S : same_fields E (held a x) (held b x)).
    { unfold held. destruct (chain_get a x) as [v|] eqn:A; [|apply sf_other; now intros []].
      destruct (chain_get b x) as [w|] eqn:B.
      - specialize (Hv x v w A B). destruct v; try (apply sf_other; now intros []); destruct w; try exact Hv; try (apply sf_other; now intros []).
      - destruct v; apply sf_other; intros []. }
    pose proof (H _ _ p q S P Q) as <-. destruct p; [|congruence]. apply IH. intros; apply Hk; cbn; auto.
  Qed.
  Lemma dict_eq_true eq a b : dict_eq eq a b = Ok true <->
    forall x v, In (x, v) a -> exists w, dget x b = Some w /\ eq v w = Ok true.
  Proof.
    induction a as [|[x v] a IH]; cbn [dict_eq]; [split; [intros _ x v []|reflexivity]|].
    destruct (dget x b) as [w|] eqn:B.
    - destruct (eq v w) as [[|]|e] eqn:Q; cbn [rbind].
      + rewrite IH. split; [intros H y u [[= <- <-]|Hy]; eauto|intros H y u Hy; apply H; cbn; auto].
      + split; [discriminate|]. intros H. destruct (H x v (or_introl eq_refl)) as (w' & W & Q'). congruence.
      + split; [discriminate|]. intros H. destruct (H x v (or_introl eq_refl)) as (w' & W & Q'). congruence.
    - split; [discriminate|]. intros H. destruct (H x v (or_introl eq_refl)) as (w' & W & Q'). congruence.
  Qed.
  Lemma dict_sub_swap n d d' : sym_at n -> NoDup (dkeys d) -> NoDup (dkeys d') -> length d = length d' ->
    (forall x v w, dget x d = Some v -> dget x d' = Some w -> same_fields E v w) ->
    dict_eq (eq_at E n) d d' = Ok true -> forall t, dict_eq (eq_at E n) d' d = Ok t -> t = true.
  Proof.
    intros H Nd Nd' L Hv Q. rewrite dict_eq_true in Q.
    assert (I : forall x w, In (x, w) d' -> exists v, In (x, v) d).
    { assert (I1 : incl (dkeys d) (dkeys d')).
      { intros x Hx. unfold dkeys in Hx. apply in_map_iff in Hx as ([y v] & <- & Hx). destruct (Q y v Hx) as (w & W & _).
        apply dget_In in W. apply in_map_iff. exists (y, w). auto. }
      assert (I2 : incl (dkeys d') (dkeys d)).
      { apply NoDup_length_incl; [exact Nd|unfold dkeys; rewrite !map_length; lia|exact I1]. }
      intros x w Hx. assert (Hk : In x (dkeys d')) by (apply in_map_iff; exists (x, w); auto).
      apply I2 in Hk. apply in_map_iff in Hk as ([y v] & <- & Hk). eauto. }
    assert (Q' : forall x w, In (x, w) d' -> exists v, dget x d = Some v /\ eq_at E n v w = Ok true /\ same_fields E v w).
    { intros x w Hx. destruct (I x w Hx) as [v Hv']. destruct (Q x v Hv') as (w' & W & Qe).
      assert (w' = w) as -> by (apply (In_dget x w d' Nd') in Hx; congruence).
      exists v. split; [now apply In_dget|]. split; [exact Qe|]. apply (Hv x); [now apply In_dget|exact W]. }
    clear Q I L Nd Nd' Hv. induction d' as [|[x w] r IH]; cbn [dict_eq]; intros t; [congruence|].
    destruct (Q' x w (or_introl eq_refl)) as (v & V & Qe & Sf). rewrite V.
    destruct (eq_at E n w v) as [p|] eqn:P; [|discriminate]. pose proof (H v w true p Sf Qe P) as <-.
    cbn [rbind]. apply IH. intros; apply Q'; cbn; auto.
  Qed.
  Lemma same_fields_sym a b : same_fields E a b -> same_fields E b a.
  Proof.
    revert a b. fix F 3. intros a b H. destruct H as [a b H|l l' H|l l' H|d d' N1 N2 H|c m m' H1 H2].
    - apply sf_other. intros K. apply H. destruct a, b; cbn in *; try contradiction; auto.
    - apply sf_list. intros L. specialize (H (eq_sym L)). clear L. induction H; constructor; auto.
    - apply sf_tuple. intros L. specialize (H (eq_sym L)). clear L. induction H; constructor; auto.
    - apply sf_dict; auto. intros x v w V W. apply F. eapply H; eassumption.
    - apply sf_model; [intros x f Hf; symmetry; eapply H1, Hf|]. intros x v w V W. apply F. eapply H2; eassumption.
  Qed.
  Lemma iter_same c m m' : (forall x f, In (x, f) (fields_of E c) -> chain_mem m x = chain_mem m' x) ->
    model_iter E c m = model_iter E c m'.
  Proof.
    intros H. unfold model_iter. f_equal. apply filter_ext_in. intros [x f] Hx. cbn [fst snd]. now rewrite (H x f Hx).
  Qed.
  Lemma eq_sym_at n : sym_at n.
  Proof.
    induction n as [|n IH]; intros a b s t Sf; cbn [eq_at]; [discriminate|].
    destruct Sf as [a b H|l l' H|l l' H|d d' N1 N2 H|c m m' H1 H2]; cbn [eq_step].
    - intros A B. assert (K : eq_step E (eq_at E n) a b = Ok (atom_eq a b) \/ (exists c d m m', a = VModel c m /\ b = VModel d m' /\ c <> d)).
      { destruct a, b; try (left; reflexivity); try (exfalso; apply H; exact I). cbn in H. right. eauto 8. }
      destruct K as [K|(c & d & m & m' & -> & -> & K)].
      + assert (K' : eq_step E (eq_at E n) b a = Ok (atom_eq b a)).
        { destruct a, b; try reflexivity; try (exfalso; apply H; exact I).
          cbn in *. destruct (N.eqb_spec c0 c); [congruence|reflexivity]. }
        rewrite K in A. rewrite K' in B. rewrite atom_eq_sym in A. congruence.
      + cbn in A, B. destruct (N.eqb_spec c d); [contradiction|]. destruct (N.eqb_spec d c); [congruence|]. congruence.
    - rewrite (Nat.eqb_sym (length l')). destruct (Nat.eqb_spec (length l) (length l')) as [L|L]; [|congruence].
      intros A B. exact (list_eq_sym n IH l l' s t (H L) A B).
    - rewrite (Nat.eqb_sym (length l')). destruct (Nat.eqb_spec (length l) (length l')) as [L|L]; [|congruence].
      intros A B. exact (list_eq_sym n IH l l' s t (H L) A B).
    - rewrite (Nat.eqb_sym (length d')). destruct (Nat.eqb_spec (length d) (length d')) as [L|L]; [|congruence].
      intros A B. destruct s.
      + symmetry. eapply dict_sub_swap; [exact IH|exact N1|exact N2|exact L|exact H|exact A|exact B].
      + destruct t; [|reflexivity]. eapply dict_sub_swap; [exact IH|exact N2|exact N1|symmetry; exact L| |exact B|exact A].
        intros x v w V W. apply same_fields_sym. eapply H; eassumption.
    - rewrite N.eqb_refl. rewrite <- (iter_same c m m' H1). intros A B.
      eapply loop_sym; [exact IH|exact H2| |exact A|exact B]. intros x Hx. apply iter_In in Hx as (f & Hf & _). eauto.
  Qed.
  Lemma eq_symmetric n a b : same_fields E a b -> vdepth a < n -> vdepth b < n -> eq_at E n a b = eq_at E n b a.
  Proof.
    intros H A B. destruct (eq_total n a b A) as [s Hs], (eq_total n b a B) as [t Ht]. rewrite Hs, Ht. f_equal.
    eapply eq_sym_at; eauto.
  Qed.

  (** ** Reflexivity *)
  Lemma list_eq_refl eq l : (forall v, In v l -> eq v v = Ok true) -> list_eq eq l l = Ok true.
  Proof.
    induction l as [|x l IH]; intros H; cbn; [reflexivity|]. rewrite H by (cbn; auto). cbn. apply IH. intros; apply H; cbn; auto.
  Qed.
  Lemma copy_equal n : forall v, no_nan v -> vdepth v < n -> eq_at E n v v = Ok true.
  Proof.
    induction n as [|n IH]; intros v Hv Hd; [lia|]. cbn [eq_at]. destruct Hv; cbn [eq_step]; try reflexivity.
    - unfold atom_eq. cbn [num_of]. rewrite num_eqb_refl; [reflexivity|discriminate].
    - unfold atom_eq. cbn [num_of]. rewrite num_eqb_refl; [reflexivity|discriminate].
    - unfold atom_eq. cbn [num_of]. rewrite num_eqb_refl; [reflexivity|].
      destruct f; cbn; try discriminate; [congruence|]. unfold dyadic. destruct (Z.leb 0 e); discriminate.
    - cbn. now rewrite pstr_eqb_refl.
    - cbn. now rewrite pstr_eqb_refl.
    - rewrite Nat.eqb_refl. apply list_eq_refl. intros v Hv. rewrite vdepth_list in Hd. apply IH.
      + rewrite Forall_forall in H. auto.
      + apply ldepth_In in Hv. lia.
    - rewrite Nat.eqb_refl. apply list_eq_refl. intros v Hv. rewrite vdepth_tuple in Hd. apply IH.
      + rewrite Forall_forall in H. auto.
      + apply ldepth_In in Hv. lia.
    - rewrite Nat.eqb_refl. apply dict_eq_true. intros x v Hv. exists v. split; [now apply In_dget|].
      rewrite vdepth_dict in Hd. apply IH; [eapply H0, Hv|]. apply ddepth_In in Hv. lia.
    - change (eq_at E (S n) (VModel c m) (VModel c m) = Ok true). apply model_eq_iff. intros x f Hf Hm. apply IH.
      + unfold held. destruct (chain_get m x) as [v|] eqn:G; [|constructor]. apply H in G. destruct v; auto; constructor.
      + pose proof (held_depth c m x). lia.
    - cbn. now rewrite date_eqb_refl.
    - cbn. destruct o; [now rewrite Z.eqb_refl|]. now rewrite date_eqb_refl, time_eqb_refl.
    - cbn. now rewrite Z.eqb_refl.
    - cbn. now rewrite N.eqb_refl.
    - unfold atom_eq. cbn [num_of]. rewrite num_eqb_refl; [reflexivity|]. unfold decimal_num. destruct (Z.leb 0 e); discriminate.
    - cbn. now rewrite N.eqb_refl, pstr_eqb_refl.
    - cbn. now rewrite N.eqb_refl.
  Qed.
End Plain.
