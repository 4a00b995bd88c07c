(** References to models by name: the statements (C75). *)
From Verif.Model Require Import Py Core Meta ByName.
From Verif.Spec Require Import ByNameSpec.
From Verif.Proofs Require Import DictLemmas ImportName ByNameFacts.
From Coq Require Import Lia.

Lemma later_wf W P P' : nlater W P P' -> nwf P -> nwf P'.
Proof. intros L F. induction L as [|Q R _ IH S]; [exact F|]. now apply (step_wf W Q R). Qed.

Theorem settled_for_good W P P' a o x : nmade W P -> nlater W P P' ->
  nth_error (np_heap P) a = Some (NModel (Some o) x) -> nth_error (np_heap P') a = Some (NModel (Some o) x).
Proof.
  intros M L E. apply made_nwf in M. induction L as [|Q R L IH S]; [exact E|].
  apply (step_keeps W Q R); [exact S|now apply (later_wf W P)|exact IH].
Qed.

(** The first use decides. *)
Theorem first_use W I P a P' o : nmade W P -> W I -> nuse I P a = (P', Found o) ->
  forall P2 I2, nlater W P' P2 -> nuse I2 P2 a = (P2, Found o).
Proof.
  intros M HI U P2 I2 L.
  assert (M' : nmade W P') by (apply nl_step with P; [exact M|now apply ns_use with I a (Found o)]).
  assert (E : exists x, nth_error (np_heap P') a = Some (NModel (Some o) x)).
  { unfold nuse in U. destruct (nth_error (np_heap P) a) as [[[o'|] x|l|i|ms|]|] eqn:E; try discriminate.
    - injection U as <- <-. eauto.
    - destruct (import_string I x) as [o'| |e]; try discriminate. injection U as <- <-. exists x. cbn.
      apply nupd_at. apply nth_error_Some. congruence. }
  destruct E as [x E]. pose proof (settled_for_good W P' P2 a o x M' L E) as E2. unfold nuse. now rewrite E2.
Qed.

Theorem use_models_only I P a t : nth_error (np_heap P) a = Some t -> (forall o x, t <> NModel o x) ->
  nuse I P a = (P, Broken (XPy EAttributeError)).
Proof. intros H N. unfold nuse. rewrite H. destruct t; try reflexivity. now destruct (N cls name). Qed.
Theorem use_imports I P a x : nth_error (np_heap P) a = Some (NModel None x) -> snd (nuse I P a) = import_string I x /\
  ((forall o, import_string I x <> Found o) -> fst (nuse I P a) = P).
Proof.
  intros E. unfold nuse. rewrite E. destruct (import_string I x) as [o| |e]; split; try reflexivity. intros H. exfalso. now apply (H o).
Qed.

(** ** What a reference refers to *)

Definition origin (W : importer -> Prop) (P : nprogram) (o : pobj) (x : pstr) : Prop :=
  (exists c kl, o = PClass c /\ nclass_at P c = Some kl /\ nc_name kl = x) \/ exists I, W I /\ import_string I x = Found o.

Lemma origin_later W P P' o x kl : (np_classes P' = np_classes P \/ np_classes P' = np_classes P ++ [kl]) -> origin W P o x -> origin W P' o x.
Proof.
  intros E [(c & k0 & Eo & K & N)|H]; [|now right]. left. exists c, k0. split; [exact Eo|]. split; [|exact N].
  destruct E as [E|E]; [unfold nclass_at in *; now rewrite E|now apply (old_class_at P P' kl)].
Qed.

Theorem where_from W P a o x : nmade W P -> nth_error (np_heap P) a = Some (NModel (Some o) x) -> origin W P o x.
Proof.
  intros M. revert a o x. unfold nmade in M. remember (NProg [] [NCls (u "Model") [] [] true]) as P0.
  induction M as [|Q R M IH S]; intros a o x E; [subst; now destruct a|]. subst P0.
  pose proof (made_nwf W Q M) as Wf. destruct S as [P t Ht|P name bases attrs P' e [HB HN HA] Ec|I P b P' r HI Eu].
  - destruct (Nat.lt_ge_cases a (length (np_heap P))) as [L|L].
    + cbn in E. rewrite nth_error_app1 in E by exact L. now apply IH in E.
    + cbn in E. rewrite nth_error_app2 in E by exact L. destruct (a - length (np_heap P)) as [|n]; cbn in E; [|now destruct n].
      injection E as ->. cbn in Ht. destruct o as [c|m|n]; try contradiction. destruct Ht as (kl & K & N). left. exists c, kl. auto.
  - destruct (class_statement P name bases attrs P' e Wf (bases_there P bases HB) HA Ec) as (h & inh & fs & D).
    assert (S : half_settled (nnext P) name (roots_of fs) h (np_heap P')).
    { destruct e; [apply (cd_heap _ _ _ _ _ _ _ _ _ D)|apply settled_half, (cd_heap _ _ _ _ _ _ _ _ _ D)]. }
    pose proof (cd_classes _ _ _ _ _ _ _ _ _ D) as K.
    assert (old : forall b, nth_error h b = Some (NModel (Some o) x) -> origin W P' o x).
    { intros b Eb. apply (proj2 (in_copies _ _ _ _ (cd_inherits _ _ _ _ _ _ _ _ _ D))) in Eb. destruct Eb as (b0 & _ & Eb).
      apply IH in Eb. eapply origin_later; [right; exact K|exact Eb]. }
    destruct (hs_each _ _ _ _ _ S a) as [X|[_ X]]; rewrite X in E; [now apply old in E|].
    destruct (nth_error h a) as [t|] eqn:Ea; [|discriminate]. injection E as E.
    destruct t as [[o'|] y|l|i|ms|]; cbn in E; try discriminate.
    + injection E as -> ->. now apply old in Ea.
    + destruct (pstr_eqb y name) eqn:Ey; [|discriminate]. injection E as <- <-. left. exists (nnext P). eexists. split; [reflexivity|].
      split; [apply (next_class_at P P' _ K)|]. cbn. symmetry. now apply name_eq.
  - apply use_cases in Eu. destruct Eu as [->|(y & o' & Eb & Ei & ->)]; [now apply IH in E|]. cbn in E.
    destruct (Nat.eq_dec a b) as [->|N].
    + rewrite nupd_at in E by (apply nth_error_Some; congruence). injection E as <- <-. right. eauto.
    + rewrite nupd_other in E by exact N. apply IH in E. eapply origin_later; [left; reflexivity|exact E].
      Unshelve. exact (NCls [] [] [] true).
Qed.

(** ** Class statements *)

Lemma holds_bound h a b : boxed h -> holds h a b -> b <= a.
Proof. intros B H. induction H as [a|a i b Eb _ IH]; [lia|]. apply B in Eb. lia. Qed.

Section Class.
  Variables (W : importer -> Prop) (P : nprogram) (name : pstr) (bases : list cid) (attrs : list (key * addr)) (P' : nprogram) (e : option exn).
  Hypothesis M : nmade W P.
  Hypothesis Hw : writable P bases attrs.
  Hypothesis E : nclass P name bases attrs = (P', e).
  Let c := nnext P.

  Lemma the_class : exists h inh fs, class_done P name bases attrs P' e h inh fs.
  Proof using M Hw E.
    apply class_statement; [now apply (made_nwf W)|apply bases_there, (wr_bases _ _ _ Hw)|apply (wr_objects _ _ _ Hw)|exact E].
  Qed.

  Lemma fields_from h inh fs : class_done P name bases attrs P' e h inh fs -> forall x a', dget x fs = Some a' ->
    exists a, source P bases attrs x a /\ nth_error h a' = nth_error (np_heap P) a /\
      (a' = a /\ In (x, a) attrs \/ length (np_heap P) <= a').
  Proof using Hw.
    intros D x a' G. rewrite (cd_fields _ _ _ _ _ _ _ _ _ D), dget_dupdate in G by apply (wr_names _ _ _ Hw).
    pose proof (cd_inherits _ _ _ _ _ _ _ _ _ D) as I. destruct (dget x attrs) as [a|] eqn:A.
    - injection G as <-. exists a. split; [now left|]. apply dget_In in A. pose proof (wr_objects _ _ _ Hw _ _ A) as L.
      split; [now apply (copies_old _ _ _ (in_copies _ _ _ _ I))|auto].
    - assert (F : (exists a, first_base P x bases a) \/ forall b, In b bases -> field_obj P b x = None).
      { clear. induction bases as [|b r IH]; [right; intros b []|]. destruct (field_obj P b x) as [a|] eqn:O.
        - left. exists a. now constructor.
        - destruct IH as [[a F]|N]; [left; exists a; now constructor|]. right. intros b' [<-|J]; auto. }
      destruct F as [[a F]|N]; [|rewrite (in_none _ _ _ _ I x N) in G; discriminate].
      destruct (in_some _ _ _ _ I x a F) as (a2 & G2 & E2). rewrite G2 in G. injection G as ->.
      exists a. split; [now right|]. split; [exact E2|]. right. apply dget_In in G2. now apply (in_bound _ _ _ _ I) in G2.
  Qed.

  Lemma fields_to h inh fs : class_done P name bases attrs P' e h inh fs -> forall x a, source P bases attrs x a ->
    exists a', dget x fs = Some a' /\ nth_error h a' = nth_error (np_heap P) a /\ (dget x attrs = None -> length (np_heap P) <= a').
  Proof using Hw.
    intros D x a S. rewrite (cd_fields _ _ _ _ _ _ _ _ _ D), dget_dupdate by apply (wr_names _ _ _ Hw).
    pose proof (cd_inherits _ _ _ _ _ _ _ _ _ D) as I. destruct S as [A|[A F]]; rewrite A.
    - exists a. split; [reflexivity|]. split; [|discriminate].
      apply dget_In in A. apply (copies_old _ _ _ (in_copies _ _ _ _ I)), (wr_objects _ _ _ Hw _ _ A).
    - destruct (in_some _ _ _ _ I x a F) as (a2 & G2 & E2). exists a2. split; [exact G2|]. split; [exact E2|]. intros _.
      apply dget_In in G2. now apply (in_bound _ _ _ _ I) in G2.
  Qed.

  Lemma new_field_obj h inh fs : class_done P name bases attrs P' e h inh fs -> forall x, field_obj P' c x = dget x fs.
  Proof using Type. intros D x. unfold field_obj, c. now rewrite (next_class_at P P' _ (cd_classes _ _ _ _ _ _ _ _ _ D)). Qed.

  Lemma holds_old h : copies (np_heap P) h -> forall a b, a < length (np_heap P) -> (holds h a b <-> holds (np_heap P) a b).
  Proof using M.
    intros C a b L. pose proof (wf_boxed _ (made_nwf W P M)) as B. split; intros H.
    - revert L. induction H as [a|a i b Eb _ IH]; intros L; [constructor|]. rewrite (copies_old _ _ _ C L) in Eb.
      apply ho_box with i; [exact Eb|]. apply IH. apply B in Eb. lia.
    - induction H as [a|a i b Eb _ IH]; [constructor|]. apply ho_box with i; [now rewrite (copies_old _ _ _ C L)|].
      apply IH. apply B in Eb. lia.
  Qed.

  (** A class statement fails exactly if a PolyModelType among its fields names another class. *)
  Theorem when_it_fails :
    (e = None <-> forall x a b l y, source P bases attrs x a -> holds (np_heap P) a b ->
      nth_error (np_heap P) b = Some (NPoly l) -> In (inl y) l -> y = name) /\
    (e = None \/ e = Some (XPy EGenericException)).
  Proof using M Hw E.
    destruct the_class as (h & inh & fs & D). pose proof (cd_heap _ _ _ _ _ _ _ _ _ D) as H.
    pose proof (in_copies _ _ _ _ (cd_inherits _ _ _ _ _ _ _ _ _ D)) as C. pose proof (wf_boxed _ (made_nwf W P M)) as B.
    assert (K : names_known name h (roots_of fs) <-> forall x a b l y, source P bases attrs x a -> holds (np_heap P) a b ->
      nth_error (np_heap P) b = Some (NPoly l) -> In (inl y) l -> y = name).
    { split.
      - intros K x a b l y S Hb Eb J. destruct (fields_to h inh fs D x a S) as (a' & G & Ea & _).
        assert (R : roots_of fs a') by (exists x; now apply dget_In).
        inversion Hb as [q Q|q i b' Ei Hi]; subst.
        + apply (K a' a' l y R); [constructor|now rewrite Ea|exact J].
        + assert (Li : i < length (np_heap P)) by (apply B in Ei as Li; assert (a < length (np_heap P)) by (apply nth_error_Some; congruence); lia).
          apply (K a' b l y R); [|rewrite (copies_old _ _ _ C); [exact Eb|apply holds_bound in Hi; [lia|exact B]]|exact J].
          apply ho_box with i; [now rewrite Ea|]. now apply holds_old.
      - intros K a' b l y [x R] Hb Eb J. apply In_dget in R; [|apply (cd_keys _ _ _ _ _ _ _ _ _ D)].
        destruct (fields_from h inh fs D x a' R) as (a & S & Ea & _). inversion Hb as [q Q|q i b' Ei Hi]; subst.
        + apply (K x a a l y S); [constructor|now rewrite <- Ea|exact J].
        + rewrite Ea in Ei. assert (Li : i < length (np_heap P)) by (apply B in Ei as Li; assert (a < length (np_heap P)) by (apply nth_error_Some; congruence); lia).
          apply holds_old in Hi; [|exact C|exact Li].
          apply (K x a b l y S); [now apply ho_box with i| |exact J].
          rewrite <- (copies_old _ _ _ C); [exact Eb|apply holds_bound in Hi; [lia|exact B]]. }
    destruct e as [x|].
    - destruct H as (_ & -> & N). split; [|now right]. split; [discriminate|]. intros Q. exfalso. now apply N, K.
    - split; [|now left]. split; [|reflexivity]. intros _. now apply K.
  Qed.

  Hypothesis ok : e = None.

  Lemma the_heap : exists h inh fs, class_done P name bases attrs P' e h inh fs /\ settled c name (roots_of fs) h (np_heap P').
  Proof using M Hw E ok. destruct the_class as (h & inh & fs & D). exists h, inh, fs. split; [exact D|]. subst e. apply (cd_heap _ _ _ _ _ _ _ _ _ D). Qed.

  Lemma parts h inh fs b : class_done P name bases attrs P' e h inh fs -> settled c name (roots_of fs) h (np_heap P') ->
    part_of P' c b <-> exists a, roots_of fs a /\ holds h a b.
  Proof using Type.
    intros D S. split.
    - intros (x & a & F & H). rewrite (new_field_obj h inh fs D) in F. exists a. split; [exists x; now apply dget_In|].
      apply (holds_same (np_heap P')); [apply same_boxes_sym, (st_same _ _ _ _ _ S)|exact H].
    - intros (a & [x J] & H). exists x, a. rewrite (new_field_obj h inh fs D). split; [apply In_dget; [apply (cd_keys _ _ _ _ _ _ _ _ _ D)|exact J]|].
      apply (holds_same h); [apply (st_same _ _ _ _ _ S)|exact H].
  Qed.

  (** No reference to the class by its own name is left, nor a name in a PolyModelType. *)
  Theorem no_own_name_left b : part_of P' c b -> nth_error (np_heap P') b <> Some (NModel None name).
  Proof using M Hw E ok.
    destruct the_heap as (h & inh & fs & D & S). intros Hp. apply (parts h inh fs b D S) in Hp. destruct Hp as (a & R & H).
    rewrite (st_reached _ _ _ _ _ S a b R H). destruct (nth_error h b) as [[[o|] y|l|i|ms|]|]; cbn; try discriminate.
    destruct (pstr_eqb y name) eqn:Ey; [discriminate|]. intros [= ->]. now rewrite (proj2 (name_eq name name) eq_refl) in Ey.
  Qed.
  Theorem no_poly_name_left b l y : part_of P' c b -> nth_error (np_heap P') b = Some (NPoly l) -> ~ In (inl y) l.
  Proof using M Hw E ok.
    destruct the_heap as (h & inh & fs & D & S). intros Hp. apply (parts h inh fs b D S) in Hp. destruct Hp as (a & R & H).
    rewrite (st_reached _ _ _ _ _ S a b R H). destruct (nth_error h b) as [[[o|] z|l0|i|ms|]|]; cbn; try discriminate.
    - destruct (pstr_eqb z name); discriminate.
    - intros [= <-] J. apply in_map_iff in J. destruct J as ([z|d] & J & _); discriminate.
  Qed.

  (** What a field refers to after the statement, by what its source referred to before. *)
  Theorem field_after x a : source P bases attrs x a -> exists a', field_obj P' c x = Some a' /\
    (dget x attrs = None -> length (np_heap P) <= a') /\
    match nth_error (np_heap P) a with
    | Some (NModel None y) => y = name /\ nth_error (np_heap P') a' = Some (NModel (Some (PClass c)) name) \/
        y <> name /\ nth_error (np_heap P') a' = Some (NModel None y)
    | Some (NPoly l) => nth_error (np_heap P') a' = Some (NPoly (map (fun m => match m with inl _ => inr c | inr d => inr d end) l))
    | t => nth_error (np_heap P') a' = t
    end.
  Proof using M Hw E ok.
    destruct the_heap as (h & inh & fs & D & S). intros So. destruct (fields_to h inh fs D x a So) as (a' & G & Ea & N).
    exists a'. rewrite (new_field_obj h inh fs D). split; [exact G|]. split; [exact N|].
    assert (R : roots_of fs a') by (exists x; now apply dget_In).
    pose proof (st_reached _ _ _ _ _ S a' a' R (ho_self h a')) as X. rewrite Ea in X.
    destruct (nth_error (np_heap P) a) as [[[o|] y|l|i|ms|]|]; cbn in X; try exact X.
    destruct (pstr_eqb_spec y name) as [->|Ny]; auto.
  Qed.

  (** An object that is in no field of the new class is not touched. *)
  Theorem others_untouched b : b < length (np_heap P) -> ~ part_of P' c b -> nth_error (np_heap P') b = nth_error (np_heap P) b.
  Proof using M Hw E ok.
    destruct the_heap as (h & inh & fs & D & S). intros L N. rewrite <- (copies_old _ _ b (in_copies _ _ _ _ (cd_inherits _ _ _ _ _ _ _ _ _ D)) L).
    destruct (st_each _ _ _ _ _ S b) as [X|X]; [exact X|]. exfalso. apply N. now apply (parts h inh fs b D S).
  Qed.

  (** A mixin's own field is not touched, if it is in no list and not used again. *)
  Theorem mixin_untouched a : a < length (np_heap P) -> (forall b, nth_error (np_heap P) b <> Some (NBox a)) -> (forall y, ~ In (y, a) attrs) ->
    nth_error (np_heap P') a = nth_error (np_heap P) a.
  Proof using M Hw E ok.
    intros L NB NA. apply others_untouched; [exact L|]. destruct the_heap as (h & inh & fs & D & S). intros Hp.
    apply (parts h inh fs a D S) in Hp. destruct Hp as (a' & [x J] & H).
    pose proof (in_copies _ _ _ _ (cd_inherits _ _ _ _ _ _ _ _ _ D)) as C.
    assert (ends : a' = a \/ exists b, nth_error h b = Some (NBox a)).
    { clear - H. induction H as [a|a i b Eb _ IH]; [now left|]. right. destruct IH as [->|[b' Eb']]; eauto. }
    destruct ends as [->|[b Eb]].
    - rewrite (cd_fields _ _ _ _ _ _ _ _ _ D) in J. apply dupdate_from in J. destruct J as [J|J]; [|now apply (NA x)].
      apply (in_bound _ _ _ _ (cd_inherits _ _ _ _ _ _ _ _ _ D)) in J. lia.
    - apply (proj2 C) in Eb. destruct Eb as (b0 & _ & Eb). now apply (NB b0).
  Qed.
End Class.
