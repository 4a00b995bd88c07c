(** References to models by name (C75). *)
From Verif.Model Require Import Py Core Meta ByName.
From Verif.Spec Require Import ByNameSpec.
From Verif.Proofs Require Import DictLemmas.
From Coq Require Import Lia.

Lemma name_eq (a b : pstr) : pstr_eqb a b = true <-> a = b.
Proof. destruct (pstr_eqb_spec a b); split; congruence. Qed.

Lemma dset_from {A} y (w : A) d x v : In (x, v) (dset y w d) -> In (x, v) d \/ (x, v) = (y, w).
Proof.
  induction d as [|[z u] d IH]; cbn; [intuition congruence|]. destruct (key_eqb_spec y z) as [->|N]; cbn; intuition congruence.
Qed.
Lemma dupdate_from {A} (e : list (key * A)) : forall d x v, In (x, v) (dupdate d e) -> In (x, v) d \/ In (x, v) e.
Proof.
  unfold dupdate. induction e as [|[y w] e IH]; intros d x v; cbn; [auto|]. intros J. apply IH in J.
  destruct J as [J|J]; [|auto]. apply dset_from in J. destruct J as [J|J]; [auto|right; left; congruence].
Qed.

(** ** Changing an object *)

Lemma nupd_length h a t : length (nupd h a t) = length h.
Proof. revert a. induction h as [|o r IH]; intros [|a]; cbn; auto. Qed.
Lemma nupd_at h a t : a < length h -> nth_error (nupd h a t) a = Some t.
Proof. revert a. induction h as [|o r IH]; intros [|a] L; cbn in *; try lia; [reflexivity|apply IH; lia]. Qed.
Lemma nupd_other h a b t : b <> a -> nth_error (nupd h a t) b = nth_error h b.
Proof. revert a b. induction h as [|o r IH]; intros [|a] [|b] N; cbn; try reflexivity; [congruence|apply IH; congruence]. Qed.

(** ** Setting up one field *)

(** What setting up by a class does to an object it reaches. *)
Definition settle (c : cid) (owner : pstr) (t : nkind) : nkind :=
  match t with
  | NModel None x => if pstr_eqb x owner then NModel (Some (PClass c)) x else t
  | NPoly l => NPoly (map (fun m => match m with inl _ => inr c | inr d => inr d end) l)
  | _ => t
  end.

Lemma settle_twice c owner t : settle c owner (settle c owner t) = settle c owner t.
Proof.
  destruct t as [[o|] x|l|i|ms|]; cbn; try reflexivity.
  - destruct (pstr_eqb x owner) eqn:E; cbn; [reflexivity|now rewrite E].
  - f_equal. rewrite map_map. apply map_ext. now intros [x|d].
Qed.

Lemma settle_box c owner t i : settle c owner t = NBox i <-> t = NBox i.
Proof. destruct t as [[o|] x|l|j|ms|]; cbn; try (split; congruence). destruct (pstr_eqb x owner); split; congruence. Qed.

Lemma resolve_ok c owner l l' : resolve_names c owner l = Ok l' ->
  l' = map (fun m => match m with inl _ => inr c | inr d => inr d end) l /\ (forall x, In (inl x) l -> x = owner).
Proof.
  revert l'. induction l as [|[x|d] r IH]; intros l'; cbn.
  - intros [= <-]. split; [reflexivity|]. intros x [].
  - destruct (pstr_eqb x owner) eqn:E; [|discriminate]. destruct (resolve_names c owner r) as [r'|e]; cbn; [|discriminate].
    intros [= <-]. destruct (IH r' eq_refl) as [-> H]. split; [reflexivity|]. intros y [[= <-]|J]; [now apply name_eq in E|auto].
  - destruct (resolve_names c owner r) as [r'|e]; cbn; [|discriminate].
    intros [= <-]. destruct (IH r' eq_refl) as [-> H]. split; [reflexivity|]. intros y [J|J]; [discriminate|auto].
Qed.
Lemma resolve_fails c owner l e : resolve_names c owner l = Raise e ->
  e = XPy EGenericException /\ exists x, In (inl x) l /\ x <> owner.
Proof.
  induction l as [|[x|d] r IH]; cbn; [discriminate| |].
  - destruct (pstr_eqb x owner) eqn:E.
    + destruct (resolve_names c owner r) as [r'|e']; cbn; [discriminate|]. intros [= ->]. destruct (IH eq_refl) as (-> & y & J & N). eauto.
    + intros [= <-]. split; [reflexivity|]. exists x. split; [now left|]. intros ->. now rewrite (proj2 (name_eq owner owner) eq_refl) in E.
  - destruct (resolve_names c owner r) as [r'|e']; cbn; [discriminate|]. intros [= ->]. destruct (IH eq_refl) as (-> & y & J & N). eauto.
Qed.

(** Element fields are older than what they are in. *)
Definition boxed (h : list nkind) : Prop := forall a i, nth_error h a = Some (NBox i) -> i < a.
Definition same_boxes (h h' : list nkind) : Prop :=
  length h = length h' /\ forall a i, nth_error h a = Some (NBox i) <-> nth_error h' a = Some (NBox i).

Lemma holds_same h h' a b : same_boxes h h' -> holds h a b -> holds h' a b.
Proof. intros [_ S] H. induction H as [a|a i b B _ IH]; [constructor|]. apply ho_box with i; [now apply S|exact IH]. Qed.
Lemma same_boxes_sym h h' : same_boxes h h' -> same_boxes h' h.
Proof. intros [L S]. split; [auto|]. intros a i. symmetry. apply S. Qed.
Lemma same_boxes_trans h1 h2 h3 : same_boxes h1 h2 -> same_boxes h2 h3 -> same_boxes h1 h3.
Proof. intros [L S] [L' S']. split; [congruence|]. intros a i. now rewrite S. Qed.
Lemma boxed_same h h' : same_boxes h h' -> boxed h -> boxed h'.
Proof. intros [_ S] B a i E. apply S in E. now apply B. Qed.

(** What became of the objects reached from some addresses. *)
Record settled (c : cid) (owner : pstr) (roots : addr -> Prop) (h h' : list nkind) : Prop := {
  st_same : same_boxes h h';
  st_each : forall b, nth_error h' b = nth_error h b \/ exists a, roots a /\ holds h a b;
  st_reached : forall a b, roots a -> holds h a b -> nth_error h' b = option_map (settle c owner) (nth_error h b) }.
Record half_settled (c : cid) (owner : pstr) (roots : addr -> Prop) (h h' : list nkind) : Prop := {
  hs_same : same_boxes h h';
  hs_each : forall b, nth_error h' b = nth_error h b \/
    (exists a, roots a /\ holds h a b) /\ nth_error h' b = option_map (settle c owner) (nth_error h b) }.

Lemma settled_half c owner roots h h' : settled c owner roots h h' -> half_settled c owner roots h h'.
Proof.
  intros [S1 S2 S3]. split; [exact S1|]. intros b. destruct (S2 b) as [H|(a & R & H)]; [auto|].
  right. split; [eauto|now apply (S3 a b)].
Qed.

(** No object reached is a PolyModelType with an unknown name. *)
Definition names_known (owner : pstr) (h : list nkind) (roots : addr -> Prop) : Prop :=
  forall a b l x, roots a -> holds h a b -> nth_error h b = Some (NPoly l) -> In (inl x) l -> x = owner.

Lemma upd_boxes h a t u : nth_error h a = Some t -> (forall i, t = NBox i <-> u = NBox i) -> same_boxes h (nupd h a u).
Proof.
  intros E H. split; [now rewrite nupd_length|]. intros b i. destruct (Nat.eq_dec b a) as [->|N].
  - rewrite nupd_at by (apply nth_error_Some; congruence). rewrite E. split; intros [= X]; f_equal; now apply H.
  - now rewrite nupd_other.
Qed.

Lemma setup_one c owner n : forall h a, boxed h -> a < length h -> a < n ->
  match nsetup n h a c owner with
  | (h', None) => settled c owner (eq a) h h' /\ names_known owner h (eq a)
  | (h', Some e) => h' = h /\ e = XPy EGenericException /\ ~ names_known owner h (eq a)
  end.
Proof.
  induction n as [|n IH]; intros h a B La Ln; [lia|]. cbn [nsetup].
  assert (leaf : forall t, nth_error h a = Some t -> (forall i, t <> NBox i) -> forall b, holds h a b -> b = a).
  { intros t E N b H. inversion H as [|? i ? X]; [reflexivity|]. rewrite E in X. injection X as ->. exfalso. now apply (N i). }
  assert (here : forall t, nth_error h a = Some t -> (forall i, t <> NBox i) ->
    forall h', same_boxes h h' -> (forall b, b <> a -> nth_error h' b = nth_error h b) ->
    nth_error h' a = Some (settle c owner t) -> settled c owner (eq a) h h').
  { intros t E N h' S O A. split; [exact S| |].
    - intros b. destruct (Nat.eq_dec b a) as [->|D]; [right; exists a; split; [reflexivity|constructor]|left; auto].
    - intros a' b <- H. apply (leaf t E N) in H. subst b. now rewrite A, E. }
  assert (known : forall t, nth_error h a = Some t -> (forall i, t <> NBox i) ->
    (forall l x, t = NPoly l -> In (inl x) l -> x = owner) -> names_known owner h (eq a)).
  { intros t E N H a' b l x <- Hb Eb J. apply (leaf t E N) in Hb. subst b. rewrite E in Eb. injection Eb as ->. now apply (H l). }
  destruct (nth_error h a) as [t|] eqn:E; [|apply nth_error_None in E; lia].
  destruct t as [[o|] x|l|i|ms|].
  - split; [apply (here _ eq_refl); [discriminate|split; [reflexivity|tauto]|reflexivity|exact E]|apply (known _ eq_refl); discriminate].
  - split; [|apply (known _ eq_refl); discriminate]. apply (here _ eq_refl); [discriminate| | |].
    + destruct (pstr_eqb x owner); [|split; [reflexivity|tauto]]. eapply upd_boxes; [exact E|]. intros i. split; discriminate.
    + intros b N. destruct (pstr_eqb x owner); [now apply nupd_other|reflexivity].
    + cbn. destruct (pstr_eqb x owner); [now apply nupd_at|exact E].
  - destruct (resolve_names c owner l) as [l'|e] eqn:R.
    + apply resolve_ok in R. destruct R as [-> K]. split.
      * apply (here _ eq_refl); [discriminate| | |].
        -- eapply upd_boxes; [exact E|]. intros i. split; discriminate.
        -- intros b N. now apply nupd_other.
        -- now apply nupd_at.
      * apply (known _ eq_refl); [discriminate|]. intros l' x [= <-]. apply K.
    + apply resolve_fails in R. destruct R as (-> & x & J & N). split; [reflexivity|]. split; [reflexivity|].
      intros K. apply N. apply (K a a l x eq_refl); [constructor|exact E|exact J].
  - pose proof (B a i E) as Li. specialize (IH h i B ltac:(lia) ltac:(lia)).
    assert (tl : forall b, b <> a -> holds h a b -> holds h i b).
    { intros b D H. inversion H as [|? j ? X Y]; [congruence|]. rewrite E in X. now injection X as ->. }
    destruct (nsetup n h i c owner) as [h' [e|]].
    + destruct IH as (-> & -> & K). split; [reflexivity|]. split; [reflexivity|]. intros K'. apply K.
      intros a' b l x <- H Eb J. apply (K' a b l x eq_refl); [now apply ho_box with i|exact Eb|exact J].
    + destruct IH as [[S1 S2 S3] K]. split.
      * split; [exact S1| |].
        -- intros b. destruct (S2 b) as [H|(a' & <- & H)]; [auto|]. right. exists a. split; [reflexivity|now apply ho_box with i].
        -- intros a' b <- H. destruct (Nat.eq_dec b a) as [->|D]; [|apply (S3 i b eq_refl), tl; auto].
           rewrite E. cbn. now apply S1.
      * intros a' b l x <- H Eb J. apply (K i b l x eq_refl); [|exact Eb|exact J]. apply tl; [|exact H]. intros ->. congruence.
  - split; [apply (here _ eq_refl); [discriminate|split; [reflexivity|tauto]|reflexivity|exact E]|apply (known _ eq_refl); discriminate].
  - split; [apply (here _ eq_refl); [discriminate|split; [reflexivity|tauto]|reflexivity|exact E]|apply (known _ eq_refl); discriminate].
Qed.

(** ** Setting up all fields *)

Definition roots_of (fs : list (key * addr)) (a : addr) : Prop := exists x, In (x, a) fs.

Lemma setup_every c owner fs : forall h, boxed h -> (forall x a, In (x, a) fs -> a < length h) ->
  match nsetup_all c owner h fs with
  | (h', None) => settled c owner (roots_of fs) h h' /\ names_known owner h (roots_of fs)
  | (h', Some e) => half_settled c owner (roots_of fs) h h' /\ e = XPy EGenericException /\ ~ names_known owner h (roots_of fs)
  end.
Proof.
  induction fs as [|[x a] r IH]; intros h B L; cbn [nsetup_all].
  - split.
    + split; [split; [reflexivity|tauto]|auto|intros a b [x []]].
    + intros a b l x [y []].
  - assert (La : a < length h) by (apply (L x); now left).
    pose proof (setup_one c owner (length h) h a B La La) as O. destruct (nsetup (length h) h a c owner) as [h1 [e|]].
    + destruct O as (-> & -> & K). split; [split; [split; [reflexivity|tauto]|auto]|]. split; [reflexivity|].
      intros K'. apply K. intros a' b l y <- H E J. apply (K' a b l y); auto. exists x. now left.
    + destruct O as [[S1 S2 S3] K].
      assert (L1 : forall y b, In (y, b) r -> b < length h1) by (intros y b J; rewrite <- (proj1 S1); apply (L y); now right).
      specialize (IH h1 (boxed_same _ _ S1 B) L1).
      assert (S2' : forall b, nth_error h1 b = nth_error h b \/ nth_error h1 b = option_map (settle c owner) (nth_error h b)).
      { intros b. destruct (S2 b) as [H|(a' & <- & H)]; [auto|right; now apply (S3 a b)]. }
      assert (back : forall b l, nth_error h1 b = Some (NPoly l) -> forall y, In (inl y) l -> nth_error h b = Some (NPoly l)).
      { intros b l E y J. destruct (S2' b) as [X|X]; [congruence|]. rewrite X in E. destruct (nth_error h b) as [t|]; [|discriminate].
        cbn in E. injection E as E. destruct t as [[o|] z|l0|i|ms|]; cbn in E; try discriminate.
        - destruct (pstr_eqb z owner); discriminate.
        - injection E as <-. apply in_map_iff in J. destruct J as ([z|d] & J & _); discriminate. }
      assert (r1 : forall a' b, roots_of r a' -> holds h1 a' b -> roots_of ((x, a) :: r) a' /\ holds h a' b).
      { intros a' b [z J] H. split; [exists z; now right|]. apply (holds_same h1 h); [now apply same_boxes_sym|exact H]. }
      assert (r0 : roots_of ((x, a) :: r) a) by (exists x; now left).
      destruct (nsetup_all c owner h1 r) as [h' [e|]].
      * destruct IH as ([T1 T2] & -> & N). split; [split; [now apply same_boxes_trans with h1|]|split; [reflexivity|]].
        -- intros b. destruct (T2 b) as [->|[(a' & R & H) ->]].
           ++ destruct (S2 b) as [->|(a' & <- & H)]; [auto|]. right. split; [exists a; auto|now apply (S3 a b)].
           ++ right. split; [exists a'; now apply r1|]. destruct (S2' b) as [->| ->]; [reflexivity|].
              destruct (nth_error h b); cbn; [now rewrite settle_twice|reflexivity].
        -- intros K'. apply N. intros a' b l y R H E Jl. destruct (r1 a' b R H) as [R' H'].
           apply (K' a' b l y R' H'); [now apply (back b l E y)|exact Jl].
      * destruct IH as [[T1 T2 T3] K2]. split.
        -- split; [now apply same_boxes_trans with h1| |].
           ++ intros b. destruct (T2 b) as [->|(a' & R & H)]; [|right; exists a'; now apply r1].
              destruct (S2 b) as [->|(a' & <- & H)]; [auto|]. right. exists a. auto.
           ++ intros a' b [z [Ez|J]] H.
              ** injection Ez as _ <-. rename a into a'. assert (X : nth_error h1 b = option_map (settle c owner) (nth_error h b)) by now apply (S3 a' b).
                 destruct (T2 b) as [->|(a2 & R & H2)]; [exact X|]. rewrite (T3 a2 b R H2), X.
                 destruct (nth_error h b); cbn; [now rewrite settle_twice|reflexivity].
              ** rewrite (T3 a' b); [|exists z; exact J|now apply (holds_same h h1)].
                 destruct (S2' b) as [->| ->]; [reflexivity|]. destruct (nth_error h b); cbn; [now rewrite settle_twice|reflexivity].
        -- intros a' b l y [z [Ez|J]] H E Jl; [injection Ez as _ <-; now apply (K a b l y eq_refl)|].
           destruct (S2 b) as [X|(a2 & <- & H2)]; [|now apply (K a b l y eq_refl)].
           apply (K2 a' b l y); [exists z; exact J|now apply (holds_same h h1)|congruence|exact Jl].
Qed.

(** ** Copying the fields of the bases *)

(** Every object of the second heap is one of the first or a copy of one. *)
Definition copies (h h2 : list nkind) : Prop :=
  (exists ext, h2 = h ++ ext) /\ forall b t, nth_error h2 b = Some t -> exists b0, b0 <= b /\ nth_error h b0 = Some t.

Lemma copies_refl h : copies h h.
Proof. split; [exists []; now rewrite app_nil_r|]. intros b t E. eauto. Qed.
Lemma copies_trans h1 h2 h3 : copies h1 h2 -> copies h2 h3 -> copies h1 h3.
Proof.
  intros [[e1 ->] C1] [[e2 ->] C2]. split; [exists (e1 ++ e2); now rewrite app_assoc|].
  intros b t E. destruct (C2 b t E) as (b0 & L & E0). destruct (C1 b0 t E0) as (b1 & L1 & E1). exists b1. split; [lia|exact E1].
Qed.
Lemma copies_length h h2 : copies h h2 -> length h <= length h2.
Proof. intros [[e ->] _]. rewrite app_length. lia. Qed.
Lemma copies_old h h2 a : copies h h2 -> a < length h -> nth_error h2 a = nth_error h a.
Proof. intros [[e ->] _] L. now apply nth_error_app1. Qed.
Lemma copies_boxed h h2 : copies h h2 -> boxed h -> boxed h2.
Proof. intros [_ C] B a i E. destruct (C a _ E) as (b & L & E0). apply B in E0. lia. Qed.
Lemma copies_snoc h a t : nth_error h a = Some t -> copies h (h ++ [t]).
Proof.
  intros E. split; [eauto|]. intros b u Eb. destruct (Nat.lt_ge_cases b (length h)) as [L|L].
  - rewrite nth_error_app1 in Eb by exact L. eauto.
  - rewrite nth_error_app2 in Eb by exact L. destruct (b - length h) as [|n] eqn:D; cbn in Eb; [|now destruct n].
    injection Eb as <-. exists a. split; [|exact E]. assert (a < length h) by (apply nth_error_Some; congruence). lia.
Qed.

Lemma ncopy_spec fs : forall h, (forall x a, In (x, a) fs -> a < length h) ->
  let '(h2, fs2) := ncopy h fs in
  copies h h2 /\ dkeys fs2 = dkeys fs /\ (forall x a', In (x, a') fs2 -> length h <= a' < length h2) /\
  (forall x a, dget x fs = Some a -> exists a', dget x fs2 = Some a' /\ nth_error h2 a' = nth_error h a).
Proof.
  induction fs as [|[x a] r IH]; intros h L; cbn [ncopy].
  - split; [apply copies_refl|]. split; [reflexivity|]. split; [intros x a' []|discriminate].
  - assert (La : a < length h) by (apply (L x); now left).
    destruct (nth_error h a) as [t|] eqn:E; [|apply nth_error_None in E; lia].
    assert (L1 : forall y b, In (y, b) r -> b < length (h ++ [t])).
    { intros y b J. rewrite app_length. cbn. specialize (L y b (or_intror J)). lia. }
    specialize (IH (h ++ [t]) L1). destruct (ncopy (h ++ [t]) r) as [h2 r2]. destruct IH as (C & K & B & G).
    pose proof (copies_length _ _ C) as Lh. rewrite app_length in Lh. cbn in Lh.
    split; [apply copies_trans with (h ++ [t]); [now apply copies_snoc with a|exact C]|].
    split; [cbn; now f_equal|]. split.
    + intros y a' [[= <- <-]|J]; [lia|]. apply B in J. rewrite app_length in J. cbn in J. lia.
    + intros y b. cbn. destruct (key_eqb y x).
      * intros [= <-]. exists (length h). split; [reflexivity|]. rewrite E.
        rewrite (copies_old _ _ _ C) by (rewrite app_length; cbn; lia). rewrite nth_error_app2 by lia. now rewrite Nat.sub_diag.
      * intros Gb. destruct (G y b Gb) as (a' & Ga & Ea). exists a'. split; [exact Ga|]. rewrite Ea.
        apply nth_error_app1. apply dget_In in Gb. apply (L y). now right.
Qed.

(** The invariant of programs. *)
Record nwf (P : nprogram) : Prop := {
  wf_boxed : boxed (np_heap P);
  wf_bound : forall kl x a, In kl (np_classes P) -> In (x, a) (nc_fields kl) -> a < length (np_heap P);
  wf_keys : forall kl, In kl (np_classes P) -> NoDup (dkeys (nc_fields kl)) }.

Lemma nclass_In P b kl : nclass_at P b = Some kl -> In kl (np_classes P).
Proof. intros E. now apply nth_error_In in E. Qed.

(** What is inherited. *)
Record inherits (P : nprogram) (bases : list cid) (h : list nkind) (inh : list (key * addr)) : Prop := {
  in_copies : copies (np_heap P) h;
  in_bound : forall x a', In (x, a') inh -> length (np_heap P) <= a' < length h;
  in_keys : NoDup (dkeys inh);
  in_some : forall x a, first_base P x bases a -> exists a', dget x inh = Some a' /\ nth_error h a' = nth_error (np_heap P) a;
  in_none : forall x, (forall b, In b bases -> field_obj P b x = None) -> dget x inh = None }.

Lemma field_obj_In P b x a : field_obj P b x = Some a -> exists kl, nclass_at P b = Some kl /\ In (x, a) (nc_fields kl).
Proof. unfold field_obj. destruct (nclass_at P b) as [kl|]; [|discriminate]. intros G. exists kl. split; [reflexivity|now apply dget_In]. Qed.
Lemma first_base_In P x bases a : first_base P x bases a -> exists b, In b bases /\ field_obj P b x = Some a.
Proof. intros F. induction F as [b r a G|b r a G F (b' & J & G')]; [exists b; split; [now left|exact G]|exists b'; split; [now right|exact G']]. Qed.

Lemma inherit P bases : nwf P -> (forall b, In b bases -> nclass_at P b <> None) ->
  inherits P bases (fst (fold_left (nadd_base P) (rev bases) (np_heap P, []))) (snd (fold_left (nadd_base P) (rev bases) (np_heap P, []))).
Proof.
  intros W. induction bases as [|b r IH]; intros H.
  - cbn. split; [apply copies_refl|intros x a' []|constructor|intros x a F; inversion F|reflexivity].
  - cbn [rev]. rewrite fold_left_app. cbn [fold_left]. specialize (IH (fun b' J => H b' (or_intror J))).
    destruct (fold_left (nadd_base P) (rev r) (np_heap P, [])) as [h inh]. cbn [fst snd] in IH. destruct IH as [C B K S N].
    unfold nadd_base. cbn [fst snd]. destruct (nclass_at P b) as [kl|] eqn:A; [|exfalso; now apply (H b (or_introl eq_refl))].
    assert (fb : forall x, field_obj P b x = dget x (nc_fields kl)) by (intros x; unfold field_obj; now rewrite A).
    pose proof (nclass_In _ _ _ A) as J.
    pose proof (copies_length _ _ C) as Lh.
    assert (L : forall x a, In (x, a) (nc_fields kl) -> a < length h).
    { intros x a Jx. apply (wf_bound P W kl x a J) in Jx. lia. }
    pose proof (ncopy_spec (nc_fields kl) h L) as Q. destruct (ncopy h (nc_fields kl)) as [h2 fs2]. cbn [fst snd].
    destruct Q as (C2 & K2 & B2 & G2). pose proof (copies_length _ _ C2) as Lh2.
    assert (G3 : forall x, dget x (nc_fields kl) = None -> dget x fs2 = None).
    { intros x G. apply dget_None_keys. rewrite K2. now apply dget_None_keys. }
    assert (N2 : NoDup (dkeys fs2)) by (rewrite K2; now apply (wf_keys P W)).
    split.
    + now apply copies_trans with h.
    + intros x a' Jx. apply dupdate_from in Jx. destruct Jx as [Jx|Jx]; [apply B in Jx; lia|apply B2 in Jx; lia].
    + now apply NoDup_dupdate.
    + intros x a F. rewrite dget_dupdate by exact N2. inversion F as [b' r' a' G|b' r' a' G F']; subst.
      * rewrite fb in G. destruct (G2 x a G) as (a' & Ga & Ea). rewrite Ga. exists a'. split; [reflexivity|]. rewrite Ea.
        apply (copies_old _ _ _ C). apply dget_In in G. now apply (wf_bound P W kl x).
      * destruct (S x a F') as (a' & Ga & Ea). rewrite fb in G. apply G3 in G.
        rewrite G. exists a'. split; [exact Ga|]. rewrite <- Ea. apply (copies_old _ _ _ C2). apply dget_In in Ga. now apply B in Ga.
    + intros x Hx. rewrite dget_dupdate by exact N2. pose proof (Hx b (or_introl eq_refl)) as G. rewrite fb in G.
      apply G3 in G. rewrite G. apply N. intros b' J'. apply Hx. now right.
Qed.

(** ** The class statement *)

Record class_done (P : nprogram) (name : pstr) (bases : list cid) (attrs : list (key * addr)) (P' : nprogram) (e : option exn)
    (h : list nkind) (inh fs : list (key * addr)) : Prop := {
  cd_inherits : inherits P bases h inh;
  cd_fields : fs = dupdate inh attrs;
  cd_classes : np_classes P' = np_classes P ++ [NCls name bases fs (match e with None => true | Some _ => false end)];
  cd_bound : forall x a, In (x, a) fs -> a < length h;
  cd_keys : NoDup (dkeys fs);
  cd_heap : match e with
            | None => settled (nnext P) name (roots_of fs) h (np_heap P') /\ names_known name h (roots_of fs)
            | Some x => half_settled (nnext P) name (roots_of fs) h (np_heap P') /\ x = XPy EGenericException /\
                ~ names_known name h (roots_of fs)
            end }.

Lemma class_statement P name bases attrs P' e : nwf P -> (forall b, In b bases -> nclass_at P b <> None) ->
  (forall x a, In (x, a) attrs -> a < length (np_heap P)) -> nclass P name bases attrs = (P', e) ->
  exists h inh fs, class_done P name bases attrs P' e h inh fs.
Proof.
  intros W HB HA. unfold nclass. pose proof (inherit P bases W HB) as I.
  destruct (fold_left (nadd_base P) (rev bases) (np_heap P, [])) as [h inh]. cbn [fst snd] in I.
  change (fold_left (fun d p => dset (fst p) (snd p) d) attrs inh) with (dupdate inh attrs).
  change (N.of_nat (length (np_classes P))) with (nnext P).
  pose proof (copies_length _ _ (in_copies _ _ _ _ I)) as Lh.
  assert (L : forall x a, In (x, a) (dupdate inh attrs) -> a < length h).
  { intros x a J. apply dupdate_from in J. destruct J as [J|J]; [now apply (in_bound _ _ _ _ I) in J|apply HA in J; lia]. }
  pose proof (setup_every (nnext P) name (dupdate inh attrs) h (copies_boxed _ _ (in_copies _ _ _ _ I) (wf_boxed P W)) L) as S.
  destruct (nsetup_all (nnext P) name h (dupdate inh attrs)) as [h' [x|]]; intros [= <- <-]; exists h, inh, (dupdate inh attrs);
    (split; [exact I|reflexivity|reflexivity|exact L|apply NoDup_dupdate, (in_keys _ _ _ _ I)|cbn; exact S]).
Qed.

Lemma next_class_at P P' kl : np_classes P' = np_classes P ++ [kl] -> nclass_at P' (nnext P) = Some kl.
Proof. intros E. unfold nclass_at, nnext. rewrite E, Nnat.Nat2N.id, nth_error_app2 by lia. now rewrite Nat.sub_diag. Qed.
Lemma old_class_at P P' kl c k0 : np_classes P' = np_classes P ++ [kl] -> nclass_at P c = Some k0 -> nclass_at P' c = Some k0.
Proof.
  intros E K. unfold nclass_at in *. rewrite E. rewrite nth_error_app1; [exact K|]. apply nth_error_Some. congruence.
Qed.

(** ** Programs *)

Lemma use_cases I P a P' r : nuse I P a = (P', r) ->
  P' = P \/ exists x o, nth_error (np_heap P) a = Some (NModel None x) /\ import_string I x = Found o /\
    P' = NProg (nupd (np_heap P) a (NModel (Some o) x)) (np_classes P).
Proof.
  unfold nuse. destruct (nth_error (np_heap P) a) as [[[o|] x|l|i|ms|]|] eqn:E; try (intros [= <- <-]; now left).
  destruct (import_string I x) as [o| |e] eqn:J; intros [= <- <-]; auto. right. eauto.
Qed.

Lemma bases_there P bases : (forall b, In b bases -> exists kl, nclass_at P b = Some kl /\ nc_done kl = true) ->
  forall b, In b bases -> nclass_at P b <> None.
Proof. intros H b J. destruct (H b J) as (kl & -> & _). discriminate. Qed.

Lemma step_wf W P P' : nstep W P P' -> nwf P -> nwf P'.
Proof.
  intros S [B F K]. destruct S as [P t Ht|P name bases attrs P' e [HB HN HA] E|I P a P' r HI E].
  - split; cbn.
    + intros a i Ea. destruct (Nat.lt_ge_cases a (length (np_heap P))) as [L|L].
      * rewrite nth_error_app1 in Ea by exact L. now apply B.
      * rewrite nth_error_app2 in Ea by exact L. destruct (a - length (np_heap P)) as [|n] eqn:D; cbn in Ea; [|now destruct n].
        injection Ea as ->. cbn in Ht. lia.
    + intros kl x a J1 J2. rewrite app_length. specialize (F kl x a J1 J2). lia.
    + exact K.
  - destruct (class_statement P name bases attrs P' e (Build_nwf _ B F K) (bases_there P bases HB) HA E) as (h & inh & fs & D).
    assert (S : half_settled (nnext P) name (roots_of fs) h (np_heap P')).
    { destruct e; [apply (cd_heap _ _ _ _ _ _ _ _ _ D)|apply settled_half, (cd_heap _ _ _ _ _ _ _ _ _ D)]. }
    pose proof (hs_same _ _ _ _ _ S) as SB. pose proof (in_copies _ _ _ _ (cd_inherits _ _ _ _ _ _ _ _ _ D)) as C.
    pose proof (copies_length _ _ C) as Lh.
    split.
    + apply (boxed_same h); [exact SB|]. now apply (copies_boxed (np_heap P)).
    + intros kl x a J1 J2. rewrite <- (proj1 SB). rewrite (cd_classes _ _ _ _ _ _ _ _ _ D) in J1. apply in_app_or in J1.
      destruct J1 as [J1|[<-|[]]]; [specialize (F kl x a J1 J2); lia|]. cbn in J2. now apply (cd_bound _ _ _ _ _ _ _ _ _ D) in J2.
    + intros kl J1. rewrite (cd_classes _ _ _ _ _ _ _ _ _ D) in J1. apply in_app_or in J1.
      destruct J1 as [J1|[<-|[]]]; [auto|]. apply (cd_keys _ _ _ _ _ _ _ _ _ D).
  - apply use_cases in E. destruct E as [->|(x & o & E & _ & ->)]; [now split|]. split; cbn.
    + eapply boxed_same; [|exact B]. eapply upd_boxes; [exact E|]. intros i. split; discriminate.
    + intros kl y b J1 J2. rewrite nupd_length. now apply (F kl y).
    + exact K.
Qed.

Lemma made_nwf W P : nmade W P -> nwf P.
Proof.
  intros M. unfold nmade in M. remember (NProg [] [NCls (u "Model") [] [] true]) as P0. induction M as [|Q R _ IH S].
  - subst. split; cbn; [intros [|a] i; discriminate|intros kl x a [<-|[]] []|intros kl [<-|[]]; constructor].
  - apply (step_wf W Q R S). exact IH.
Qed.

(** Settled references never change. *)
Lemma step_keeps W P P' a o x : nstep W P P' -> nwf P -> nth_error (np_heap P) a = Some (NModel (Some o) x) ->
  nth_error (np_heap P') a = Some (NModel (Some o) x).
Proof.
  intros S Wf E. assert (La : a < length (np_heap P)) by (apply nth_error_Some; congruence).
  destruct S as [P t Ht|P name bases attrs P' e [HB HN HA] Ec|I P b P' r HI Eu].
  - cbn. now rewrite nth_error_app1.
  - destruct (class_statement P name bases attrs P' e Wf (bases_there P bases HB) HA Ec) as (h & inh & fs & D).
    assert (S : half_settled (nnext P) name (roots_of fs) h (np_heap P')).
    { destruct e; [apply (cd_heap _ _ _ _ _ _ _ _ _ D)|apply settled_half, (cd_heap _ _ _ _ _ _ _ _ _ D)]. }
    pose proof (copies_old _ _ a (in_copies _ _ _ _ (cd_inherits _ _ _ _ _ _ _ _ _ D)) La) as O. rewrite E in O.
    destruct (hs_each _ _ _ _ _ S a) as [->|[_ ->]]; rewrite O; reflexivity.
  - apply use_cases in Eu. destruct Eu as [->|(y & o' & Eb & _ & ->)]; [exact E|]. cbn. rewrite nupd_other; [exact E|]. intros ->. congruence.
Qed.
