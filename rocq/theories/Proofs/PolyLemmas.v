(** Lists sizes, unions, polymorphic fields. *)
From Verif.Model Require Import Py Core Export Api Compound.
From Verif.Spec Require Import ImportSpec ValidateSpec CompoundSpec.
From Verif.Proofs Require Import DictLemmas CompoundLemmas ValidateLemmas.

(** ** Sizes *)
Lemma check_length_ok mn mx v n : (if truthy v then py_len v else Ok 0%Z) = Ok n ->
  (passes (check_length mn mx) v <-> within mn mx n).
Proof.
  intros H. unfold passes, check_length, too_many. rewrite H. unfold within. split.
  - intros G. destruct mn as [a|].
    + destruct (Z.ltb_spec n a); [discriminate|]. split; [intros ? [= <-]; lia|].
      destruct mx as [b|]; [|discriminate]. rewrite Z.gtb_ltb in G. destruct (Z.ltb_spec b n); [discriminate|].
      intros ? [= <-]; lia.
    + split; [discriminate|]. destruct mx as [b|]; [|discriminate]. rewrite Z.gtb_ltb in G.
      destruct (Z.ltb_spec b n); [discriminate|]. intros ? [= <-]; lia.
  - intros [G1 G2]. destruct mn as [a|].
    + specialize (G1 a eq_refl). destruct (Z.ltb_spec n a); [lia|]. destruct mx as [b|]; [|reflexivity].
      specialize (G2 b eq_refl). rewrite Z.gtb_ltb. destruct (Z.ltb_spec b n); [lia|reflexivity].
    + destruct mx as [b|]; [|reflexivity].
      specialize (G2 b eq_refl). rewrite Z.gtb_ltb. destruct (Z.ltb_spec b n); [lia|reflexivity].
Qed.
Lemma check_length_list mn mx l : passes (check_length mn mx) (VList l) <-> within mn mx (Z.of_nat (length l)).
Proof. apply check_length_ok. destruct l; reflexivity. Qed.
Lemma list_validated E j o g pre mn mx v x w : cx_convert x = true ->
  (cv_validate (conv_at E (S (S j))) (FS (list_opts pre mn mx o) (TList g)) v x = Ok w <->
   exists l ws, list_elems E v = Some l /\ w = VList ws /\ all_convert (cv_field (conv_at E j)) g x l ws /\
     within mn mx (Z.of_nat (length l)) /\ (forall h, In h pre \/ In h (fo_validators o) -> passes h w)).
Proof.
  intros Hc. rewrite field_validate_success by (auto; exact I).
  cbn [fs_opts list_opts fo_validators].
  change (cv_convert (conv_at E (S j)) (FS (list_opts pre mn mx o) (TList g)) v x) with (list_convert E (cv_field (conv_at E j)) g v x).
  rewrite list_convert_ok. split.
  - intros [(l & ws & H1 & -> & H3) H4]. exists l, ws. split; [exact H1|]. split; [reflexivity|]. split; [exact H3|]. split.
    + rewrite <- (all_convert_length _ _ _ _ _ H3). apply check_length_list. apply H4. rewrite in_app_iff; right; left; reflexivity.
    + intros h Hh. apply H4. rewrite in_app_iff. destruct Hh; [auto|right; right; auto].
  - intros (l & ws & H1 & -> & H3 & H4 & H5). split; [exists l, ws; auto|].
    intros h. rewrite in_app_iff. intros [Hh|[<-|Hh]]; auto.
    apply check_length_list. now rewrite (all_convert_length _ _ _ _ _ H3).
Qed.

(** ** Unions *)
Lemma union_cons cvt m ms v : union_resolve cvt (m :: ms) v =
  match cvt m v with Ok w => Ok (m, w) | Raise (XConv _) => union_resolve cvt ms v | Raise e => Raise e end.
Proof. reflexivity. Qed.
Lemma union_In cvt ms v m w : union_resolve cvt ms v = Ok (m, w) -> In m ms /\ cvt m v = Ok w.
Proof.
  induction ms as [|m0 ms IH]; cbn; [discriminate|]. destruct (cvt m0 v) as [w0|e] eqn:G.
  - intros [= <- <-]. auto.
  - destruct e; try discriminate. intros H. apply IH in H as [H1 H2]. auto.
Qed.
(** A choice among leaves is the same for every conversion that treats leaves as they are. *)
Lemma union_leaf cvt ms v m w : (forall o l u, cvt (FS o (TLeaf l)) u = lf_native l u) ->
  union_resolve leaf_convert ms v = Ok (m, w) -> union_resolve cvt ms v = Ok (m, w).
Proof.
  intros Hc. induction ms as [|[o t] ms IH]; cbn; [discriminate|]. unfold leaf_convert at 1. cbn [fs_type].
  destruct t as [l| | | | |]; try discriminate. rewrite Hc.
  destruct (lf_native l v) as [u|[]]; auto.
Qed.
Lemma leaf_converted m v w : leaf_convert m v = Ok w -> exists o l, m = FS o (TLeaf l) /\ lf_native l v = Ok w.
Proof. unfold leaf_convert. destruct m as [o t]; cbn. destruct t as [l| | | | |]; try discriminate. eauto. Qed.
Lemma union_first cvt ms v m w : union_resolve cvt ms v = Ok (m, w) <-> first_open cvt ms v m /\ cvt m v = Ok w.
Proof.
  split.
  - induction ms as [|m0 ms IH]; cbn; [discriminate|].
    destruct (cvt m0 v) as [w0|[]] eqn:G; try discriminate.
    + intros [= <- <-]. split; [|exact G]. exists [], ms. split; [reflexivity|]. split; [constructor|].
      intros [? H]. rewrite G in H. discriminate.
    + intros H. apply IH in H as [(pre & post & -> & H1 & H2) H3]. split; [|exact H3].
      exists (m0 :: pre), post. split; [reflexivity|]. split; [constructor; [eexists; eassumption|exact H1]|exact H2].
  - intros [(pre & post & -> & H1 & H2) H3]. induction pre as [|m0 pre IH]; cbn.
    + rewrite H3. reflexivity.
    + inversion H1 as [|? ? [e He] Hr]; subst. rewrite He. auto.
Qed.
Lemma union_refused cvt ms v : (exists es, union_resolve cvt ms v = Raise (XConv es)) <-> Forall (fun m => refuses cvt m v) ms.
Proof.
  split.
  - induction ms as [|m0 ms IH]; cbn; [constructor|]. intros [es H].
    destruct (cvt m0 v) as [w0|[]] eqn:G; try discriminate.
    constructor; [eexists; eassumption|]. apply IH; eauto.
  - induction 1 as [|m ms [e He] _ IH]; cbn; [eauto|]. now rewrite He.
Qed.
Lemma union_crash cvt ms v e : (forall es, e <> XConv es) ->
  (union_resolve cvt ms v = Raise e <-> exists m, first_open cvt ms v m /\ cvt m v = Raise e).
Proof.
  intros He. split.
  - induction ms as [|m0 ms IH]; cbn; [intros [= <-]; now elim (He [m_union])|].
    destruct (cvt m0 v) as [w0|e0] eqn:G; [discriminate|].
    assert (D : (exists es, e0 = XConv es) \/ (forall es, e0 <> XConv es)) by (destruct e0; eauto; right; discriminate).
    destruct D as [[es ->]|D].
    + intros H. apply IH in H as (m & (pre & post & -> & H1 & H2) & H3). exists m. split; [|exact H3].
      exists (m0 :: pre), post. split; [reflexivity|]. split; [constructor; [eexists; eassumption|exact H1]|exact H2].
    + intros H. assert (e0 = e) as -> by (destruct e0; congruence).
      exists m0. split; [|exact G]. exists [], ms. split; [reflexivity|]. split; [constructor|].
      intros [? H']. rewrite G in H'. injection H' as ->. now elim (D x).
  - intros (m & (pre & post & -> & H1 & H2) & H3). induction pre as [|m0 pre IH]; cbn.
    + rewrite H3. destruct e; try reflexivity. now elim (He ms).
    + inversion H1 as [|? ? [e0 He0] Hr]; subst. rewrite He0. auto.
Qed.

(** At the level of the field. *)
Definition member_conv (E : env) (j : nat) (x : ictx) (m : fspec) (v : pyval) : res pyval := cv_convert (conv_at E j) m v x.
Lemma union_convert_eq E j o ms v x : cv_convert (conv_at E (S j)) (FS o (TUnion ms)) v x =
  rbind (union_resolve (member_conv E j x) ms v) (fun '(_, w) => Ok w).
Proof. reflexivity. Qed.
Lemma union_convert_first E j o ms v x w : cv_convert (conv_at E (S j)) (FS o (TUnion ms)) v x = Ok w <->
  exists m, first_open (fun m u => cv_convert (conv_at E j) m u x) ms v m /\ cv_convert (conv_at E j) m v x = Ok w.
Proof.
  rewrite union_convert_eq. destruct (union_resolve (member_conv E j x) ms v) as [[m u]|e] eqn:U; cbn [rbind].
  - split.
    + intros [= ->]. apply union_first in U. exists m. exact U.
    + intros (m' & H). apply (union_first (member_conv E j x)) in H. congruence.
  - split; [discriminate|]. intros (m' & H). apply (union_first (member_conv E j x)) in H. congruence.
Qed.
Lemma union_convert_refused E j o ms v x :
  (exists es, cv_convert (conv_at E (S j)) (FS o (TUnion ms)) v x = Raise (XConv es)) <->
  Forall (fun m => refuses (fun m u => cv_convert (conv_at E j) m u x) m v) ms.
Proof.
  rewrite union_convert_eq, <- (union_refused (member_conv E j x)). split; intros [es H].
  - destruct (union_resolve _ ms v) as [[m u]|e]; cbn [rbind] in H; [discriminate|]. injection H as ->. eauto.
  - exists es. now rewrite H.
Qed.
Lemma union_convert_crash E j o ms v x e : (forall es, e <> XConv es) ->
  (cv_convert (conv_at E (S j)) (FS o (TUnion ms)) v x = Raise e <->
   exists m, first_open (fun m u => cv_convert (conv_at E j) m u x) ms v m /\ cv_convert (conv_at E j) m v x = Raise e).
Proof.
  intros He. rewrite union_convert_eq. rewrite <- (union_crash (member_conv E j x)) by exact He.
  destruct (union_resolve _ ms v) as [[m u]|e']; cbn [rbind]; split; intros H; congruence.
Qed.
(** An error inside a list is final. *)
Lemma union_list_final E j o pre o' g post v x l : Forall (fun m => refuses (fun m u => cv_convert (conv_at E (S j)) m u x) m v) pre ->
  list_elems E v = Some l -> no_crash (cv_field (conv_at E j)) g x l ->
  (exists i e, rejected_at (cv_field (conv_at E j)) g x l i e) ->
  exists errs, cv_convert (conv_at E (S (S j))) (FS o (TUnion (pre ++ FS o' (TList g) :: post))) v x = Raise (XCompound errs).
Proof.
  intros P L C R. destruct (list_convert_fails (cv_field (conv_at E j)) g x E v l L C R) as [errs H]. exists errs.
  apply union_convert_crash; [discriminate|]. exists (FS o' (TList g)).
  assert (K : cv_convert (conv_at E (S j)) (FS o' (TList g)) v x = Raise (XCompound errs)) by exact H.
  split; [|exact K]. exists pre, post. split; [reflexivity|]. split; [exact P|]. intros [es Hr]. congruence.
Qed.

Lemma union_members_distinct decl : NoDup (dkeys decl) -> union_members decl = map snd decl.
Proof. intros H. unfold union_members, union_init. change (fold_left _ decl []) with (dupdate (@nil (key * member)) decl). now rewrite dupdate_nil_l. Qed.
Lemma union_members_last decl c : dget c (union_init decl) = dget c (rev decl).
Proof.
  unfold union_init. change (fold_left _ decl []) with (dupdate (@nil (key * member)) decl).
  rewrite dget_dupdate_last. unfold dlast. cbn. now destruct (dget c (rev decl)).
Qed.

Lemma union_with_other cvt resolver types v :
  (forall m w, resolver v = Ok (RPair m w) -> union_resolve_with cvt resolver types v = Ok (m, w)) /\
  (resolver v = Ok RNothing -> exists es, union_resolve_with cvt resolver types v = Raise (XConv es)) /\
  (forall c, resolver v = Ok (RClass c) -> dget c types = None -> union_resolve_with cvt resolver types v = Raise (XPy EKeyError)) /\
  (forall e, resolver v = Raise e -> union_resolve_with cvt resolver types v = Raise e).
Proof.
  unfold union_resolve_with. split; [intros m w ->; reflexivity|]. split; [intros ->; eexists; reflexivity|].
  split; [intros c -> G; cbn; now rewrite G|intros e ->; reflexivity].
Qed.
Lemma union_with_class cvt resolver types v c m : resolver v = Ok (RClass c) -> dget c types = Some m ->
  (forall w, union_resolve_with cvt resolver types v = Ok (m, w) <-> cvt m v = Ok w) /\
  ((exists es, union_resolve_with cvt resolver types v = Raise (XConv es)) <-> refuses cvt m v).
Proof.
  intros H1 H2. unfold union_resolve_with, refuses. rewrite H1. cbn. rewrite H2. split.
  - intros w. destruct (cvt m v) as [w0|[]]; split; intros G; try discriminate; congruence.
  - destruct (cvt m v) as [w0|[]]; split; intros [es G]; try discriminate; eauto.
Qed.

(** ** Polymorphic fields *)
Section Poly.
  Context (E : env).
  Lemma considered_candidates p l : considered E (po_allow_sub p) (po_classes p) l -> l = poly_candidates E p.
  Proof.
    unfold poly_candidates. generalize (po_allow_sub p) (po_classes p). intros b cs H.
    induction H as [|c cs l _ IH]; [now destruct b|]. rewrite IH. destruct b; cbn; [|reflexivity]. reflexivity.
  Qed.
  Lemma considered_total b cs : exists l, considered E b cs l.
  Proof. induction cs as [|c cs [l IH]]; eexists; constructor; eassumption. Qed.
  Lemma considered_permitted p l c : (forall c, e_issub E c c = true) -> honest_subs E ->
    considered E (po_allow_sub p) (po_classes p) l -> In c l -> permitted E p c.
  Proof.
    intros Hr Hs. unfold permitted. generalize (po_allow_sub p) (po_classes p). intros b cs H.
    induction H as [|d cs l _ IH]; [intros []|]. intros [->|H]; [left; left; reflexivity|].
    apply in_app_iff in H as [H|H].
    - destruct b; [|destruct H]. right. split; [reflexivity|]. exists d. split; [left; reflexivity|auto].
    - apply IH in H as [H|[H (e & H1 & H2)]]; [left; right; exact H|right; split; [exact H|]]. exists e. split; [right; exact H1|exact H2].
  Qed.

  Definition fb_of (cs : list cid) (fb : option cid) : option cid :=
    match fb with Some c => Some c | None => find (fun c => is_none_opt (mc_claim (e_class E c))) cs end.
  Lemma poly_scan_ok v cs fb hits r : poly_scan E v cs fb hits = Ok r ->
    exists l, claimants E v cs l /\ r = (fb_of cs fb, hits ++ l).
  Proof.
    revert fb hits. induction cs as [|c cs IH]; intros fb hits; cbn.
    - intros [= <-]. exists []. split; [constructor|]. unfold fb_of; destruct fb; now rewrite app_nil_r.
    - destruct (mc_claim (e_class E c)) as [cl|] eqn:G.
      + destruct (cl v) as [b|e] eqn:Gc; cbn; [|discriminate]. intros H. apply IH in H as (l & H1 & ->).
        destruct b; [exists (c :: l)|exists l]; (split; [constructor; [eexists; split; eassumption|exact H1]|]).
        * unfold fb_of; destruct fb; cbn; rewrite ?G, <- ?app_assoc; reflexivity.
        * unfold fb_of; destruct fb; cbn; rewrite ?G; reflexivity.
      + intros H. apply IH in H as (l & H1 & ->). exists l. split; [constructor; assumption|].
        unfold fb_of; destruct fb; cbn; rewrite ?G; reflexivity.
  Qed.
  Lemma poly_scan_complete v cs l : claimants E v cs l ->
    forall fb hits, poly_scan E v cs fb hits = Ok (fb_of cs fb, hits ++ l).
  Proof.
    induction 1 as [|c cs l (cl & G & Gc) _ IH|c cs l (cl & G & Gc) _ IH|c cs l G _ IH]; intros fb hits; cbn.
    - unfold fb_of; destruct fb; now rewrite app_nil_r.
    - rewrite G. rewrite Gc. cbn. rewrite IH. unfold fb_of; destruct fb; cbn; rewrite ?G, <- ?app_assoc; reflexivity.
    - rewrite G. rewrite Gc. cbn. rewrite IH. unfold fb_of; destruct fb; cbn; rewrite ?G; reflexivity.
    - unfold no_hook in G. rewrite G. rewrite IH. unfold fb_of; destruct fb; cbn; rewrite ?G; reflexivity.
  Qed.
  Lemma fb_first cs c : fb_of cs None = Some c <-> first_open_class E cs c.
  Proof.
    cbn. split.
    - induction cs as [|d cs IH]; cbn; [discriminate|]. destruct (mc_claim (e_class E d)) eqn:G; cbn.
      + intros H. apply IH in H as (pre & post & -> & H1 & H2). exists (d :: pre), post. split; [reflexivity|]. split; [exact H1|].
        constructor; [unfold no_hook; congruence|exact H2].
      + intros [= ->]. exists [], cs. split; [reflexivity|]. split; [exact G|constructor].
    - intros (pre & post & -> & H1 & H2). induction H2 as [|d pre Hd _ IH]; cbn.
      + unfold no_hook in H1. now rewrite H1.
      + unfold no_hook in Hd. destruct (mc_claim (e_class E d)); [exact IH|congruence].
  Qed.
  Lemma claimants_fun v cs l l' : claimants E v cs l -> claimants E v cs l' -> l = l'.
  Proof.
    intros H H'. apply (poly_scan_complete v cs l) with (fb := None) (hits := []) in H.
    apply (poly_scan_complete v cs l') with (fb := None) (hits := []) in H'. cbn in H, H'. congruence.
  Qed.
  Lemma claimants_in v cs l c : claimants E v cs l -> In c l -> In c cs /\ claims E v c.
  Proof.
    induction 1; cbn; intros Hi; try tauto.
    - destruct Hi as [->|Hi]; [auto|]. apply IHclaimants in Hi. tauto.
  Qed.

  (** Which class is chosen. *)
  Lemma find_model_spec p v c cs : po_claim p = None -> considered E (po_allow_sub p) (po_classes p) cs ->
    (find_model E p v = Ok c <->
     exists l, claimants E v cs l /\ (l = [c] \/ l = [] /\ first_open_class E cs c)).
  Proof.
    intros Hp Hc. apply considered_candidates in Hc. subst cs. unfold find_model. rewrite Hp. split.
    - destruct (poly_scan E v (poly_candidates E p) None []) as [[fb hits]|e] eqn:S; [|discriminate].
      apply poly_scan_ok in S as (l & H1 & Q). rewrite (f_equal fst Q : fb = fb_of (poly_candidates E p) None), (f_equal snd Q : hits = l). clear Q. cbn [rbind app].
      destruct l as [|c0 [|c1 l]].
      + destruct (fb_of (poly_candidates E p) None) as [c0|] eqn:F; [|discriminate]. intros [= ->].
        exists []. split; [exact H1|right]. split; [reflexivity|now apply fb_first].
      + intros H. exists [c0]. split; [exact H1|left]. congruence.
      + discriminate.
    - intros (l & H1 & H2). rewrite (poly_scan_complete v _ _ H1). cbn [rbind app].
      destruct H2 as [->|[-> H2]]; [reflexivity|]. apply fb_first in H2. now rewrite H2.
  Qed.
  (** When none is. *)
  Lemma find_model_fails p v cs l : po_claim p = None -> considered E (po_allow_sub p) (po_classes p) cs ->
    claimants E v cs l ->
    (find_model E p v = Raise (XPy EGenericException) <-> 2 <= length l \/ l = [] /\ forall c, In c cs -> ~ no_hook E c).
  Proof.
    intros Hp Hc H1. apply considered_candidates in Hc. subst cs. unfold find_model. rewrite Hp.
    rewrite (poly_scan_complete v _ _ H1). cbn [rbind app]. destruct l as [|c0 [|c1 l]]; cbn [length].
    - destruct (fb_of (poly_candidates E p) None) as [c0|] eqn:F.
      + split; [discriminate|]. intros [H|[_ H]]; [lia|]. apply fb_first in F as (pre & post & Q & H2 & _).
        elim (H c0); [rewrite Q, in_app_iff; right; left; reflexivity|exact H2].
      + split; [|reflexivity]. intros _. right. split; [reflexivity|]. intros c Hc Hn.
        cbn in F. eapply find_none in F; [|exact Hc]. unfold no_hook in Hn. rewrite Hn in F. discriminate.
    - split; [discriminate|]. intros [H|[H _]]; [lia|discriminate].
    - split; [|reflexivity]. intros _. left. lia.
  Qed.
  Lemma find_model_permitted p v c : (forall c, e_issub E c c = true) -> honest_subs E -> po_claim p = None ->
    find_model E p v = Ok c -> permitted E p c.
  Proof.
    intros Hr Hs Hp H. destruct (considered_total (po_allow_sub p) (po_classes p)) as [cs Hc].
    rewrite (find_model_spec p v c cs Hp Hc) in H. destruct H as (l & H1 & H2).
    apply (considered_permitted p cs c Hr Hs Hc). destruct H2 as [->|[_ H2]].
    - eapply claimants_in; [exact H1|left; reflexivity].
    - destruct H2 as (pre & post & -> & _). rewrite in_app_iff. right; left; reflexivity.
  Qed.

  (** ** The class of a new instance *)
  Lemma mutate_fields_class fc pre x a c : forall fs mut raw errs,
    (forall n f fset, In (n, f) fs -> fd_set f = Some fset -> forall m w, exists m', fst (fset (VModel c m) w) = VModel c m') ->
    (exists m, mut = VModel c m) -> exists m, fst (fst (mutate_fields E fc pre x a fs mut raw errs)) = VModel c m.
  Proof.
    intros fs. induction fs as [|[n f] fs IH]; intros mut raw errs Hs [m ->]; cbn [mutate_fields]; [cbn; eauto|].
    assert (Hs' : forall n f fset, In (n, f) fs -> fd_set f = Some fset -> forall m w, exists m', fst (fset (VModel c m) w) = VModel c m')
      by (intros; eapply Hs; [right; eassumption|eassumption]).
    destruct (fd_set f) as [fset|] eqn:Gs; [|apply IH; eauto].
    destruct (is_undef (atom_value E raw n)); [apply IH; eauto|].
    destruct (rbind (fc (fd_spec f) (atom_value E raw n) x) (pre (fd_spec f))) as [w|e].
    - destruct (Hs n f fset (or_introl eq_refl) Gs m w) as [m' Hm'].
      destruct (fset (VModel c m) w) as [mut1 oe]. cbn in Hm'. subst mut1.
      destruct oe as [e|]; [|apply IH; eauto].
      destruct (caught_by_loop e); [apply IH; eauto|]. destruct e; cbn; eauto.
      destruct (is_attribute_error e); cbn; eauto.
    - destruct (caught_by_loop e); [apply IH; eauto|]. destruct e; cbn; eauto.
      destruct (is_attribute_error e); cbn; eauto.
  Qed.
  Lemma mutate_class fc pre x a c fs mut raw : a <> AliasSelf ->
    (forall n f fset, In (n, f) fs -> fd_set f = Some fset -> forall m w, exists m', fst (fset (VModel c m) w) = VModel c m') ->
    (exists m, mut = VModel c m) -> exists m, fst (fst (mutate E fc pre x a fs mut raw)) = VModel c m.
  Proof.
    intros Ha Hs Hm. unfold mutate. pose proof (mutate_fields_class fc pre x a c fs mut raw [] Hs Hm) as [m1 H1].
    destruct (mutate_fields E fc pre x a fs mut raw []) as [[mut1 raw1] r]. cbn in H1. subst mut1.
    destruct r as [errs|e]; [|cbn; eauto]. destruct raw1; cbn [fst]; eauto.
    destruct (py_dict E (VModel c m1)); cbn [fst]; eauto. destruct a; cbn; eauto. congruence.
  Qed.
  Lemma import_loop_class fc pre x a c fs mut raw : a <> AliasSelf ->
    (forall n f fset, In (n, f) fs -> fd_set f = Some fset -> forall m w, exists m', fst (fset (VModel c m) w) = VModel c m') ->
    (exists m, mut = VModel c m) -> exists m, lo_mut (import_loop E fc pre x fs mut a raw) = VModel c m.
  Proof.
    intros Ha Hs Hm. unfold import_loop. destruct (if truthy (cx_trusted x) then _ else _) as [data0|e]; [|cbn; eauto].
    destruct (negb (is_none raw) && cx_validate x).
    - pose proof (mutate_class fc pre x a c fs mut raw Ha Hs Hm) as [m1 H1].
      destruct (mutate E fc pre x a fs mut raw) as [[mut1 raw1] r]. cbn in *. eauto.
    - cbn. eauto.
  Qed.
  Lemma model_new_class fc pre c v x w : proper_setters E c -> model_new E fc pre c v x = Ok w -> exists m, w = VModel c m.
  Proof.
    intros Hs. unfold model_new. destruct (if truthy v then _ else _) as [d|e]; [|discriminate]. cbn [rbind].
    set (a := if truthy v then NoAlias else AliasConverted).
    assert (Ha : a <> AliasSelf) by (unfold a; destruct (truthy v); discriminate).
    pose proof (import_loop_class fc pre x a c (mc_fields (e_class E c)) (VModel c md_empty) (VDict d) Ha Hs (ex_intro _ _ eq_refl)) as [m1 H1].
    destruct (cx_validate x).
    - unfold validate_fn. cbn [lo_mut lo_res]. rewrite H1. destruct (match lo_res _ with Ok _ => _ | Raise _ => _ end); cbn; [|discriminate].
      intros [= <-]. eauto.
    - rewrite H1. destruct (lo_res _); cbn; [|discriminate]. intros [= <-]. eauto.
  Qed.

  Lemma poly_convert_class fc pre p v x w : (forall c, e_issub E c c = true) -> honest_subs E -> po_claim p = None ->
    (forall c, proper_setters E c) -> poly_convert E fc pre p v x = Ok w ->
    w = VNone /\ v = VNone \/ exists c m, w = VModel c m /\ permitted E p c.
  Proof.
    intros Hr Hs Hp Hset. unfold poly_convert. destruct (is_none v) eqn:Hn.
    { intros [= <-]. left. destruct v; try discriminate; auto. }
    destruct (negb (cx_validate x) && poly_allowed E p v) eqn:Ha.
    { intros [= <-]. right. apply andb_true_iff in Ha as [_ Ha]. destruct v; try discriminate.
      exists c, m. split; [reflexivity|]. cbn in Ha. unfold permitted. destruct (po_allow_sub p).
      - apply existsb_exists in Ha as (d & H1 & H2). right. split; [reflexivity|]. eauto.
      - apply existsb_exists in Ha as (d & H1 & H2). apply N.eqb_eq in H2. subst. auto. }
    destruct (negb (cx_validate x) && negb _); [discriminate|].
    destruct (find_model E p v) as [c0|e] eqn:F; [|discriminate]. cbn [rbind]. intros H.
    apply model_new_class in H as [m0 ->]; [|apply Hset]. right. exists c0, m0. split; [reflexivity|].
    eapply find_model_permitted; eassumption.
  Qed.

  Lemma model_convert_class fc pre c v x w : (forall c, e_issub E c c = true) -> (forall c, proper_setters E c) ->
    cx_convert x = true -> cx_oo x = true ->
    model_convert E fc pre c v x = Ok w -> exists c' m, w = VModel c' m /\ e_issub E c' c = true.
  Proof.
    intros Hr Hset Hc Ho. unfold model_convert. rewrite Hc, Ho. cbn [andb]. destruct v; try discriminate.
    - intros H. apply model_new_class in H as [m ->]; [|apply Hset]. eauto.
    - destruct (e_issub E c0 c) eqn:G; [|discriminate].
      intros H. apply model_new_class in H as [m' ->]; [|apply Hset]. eauto.
  Qed.
End Poly.
