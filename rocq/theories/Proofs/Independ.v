(** Parts of the data that do not influence each other. *)
From Coq Require Import Lia.
From Verif.Model Require Import Py Core Export Api.
From Verif.Spec Require Import ImportSpec CompoundSpec NestedSpec IndependSpec.
From Verif.Proofs Require Import DictLemmas ImportLemmas ApiLemmas ImportApi CompoundLemmas Nested.

Section Field.
  Context (E : env).
  Hypothesis HN : distinct_names E.
  Context (w : kwargs).
  Hypothesis Wv : kw_validate w = false.
  Hypothesis Wc : kw_convert w = true.
  Hypothesis Wm : kw_mapping w = no_mapping.
  Let x := kw_ctx w (VDict []).

  Lemma ctx_same n f : field_ctx E x n f = x.
  Proof using Wm.
    subst x. destruct (is_compound f) eqn:C.
    - rewrite field_ctx_sub by assumption. rewrite td_none by now right. rewrite Wm.
      change (sub_of no_mapping n) with no_mapping. clear - Wm. destruct w. cbn in *. now subst.
    - unfold field_ctx. now rewrite C.
  Qed.

  (** What is done for one field. *)
  Definition field_run (r : conv) (d : list (key * pyval)) (n : key) (f : field) : res pyval :=
    cv_field r (fd_spec f) (candidate x (fd_spec f) (supplied d n (fd_spec f) no_mapping)) x.
  Lemma outcome_run r d n f : field_outcome E (cv_field r) x d [] n (fd_spec f) =
    match field_run r d n f with Ok VUndef => Keep | Ok v => Store v | Raise e => Fail e end.
  Proof using Wm.
    unfold field_outcome, field_run. change (cx_mapping x) with (kw_mapping w). rewrite Wm, ctx_same. cbn [dget].
    destruct (supplied d n (fd_spec f) no_mapping); reflexivity.
  Qed.
  Lemma fails_run r d n f e : fails E (cv_field r) x d [] n f e <-> field_run r d n f = Raise e.
  Proof using Wm.
    unfold fails. rewrite outcome_run. destruct (field_run r d n f) as [[]|e']; split; congruence.
  Qed.

  Section One.
    Context (r : conv) (c : cid) (d : list (key * pyval)) (n : key) (f : field).
    Hypothesis Hi : In (n, f) (fields_of E c).
    Hypothesis Hs : has_setter f = false.
    Hypothesis Hd : defined_dict d.
    Let R := model_init E r c (VDict d) (VDict []) w.
    Lemma public_ok : acceptable (fields_of E c) (kw_mapping w) (public_name n f).
    Proof using Hi.
      unfold public_name. destruct (fo_sname (fs_opts (fd_spec f))) as [s|] eqn:Q; [|eapply acc_name; eassumption].
      destruct (key_true s) eqn:T; [eapply acc_sname; eassumption|eapply acc_name; eassumption].
    Qed.
    Lemma same_field n' f' : In (n', f') (fields_of E c) -> public_name n f = public_name n' f' -> n' = n /\ f' = f.
    Proof using HN Hi.
      intros I P. destruct (HN c) as [N U]. assert (n = n') as <- by (eapply U; eassumption). split; [reflexivity|].
      apply (In_dget _ _ _ N) in I. apply (In_dget _ _ _ N) in Hi. congruence.
    Qed.
    Lemma run_errors errs pd : R = Raise (XData errs pd) ->
      settled (field_run r d n f) /\
      dget (public_name n f) errs = match field_run r d n f with Raise e => Some (shown_error e) | Ok _ => None end.
    Proof using HN Wv Wm Hi Hs Hd.
      intros H. destruct (HN c) as [N _]. split.
      - intros e Q. destruct (collectable e) eqn:C; [reflexivity|]. exfalso.
        apply (init_raise E r c d [] w Wv) in H.
        destruct (run_ok_of E (cv_field r) (cv_pre r) (kw_ctx w (VDict [])) (fields_of E c) (VModel c (MD [] [] [] None)) NoAlias d d []
          (init_eff E c d [] w Wv) Hd N (init_td E [] w) _ _ H) as (data0 & Hr & _).
        apply (run_outcomes_no_crash _ _ _ _ _ _ _ _ Hr n f e).
        + apply active_In. split; [assumption|]. right. assumption.
        + split; [apply fails_run; exact Q|]. destruct e; cbn in C |- *; congruence.
      - pose proof (init_error_keys E r c d [] w Hd N Wv errs pd (public_name n f) H) as K.
        pose proof (init_payload E r c d [] w Hd N Wv errs pd (public_name n f)) as P.
        destruct (dget (public_name n f) errs) as [nd|] eqn:G.
        + destruct (P nd H eq_refl) as [(_ & (_ & Q) & _)|(n' & f' & e & I & S' & F & Q & ->)].
          * destruct Q. apply public_ok.
          * destruct (same_field n' f' I Q) as [-> ->]. apply fails_run in F. now rewrite F.
        + destruct (field_run r d n f) as [|e] eqn:Q; [reflexivity|]. exfalso.
          assert (In (public_name n f) (dkeys errs)) as B.
          { apply K. right. exists n, f, e. repeat split; try assumption. now apply fails_run. }
          apply dget_None_keys in G. contradiction.
    Qed.
    Lemma run_value m : R = Ok m -> exists v, field_run r d n f = Ok v /\ chain_get m n = (if is_undef v then None else Some v).
    Proof using HN Wv Wm Hi Hs Hd.
      intros H. destruct (HN c) as [N _].
      pose proof (init_field_value E r c d [] w Hd N Wv m n f H Hi Hs) as V.
      fold x in V. rewrite outcome_run in V. destruct (field_run r d n f) as [v|e] eqn:Q.
      - exists v. split; [reflexivity|]. rewrite V. destruct v; reflexivity.
      - destruct (init_no_failure E r c d [] w Hd N Wv m n f e H Hi Hs). now apply fails_run.
    Qed.
    Lemma run_partial errs pd : R = Raise (XData errs pd) ->
      dget n pd = match field_run r d n f with
                  | Ok v => if is_undef v then None else Some v
                  | Raise e => fallback x (fd_spec f) e None
                  end.
    Proof using HN Wv Wm Hi Hs Hd.
      intros H. destruct (HN c) as [N _]. apply (init_raise E r c d [] w Wv) in H.
      pose proof (data_field E (cv_field r) (cv_pre r) (kw_ctx w (VDict [])) (fields_of E c) (VModel c (MD [] [] [] None)) NoAlias d d []
          (init_eff E c d [] w Wv) Hd N (init_td E [] w) pd errs n f (or_intror H) Hi (proj2 (handled_init [] w Wv f) Hs)) as V.
      rewrite V. fold x. rewrite outcome_run. destruct (field_run r d n f) as [v|e]; [|reflexivity]. now destruct v.
    Qed.
  End One.
End Field.

Lemma base_collectable e : is_base_error e = collectable e.
Proof. now destruct e. Qed.
Lemma node_shown e : collectable e = true -> err_node e = shown_error e.
Proof. now destruct e. Qed.

(** Lists. *)
Section Lists.
  Context (fc : converter) (g : fspec) (x : ictx).
  Lemma list_loop_frame l : forall i data errs data' errs' z, list_loop fc g x i l data errs = Ok (data', errs') ->
    (z < i)%Z \/ (i + Z.of_nat (length l) <= z)%Z -> dget (KInt z) errs' = dget (KInt z) errs.
  Proof.
    induction l as [|v l IH]; intros i data errs data' errs' z; cbn [list_loop]; [now intros [= <- <-]|]. intros H Hz.
    cbn [length] in Hz. destruct (fc g v x) as [a|e].
    - eapply IH; [eassumption|]. lia.
    - destruct (is_base_error e); [|discriminate]. erewrite IH by (eassumption || lia). apply dget_dset_neq. intros [= ->]. lia.
  Qed.
  Lemma list_loop_at l : forall i data errs data' errs' j v, list_loop fc g x i l data errs = Ok (data', errs') ->
    (forall z, (i <= z)%Z -> dget (KInt z) errs = None) -> nth_error l j = Some v ->
    settled (fc g v x) /\
    dget (KInt (i + Z.of_nat j)) errs' = match fc g v x with Raise e => Some (shown_error e) | Ok _ => None end.
  Proof.
    induction l as [|u l IH]; intros i data errs data' errs' j v H Hz Hj; [now destruct j|]. cbn [list_loop] in H.
    destruct j as [|j]; cbn [nth_error] in Hj.
    - injection Hj as ->. replace (i + Z.of_nat 0)%Z with i by lia. destruct (fc g v x) as [a|e] eqn:Q.
      + split; [intros e; congruence|]. erewrite list_loop_frame by (eassumption || lia). apply Hz. lia.
      + destruct (is_base_error e) eqn:B; [|discriminate]. rewrite base_collectable in B. split; [now intros e' [= <-]|].
        erewrite list_loop_frame by (eassumption || lia). rewrite dget_dset_eq. now rewrite node_shown.
    - replace (i + Z.of_nat (S j))%Z with (i + 1 + Z.of_nat j)%Z by lia. destruct (fc g u x) as [a|e].
      + eapply IH; [eassumption| |assumption]. intros z Hz'. apply Hz. lia.
      + destruct (is_base_error e); [|discriminate]. eapply IH; [eassumption| |assumption].
        intros z Hz'. rewrite dget_dset_neq by (intros [= ->]; lia). apply Hz. lia.
  Qed.
  Lemma list_loop_raise l : forall i data errs e, list_loop fc g x i l data errs = Raise e -> collectable e = false.
  Proof.
    induction l as [|v l IH]; intros i data errs e; cbn [list_loop]; [discriminate|]. destruct (fc g v x) as [a|e'].
    - apply IH.
    - destruct (is_base_error e') eqn:B; [apply IH|]. intros [= <-]. now rewrite <- base_collectable.
  Qed.
  Lemma list_item_errors E i p l v : settled (list_convert E fc g (VList l) x) -> nth_error l i = Some v ->
    settled (fc g v x) /\
    error_at E (TList g) (SItem i :: p) (list_convert E fc g (VList l) x) = error_at E (fs_type g) p (fc g v x).
  Proof.
    intros S Hi. unfold list_convert in *. cbn [list_elems] in *. destruct (list_loop fc g x 0 l [] []) as [[data errs]|e] eqn:L; cbn [rbind] in *.
    - destruct (list_loop_at l 0 [] [] data errs i v L (fun _ _ => eq_refl) Hi) as [S1 G]. split; [assumption|].
      replace (0 + Z.of_nat i)%Z with (Z.of_nat i) in G by lia.
      assert (error_node E (TList g) (SItem i :: p) (NDict errs) = error_at E (fs_type g) p (fc g v x)) as A.
      { cbn [error_node]. rewrite G. unfold error_at. destruct (fc g v x) as [a|e] eqn:Q; [reflexivity|]. now rewrite (S1 e eq_refl). }
      destruct errs as [|q errs]; [|exact A]. cbn in G. cbn [error_at]. destruct (fc g v x); [reflexivity|discriminate].
    - specialize (S e eq_refl). rewrite (list_loop_raise _ _ _ _ _ L) in S. discriminate.
  Qed.
  Lemma list_no_item E i p l : nth_error l i = None ->
    error_at E (TList g) (SItem i :: p) (list_convert E fc g (VList l) x) = None.
  Proof.
    intros Hi. apply nth_error_None in Hi. unfold list_convert. cbn [list_elems].
    destruct (list_loop fc g x 0 l [] []) as [[data errs]|e] eqn:L; cbn [rbind].
    - pose proof (list_loop_frame l 0 [] [] data errs (Z.of_nat i) L ltac:(lia)) as G. cbn in G.
      destruct errs as [|q errs]; [reflexivity|]. unfold error_at. cbn [collectable shown_error error_node]. now rewrite G.
    - cbn [error_at]. now rewrite (list_loop_raise _ _ _ _ _ L).
  Qed.
End Lists.

Lemma all_convert_nth fc g x l ws : all_convert fc g x l ws -> forall i v, nth_error l i = Some v ->
  exists u, fc g v x = Ok u /\ nth_error ws i = Some u.
Proof.
  induction 1 as [|v u l ws H _ IH]; intros i a; destruct i as [|i]; cbn [nth_error]; try discriminate; [|apply IH].
  intros [= <-]. now exists u.
Qed.

(** Dictionaries. *)
Section Dicts.
  Context (fc : converter) (g : fspec) (ck : key -> res key) (x : ictx).
  Lemma dict_loop_frame l : forall data errs data' errs' y, dict_loop fc g ck x l data errs = Ok (data', errs') ->
    ~ In y (dkeys l) -> dget y errs' = dget y errs.
  Proof.
    induction l as [|[z v] l IH]; intros data errs data' errs' y; cbn [dict_loop]; [now intros [= <- <-]|]. intros H Hy.
    cbn [dkeys map fst In] in Hy.
    destruct (rbind (fc g v x) _) as [[z' a]|e].
    - eapply IH; [eassumption|]. tauto.
    - destruct (is_base_error e); [|discriminate]. erewrite IH by (eassumption || (unfold dkeys; tauto)).
      apply dget_dset_neq. intuition.
  Qed.
  Lemma dict_loop_at l : forall data errs data' errs' y y' v, dict_loop fc g ck x l data errs = Ok (data', errs') ->
    NoDup (dkeys l) -> (forall z, In z (dkeys l) -> dget z errs = None) -> dget y l = Some v -> ck y = Ok y' ->
    settled (fc g v x) /\ dget y errs' = match fc g v x with Raise e => Some (shown_error e) | Ok _ => None end.
  Proof.
    induction l as [|[z u] l IH]; intros data errs data' errs' y y' v H N Z Hy Ck; [discriminate|]. cbn [dict_loop] in H.
    inversion N as [|? ? N1 N2]; subst. cbn [dget] in Hy. destruct (key_eqb_spec y z) as [->|Hne].
    - injection Hy as ->. rewrite Ck in H. destruct (fc g v x) as [a|e]; cbn [rbind] in H.
      + split; [intros e; congruence|]. rewrite (dict_loop_frame _ _ _ _ _ _ H N1). apply Z. now left.
      + destruct (is_base_error e) eqn:B; [|discriminate]. rewrite base_collectable in B. split; [now intros e' [= <-]|].
        rewrite (dict_loop_frame _ _ _ _ _ _ H N1), dget_dset_eq. now rewrite node_shown.
    - destruct (rbind (fc g u x) _) as [[z' a]|e].
      + eapply IH; try eassumption. intros z0 I. apply Z. now right.
      + destruct (is_base_error e); [|discriminate]. eapply IH; try eassumption.
        intros z0 I. rewrite dget_dset_neq by (intros ->; contradiction). apply Z. now right.
  Qed.
  Lemma dict_loop_raise l : forall data errs e, dict_loop fc g ck x l data errs = Raise e -> collectable e = false.
  Proof.
    induction l as [|[z v] l IH]; intros data errs e; cbn [dict_loop]; [discriminate|].
    destruct (rbind (fc g v x) _) as [[z' a]|e'].
    - apply IH.
    - destruct (is_base_error e') eqn:B; [apply IH|]. intros [= <-]. now rewrite <- base_collectable.
  Qed.
  Lemma dict_entry_errors E y y' p d v : settled (dict_convert fc g ck (VDict d) x) -> NoDup (dkeys d) -> dget y d = Some v -> ck y = Ok y' ->
    settled (fc g v x) /\
    error_at E (TDict g ck) (SEntry y :: p) (dict_convert fc g ck (VDict d) x) = error_at E (fs_type g) p (fc g v x).
  Proof.
    intros S N Hy Ck. unfold dict_convert in *. destruct (dict_loop fc g ck x d [] []) as [[data errs]|e] eqn:L; cbn [rbind] in *.
    - destruct (dict_loop_at d [] [] data errs y y' v L N (fun _ _ => eq_refl) Hy Ck) as [S1 G]. split; [assumption|].
      assert (error_node E (TDict g ck) (SEntry y :: p) (NDict errs) = error_at E (fs_type g) p (fc g v x)) as A.
      { cbn [error_node]. rewrite G. unfold error_at. destruct (fc g v x) as [a|e] eqn:Q; [reflexivity|]. now rewrite (S1 e eq_refl). }
      destruct errs as [|q errs]; [|exact A]. cbn in G. cbn [error_at]. destruct (fc g v x); [reflexivity|discriminate].
    - specialize (S e eq_refl). rewrite (dict_loop_raise _ _ _ _ L) in S. discriminate.
  Qed.
  (** The value under a key that no other key is taken for. *)
  Lemma dict_data_frame l : forall data errs data' errs' y', dict_loop fc g ck x l data errs = Ok (data', errs') ->
    (forall z, In z (dkeys l) -> ck z <> Ok y') -> dget y' data' = dget y' data.
  Proof.
    induction l as [|[z v] l IH]; intros data errs data' errs' y'; cbn [dict_loop]; [now intros [= <- <-]|]. intros H Hy.
    destruct (fc g v x) as [a|e]; cbn [rbind] in H; [destruct (ck z) as [z'|e] eqn:Cz; cbn [rbind] in H|].
    - rewrite (IH _ _ _ _ y' H) by (intros z0 I; apply Hy; now right). apply dget_dset_neq. intros ->. apply (Hy z); [now left|assumption].
    - destruct (is_base_error e); [|discriminate]. apply (IH _ _ _ _ y' H). intros z0 I; apply Hy; now right.
    - destruct (is_base_error e); [|discriminate]. apply (IH _ _ _ _ y' H). intros z0 I; apply Hy; now right.
  Qed.
  Lemma dict_data_at l : forall data errs data' errs' y y' v a, dict_loop fc g ck x l data errs = Ok (data', errs') ->
    NoDup (dkeys l) -> alone ck l y -> dget y l = Some v -> ck y = Ok y' -> fc g v x = Ok a -> dget y' data' = Some a.
  Proof.
    induction l as [|[z u] l IH]; intros data errs data' errs' y y' v a H N A Hy Ck Hv; [discriminate|]. cbn [dict_loop] in H.
    inversion N as [|? ? N1 N2]; subst. cbn [dget] in Hy. destruct (key_eqb_spec y z) as [->|Hne].
    - injection Hy as ->. rewrite Hv, Ck in H. cbn [rbind] in H.
      rewrite (dict_data_frame _ _ _ _ _ y' H); [apply dget_dset_eq|].
      intros z0 I Q. assert (z0 = z) as -> by (apply A; [now right|congruence]). contradiction.
    - assert (alone ck l y) as A' by (intros z0 I; apply A; now right).
      destruct (rbind (fc g u x) _) as [[z' b]|e].
      + eapply IH; eassumption.
      + destruct (is_base_error e); [|discriminate]. eapply IH; eassumption.
  Qed.
  Lemma dict_entry_value d y y' v ws : dict_convert fc g ck (VDict d) x = Ok ws -> NoDup (dkeys d) -> alone ck d y -> dget y d = Some v -> ck y = Ok y' ->
    exists a ps, fc g v x = Ok a /\ ws = VDict ps /\ dget y' ps = Some a.
  Proof.
    intros H N A Hy Ck. unfold dict_convert in H. destruct (dict_loop fc g ck x d [] []) as [[data errs]|e] eqn:L; cbn [rbind] in H; [|discriminate].
    destruct errs; [|discriminate]. injection H as <-.
    destruct (dict_loop_at d [] [] data [] y y' v L N (fun _ _ => eq_refl) Hy Ck) as [_ G].
    destruct (fc g v x) as [a|e] eqn:Q; [|discriminate]. exists a, data. repeat split. eapply dict_data_at; eassumption.
  Qed.
End Dicts.

Lemma undef_below E t s q : value_at E t (s :: q) VUndef = None.
Proof. cbn [value_at]. destruct s, t; try reflexivity. now destruct (dget n (fields_of E c)). Qed.

Section Main.
  Context (E : env).
  Hypothesis HN : distinct_names E.
  Context (w : kwargs).
  Hypothesis Wv : kw_validate w = false.
  Hypothesis Wc : kw_convert w = true.
  Hypothesis Wm : kw_mapping w = no_mapping.
  Let x := kw_ctx w (VDict []).

  (** The error under a field is the error of the conversion of the field. *)
  Lemma field_error r c d n f p : In (n, f) (fields_of E c) -> has_setter f = false -> defined_dict d ->
    settled (model_init E r c (VDict d) (VDict []) w) ->
    settled (field_run w r d n f) /\
    error_at E (TModel c) (SField n :: p) (model_init E r c (VDict d) (VDict []) w) = error_at E (fs_type (fd_spec f)) p (field_run w r d n f).
  Proof using HN Wv Wm.
    intros Hi Hs Hd S. destruct (model_init E r c (VDict d) (VDict []) w) as [m|e] eqn:R.
    - destruct (run_value E HN w Wv Wm r c d n f Hi Hs Hd m R) as (v & Q & _). rewrite Q. split; [intros e; discriminate|reflexivity].
    - assert (exists errs pd, e = XData errs pd) as (errs & pd & ->).
      { destruct (HN c) as [N _]. specialize (S e eq_refl).
        destruct e as [ms|b ms|errs|errs pd|pe|]; [| | |eauto|discriminate S|discriminate S];
          edestruct (init_other_exception E r c d [] w Hd N Wv) as (n' & f' & _ & _ & _ & C); try exact R; try (intros; discriminate); discriminate C. }
      destruct (run_errors E HN w Wv Wm r c d n f Hi Hs Hd errs pd R) as [S1 G]. split; [assumption|].
      unfold error_at. cbn [collectable shown_error error_node].
      destruct (HN c) as [N _]. rewrite (In_dget _ _ _ N Hi), G. destruct (field_run w r d n f) as [v|e] eqn:Q; [reflexivity|]. now rewrite (S1 e eq_refl).
  Qed.

  Lemma small_fuel f v : is_nil v = false -> ~ settled (cv_field (conv_at E 0) f v x) /\ (is_compound f = true -> ~ settled (cv_field (conv_at E 1) f v x)).
  Proof using.
    intros N. split; [intros S; now specialize (S XFuel eq_refl)|]. intros C S.
    assert (cv_field (conv_at E 1) f v x = Raise XFuel) as Q.
    { change (field_step (conv_at E 0) f v x = Raise XFuel). unfold field_step, check_required. rewrite N, andb_false_r. cbn [andb].
      now destruct (cx_validate x). }
    now specialize (S XFuel Q).
  Qed.
  Lemma error_at_map {A B} t p (r : res A) (h : A -> B) : error_at E t p (rbind r (fun a => Ok (h a))) = error_at E t p r.
  Proof. now destruct r. Qed.
  Lemma settled_map {A B} (r : res A) (h : A -> B) : settled (rbind r (fun a => Ok (h a))) <-> settled r.
  Proof. unfold settled. destruct r as [a|e0]; cbn [rbind]; split; intros S e Q; try discriminate Q; apply S; congruence. Qed.
  Lemma model_field k f c d : fs_type f = TModel c -> cv_field (conv_at E (S (S k))) f (VDict d) x =
    rbind (model_init E (conv_at E k) c (VDict d) (VDict []) w) (fun m => Ok (VModel c m)).
  Proof using Wv Wc. intros T. subst x. rewrite (cvf_model E k f c d) by (assumption || reflexivity). now apply new_is_init. Qed.
  Lemma dict_field k f g ck d : fs_type f = TDict g ck -> cv_field (conv_at E (S (S k))) f (VDict d) x = dict_convert (cv_field (conv_at E k)) g ck (VDict d) x.
  Proof using Wv.
    intros T. change (cv_field (conv_at E (S (S k))) f (VDict d) x) with (field_step (conv_at E (S k)) f (VDict d) x).
    unfold field_step, check_required. change (is_nil (VDict d)) with false. rewrite andb_false_r. subst x. cbn [cx_validate kw_ctx]. rewrite Wv. cbn [andb].
    change (cv_convert (conv_at E (S k)) f (VDict d) (kw_ctx w (VDict []))) with (convert_step E (conv_at E k) f (VDict d) (kw_ctx w (VDict []))).
    unfold convert_step. now rewrite T.
  Qed.

  Definition agree_at (t : ftype) (p : place) (r s : res pyval) : Prop :=
    error_at E t p r = error_at E t p s /\ forall a b, r = Ok a -> s = Ok b -> value_at E t p a = value_at E t p b.

  Lemma main t p v v' : same_at E t p v v' -> forall j f, fs_type f = t ->
    settled (cv_field (conv_at E j) f v x) -> settled (cv_field (conv_at E j) f v' x) ->
    agree_at t p (cv_field (conv_at E j) f v x) (cv_field (conv_at E j) f v' x).
  Proof using HN Wv Wc Wm.
    induction 1 as [t v|c n g p d e a b Hi Hs Hd He Sa Sb Hp IH|c n g p d e Hi Hs Hd He Sa Sb|g i p l m a b La Lb Hp IH|g i p l m La Lb
                   |g ck y y' p d e a b Nd Ne Ad Ae Ck Ya Yb Hp IH]; intros j f T S1 S2.
    - split; [reflexivity|]. intros a b Q1 Q2. congruence.
    - destruct j as [|[|k]]; [now destruct (small_fuel f (VDict d) eq_refl)| |].
      { destruct (small_fuel f (VDict d) eq_refl) as [_ F]. destruct F; [unfold is_compound; now rewrite T|assumption]. }
      rewrite !(model_field k f c) in * by assumption. apply settled_map in S1, S2.
      destruct (field_error (conv_at E k) c d n g p Hi Hs Hd S1) as [F1 E1]. destruct (field_error (conv_at E k) c e n g p Hi Hs He S2) as [F2 E2].
      assert (field_run w (conv_at E k) d n g = cv_field (conv_at E k) (fd_spec g) a x) as R1 by (unfold field_run; now rewrite Sa).
      assert (field_run w (conv_at E k) e n g = cv_field (conv_at E k) (fd_spec g) b x) as R2 by (unfold field_run; now rewrite Sb).
      destruct (IH k (fd_spec g) eq_refl) as [Q V]; [now rewrite <- R1|now rewrite <- R2|]. split.
      + rewrite !error_at_map, E1, E2, R1, R2. exact Q.
      + intros a' b' Qa Qb. destruct (model_init E (conv_at E k) c (VDict d) (VDict []) w) as [m1|] eqn:I1; [|discriminate].
        destruct (model_init E (conv_at E k) c (VDict e) (VDict []) w) as [m2|] eqn:I2; [|discriminate]. injection Qa as <-. injection Qb as <-.
        destruct (run_value E HN w Wv Wm _ _ _ _ _ Hi Hs Hd m1 I1) as (u1 & U1 & G1). destruct (run_value E HN w Wv Wm _ _ _ _ _ Hi Hs He m2 I2) as (u2 & U2 & G2).
        specialize (V u1 u2). rewrite <- R1, <- R2 in V. specialize (V U1 U2). cbn [value_at]. rewrite G1, G2.
        destruct (HN c) as [N _]. rewrite (In_dget _ _ _ N Hi).
        destruct (is_undef u1) eqn:W1; [destruct u1; try discriminate W1|]; (destruct (is_undef u2) eqn:W2; [destruct u2; try discriminate W2|]); try reflexivity; try assumption.
        * destruct p as [|s q]; [cbn in V; injection V as <-; discriminate W2|]. rewrite undef_below in V. exact V.
        * destruct p as [|s q]; [cbn in V; injection V as ->; discriminate W1|]. rewrite undef_below in V. exact V.
    - destruct j as [|[|k]]; [now destruct (small_fuel f (VDict d) eq_refl)| |].
      { destruct (small_fuel f (VDict d) eq_refl) as [_ F]. destruct F; [unfold is_compound; now rewrite T|assumption]. }
      rewrite !(model_field k f c) in * by assumption. apply settled_map in S1, S2.
      destruct (field_error (conv_at E k) c d n g p Hi Hs Hd S1) as [F1 E1]. destruct (field_error (conv_at E k) c e n g p Hi Hs He S2) as [F2 E2].
      assert (field_run w (conv_at E k) d n g = field_run w (conv_at E k) e n g) as R by (unfold field_run; now rewrite Sa, Sb). split.
      + now rewrite !error_at_map, E1, E2, R.
      + intros a' b' Qa Qb. destruct (model_init E (conv_at E k) c (VDict d) (VDict []) w) as [m1|] eqn:I1; [|discriminate].
        destruct (model_init E (conv_at E k) c (VDict e) (VDict []) w) as [m2|] eqn:I2; [|discriminate]. injection Qa as <-. injection Qb as <-.
        destruct (run_value E HN w Wv Wm _ _ _ _ _ Hi Hs Hd m1 I1) as (u1 & U1 & G1). destruct (run_value E HN w Wv Wm _ _ _ _ _ Hi Hs He m2 I2) as (u2 & U2 & G2).
        cbn [value_at]. rewrite G1, G2. replace u2 with u1 by congruence. reflexivity.
    - destruct j as [|[|k]]; [now destruct (small_fuel f (VList l) eq_refl)| |].
      { destruct (small_fuel f (VList l) eq_refl) as [_ F]. destruct F; [unfold is_compound; now rewrite T|assumption]. }
      rewrite !(cvf_list E k f g) in * by assumption.
      destruct (list_item_errors _ g x E i p l a S1 La) as [F1 E1]. destruct (list_item_errors _ g x E i p m b S2 Lb) as [F2 E2].
      destruct (IH k g eq_refl F1 F2) as [Q V]. split; [now rewrite E1, E2|].
      intros a' b' Qa Qb. destruct (proj1 (list_convert_ok _ _ _ _ _ _) Qa) as (l1 & ws1 & [= <-] & -> & A1).
      destruct (proj1 (list_convert_ok _ _ _ _ _ _) Qb) as (l2 & ws2 & [= <-] & -> & A2).
      destruct (all_convert_nth _ _ _ _ _ A1 _ _ La) as (u1 & U1 & G1). destruct (all_convert_nth _ _ _ _ _ A2 _ _ Lb) as (u2 & U2 & G2).
      cbn [value_at]. rewrite G1, G2. now apply V.
    - destruct j as [|[|k]]; [now destruct (small_fuel f (VList l) eq_refl)| |].
      { destruct (small_fuel f (VList l) eq_refl) as [_ F]. destruct F; [unfold is_compound; now rewrite T|assumption]. }
      rewrite !(cvf_list E k f g) in * by assumption. split.
      + now rewrite (list_no_item _ g x E i p l La), (list_no_item _ g x E i p m Lb).
      + intros a' b' Qa Qb. destruct (proj1 (list_convert_ok _ _ _ _ _ _) Qa) as (l1 & ws1 & [= <-] & -> & A1).
        destruct (proj1 (list_convert_ok _ _ _ _ _ _) Qb) as (l2 & ws2 & [= <-] & -> & A2).
        apply all_convert_length in A1. apply all_convert_length in A2. apply nth_error_None in La. apply nth_error_None in Lb. cbn [value_at].
        rewrite (proj2 (nth_error_None ws1 i)) by lia. now rewrite (proj2 (nth_error_None ws2 i)) by lia.
    - destruct j as [|[|k]]; [now destruct (small_fuel f (VDict d) eq_refl)| |].
      { destruct (small_fuel f (VDict d) eq_refl) as [_ F]. destruct F; [unfold is_compound; now rewrite T|assumption]. }
      rewrite !(dict_field k f g ck) in * by assumption.
      destruct (dict_entry_errors _ g ck x E y y' p d a S1 Nd Ya Ck) as [F1 E1]. destruct (dict_entry_errors _ g ck x E y y' p e b S2 Ne Yb Ck) as [F2 E2].
      destruct (IH k g eq_refl F1 F2) as [Q V]. split; [now rewrite E1, E2|].
      intros a' b' Qa Qb. destruct (dict_entry_value _ g ck x d y y' a a' Qa Nd Ad Ya Ck) as (u1 & ps1 & U1 & -> & G1).
      destruct (dict_entry_value _ g ck x e y y' b b' Qb Ne Ae Yb Ck) as (u2 & ps2 & U2 & -> & G2).
      cbn [value_at]. rewrite Ck, G1, G2. now apply V.
  Qed.

  Lemma settled_data r c d e : defined_dict d -> settled (model_init E r c (VDict d) (VDict []) w) ->
    model_init E r c (VDict d) (VDict []) w = Raise e -> exists errs pd, e = XData errs pd.
  Proof using HN Wv.
    intros Hd S R. destruct (HN c) as [N _]. specialize (S e R).
    destruct e as [ms|b ms|errs|errs pd|pe|]; [| | |eauto|discriminate S|discriminate S];
      edestruct (init_other_exception E r c d [] w Hd N Wv) as (n' & f' & _ & _ & _ & C); try exact R; try (intros; discriminate); discriminate C.
  Qed.

  (** What is stored for a field. *)
  Definition stored_for (f : fspec) (r : res pyval) : option pyval :=
    match r with Ok v => if is_undef v then None else Some v | Raise e => fallback x f e None end.
  Lemma kept_field r c d n f p : In (n, f) (fields_of E c) -> has_setter f = false -> defined_dict d ->
    settled (model_init E r c (VDict d) (VDict []) w) -> exists a, kept c (model_init E r c (VDict d) (VDict []) w) = Some a /\
    value_at E (TModel c) (SField n :: p) a =
      match stored_for (fd_spec f) (field_run w r d n f) with Some v => value_at E (fs_type (fd_spec f)) p v | None => None end.
  Proof using HN Wv Wm.
    intros Hi Hs Hd S. destruct (HN c) as [N _]. pose proof (settled_data r c d) as D.
    destruct (model_init E r c (VDict d) (VDict []) w) as [m|e] eqn:R.
    - eexists. split; [reflexivity|]. cbn [value_at]. rewrite (In_dget _ _ _ N Hi).
      destruct (run_value E HN w Wv Wm r c d n f Hi Hs Hd m R) as (v & Q & G). rewrite Q, G. reflexivity.
    - destruct (D e Hd S eq_refl) as (errs & pd & ->). eexists. split; [reflexivity|]. cbn [value_at]. rewrite (In_dget _ _ _ N Hi).
      rewrite (run_partial E HN w Wv Wm r c d n f Hi Hs Hd errs pd R). reflexivity.
  Qed.
  Lemma kept_same t p v v' : same_at E t p v v' -> model_place p -> forall j c d e a b, t = TModel c -> v = VDict d -> v' = VDict e -> p <> [] ->
    settled (model_init E (conv_at E j) c (VDict d) (VDict []) w) -> settled (model_init E (conv_at E j) c (VDict e) (VDict []) w) ->
    kept c (model_init E (conv_at E j) c (VDict d) (VDict []) w) = Some a -> kept c (model_init E (conv_at E j) c (VDict e) (VDict []) w) = Some b ->
    value_at E t p a = value_at E t p b.
  Proof using HN Wv Wc Wm.
    induction 1 as [t v|c n g p d e a b Hi Hs Hd He Sa Sb Hp IH|c n g p d e Hi Hs Hd He Sa Sb|g i p l m a b La Lb Hp IH|g i p l m La Lb
                   |g ck y y' p d e a b Nd Ne Ad Ae Ck Ya Yb Hp IH]; intros MP j c0 d0 e0 a0 b0 T V1 V2 P S1 S2 K1 K2;
      try (destruct (MP _ (or_introl eq_refl)) as [? Q]; discriminate Q).
    - congruence.
    - injection T as <-. injection V1 as <-. injection V2 as <-.
      destruct (kept_field _ c d n g p Hi Hs Hd S1) as (a1 & Ka & Qa). destruct (kept_field _ c e n g p Hi Hs He S2) as (b1 & Kb & Qb).
      replace a0 with a1 by congruence. replace b0 with b1 by congruence. rewrite Qa, Qb.
      assert (field_run w (conv_at E j) d n g = cv_field (conv_at E j) (fd_spec g) a x) as R1 by (unfold field_run; now rewrite Sa).
      assert (field_run w (conv_at E j) e n g = cv_field (conv_at E j) (fd_spec g) b x) as R2 by (unfold field_run; now rewrite Sb).
      destruct (field_error _ c d n g p Hi Hs Hd S1) as [F1 _]. destruct (field_error _ c e n g p Hi Hs He S2) as [F2 _].
      rewrite R1 in *. rewrite R2 in *.
      assert (model_place p) as MP' by (intros s I; apply MP; now right).
      destruct p as [|s q].
      { assert (a = b) as <- by now inversion Hp. reflexivity. }
      destruct (MP' s (or_introl eq_refl)) as [n2 ->].
      assert (exists c2 d2 e2, fs_type (fd_spec g) = TModel c2 /\ a = VDict d2 /\ b = VDict e2 /\ defined_dict d2 /\ defined_dict e2) as (c2 & d2 & e2 & T2 & -> & -> & Hd2 & He2).
      { inversion Hp; subst; do 3 eexists; repeat split; eauto. }
      destruct j as [|[|k]]; [now destruct (small_fuel (fd_spec g) (VDict d2) eq_refl)| |].
      { destruct (small_fuel (fd_spec g) (VDict d2) eq_refl) as [_ F]. destruct F; [unfold is_compound; now rewrite T2|assumption]. }
      rewrite !(model_field k (fd_spec g) c2) in * by assumption. apply settled_map in F1, F2.
      assert (forall d', defined_dict d' -> settled (model_init E (conv_at E k) c2 (VDict d') (VDict []) w) ->
        stored_for (fd_spec g) (rbind (model_init E (conv_at E k) c2 (VDict d') (VDict []) w) (fun m => Ok (VModel c2 m))) =
        kept c2 (model_init E (conv_at E k) c2 (VDict d') (VDict []) w)) as ST.
      { intros d' Hd' S'. pose proof (settled_data (conv_at E k) c2 d') as D. destruct (model_init E (conv_at E k) c2 (VDict d') (VDict []) w) as [m|ex]; [reflexivity|].
        destruct (D ex Hd' S' eq_refl) as (errs & pd & ->). reflexivity. }
      rewrite !ST by assumption.
      assert (forall d', defined_dict d' -> settled (model_init E (conv_at E k) c2 (VDict d') (VDict []) w) ->
        exists u, kept c2 (model_init E (conv_at E k) c2 (VDict d') (VDict []) w) = Some u) as KS.
      { intros d' Hd' S'. pose proof (settled_data (conv_at E k) c2 d') as D. destruct (model_init E (conv_at E k) c2 (VDict d') (VDict []) w) as [m|ex]; [cbn; eauto|].
        destruct (D ex Hd' S' eq_refl) as (errs & pd & ->). cbn. eauto. }
      destruct (KS d2 Hd2 F1) as [u1 U1]. destruct (KS e2 He2 F2) as [u2 U2]. rewrite U1, U2.
      rewrite T2 in *. eapply (IH MP' k c2 d2 e2 u1 u2); eauto. discriminate.
    - injection T as <-. injection V1 as <-. injection V2 as <-.
      destruct (kept_field _ c d n g p Hi Hs Hd S1) as (a1 & Ka & Qa). destruct (kept_field _ c e n g p Hi Hs He S2) as (b1 & Kb & Qb).
      replace a0 with a1 by congruence. replace b0 with b1 by congruence. rewrite Qa, Qb. unfold field_run. now rewrite Sa, Sb.
  Qed.

  (** The same for the construction of an instance. *)
  Lemma same_at_head c n p d e : same_at E (TModel c) (SField n :: p) (VDict d) (VDict e) ->
    exists f, In (n, f) (fields_of E c) /\ has_setter f = false /\ defined_dict d /\ defined_dict e.
  Proof. intros H. inversion H; subst; eauto. Qed.
  Theorem init_errors_same j c p d e : same_at E (TModel c) p (VDict d) (VDict e) ->
    settled (model_init E (conv_at E j) c (VDict d) (VDict []) w) -> settled (model_init E (conv_at E j) c (VDict e) (VDict []) w) ->
    error_at E (TModel c) p (model_init E (conv_at E j) c (VDict d) (VDict []) w) = error_at E (TModel c) p (model_init E (conv_at E j) c (VDict e) (VDict []) w).
  Proof using HN Wv Wc Wm.
    intros H S1 S2. set (f := FS (FO false false VUndef None [] [] None None) (TModel c)).
    destruct (main (TModel c) p _ _ H (S (S j)) f eq_refl) as [Q _].
    - rewrite (model_field j _ c) by reflexivity. now apply settled_map.
    - rewrite (model_field j _ c) by reflexivity. now apply settled_map.
    - now rewrite !(model_field j _ c), !error_at_map in Q by reflexivity.
  Qed.
  Theorem init_values_same j c p d e m m' : same_at E (TModel c) p (VDict d) (VDict e) ->
    model_init E (conv_at E j) c (VDict d) (VDict []) w = Ok m -> model_init E (conv_at E j) c (VDict e) (VDict []) w = Ok m' ->
    value_at E (TModel c) p (VModel c m) = value_at E (TModel c) p (VModel c m').
  Proof using HN Wv Wc Wm.
    intros H I1 I2. set (f := FS (FO false false VUndef None [] [] None None) (TModel c)).
    assert (cv_field (conv_at E (S (S j))) f (VDict d) x = Ok (VModel c m)) as Q1 by (rewrite (model_field j _ c), I1 by reflexivity; reflexivity).
    assert (cv_field (conv_at E (S (S j))) f (VDict e) x = Ok (VModel c m')) as Q2 by (rewrite (model_field j _ c), I2 by reflexivity; reflexivity).
    destruct (main (TModel c) p _ _ H (S (S j)) f eq_refl) as [_ V]; [intros ex; congruence|intros ex; congruence|]. now apply V.
  Qed.
  Theorem init_kept_same j c p d e a b : same_at E (TModel c) p (VDict d) (VDict e) -> model_place p -> p <> [] ->
    settled (model_init E (conv_at E j) c (VDict d) (VDict []) w) -> settled (model_init E (conv_at E j) c (VDict e) (VDict []) w) ->
    kept c (model_init E (conv_at E j) c (VDict d) (VDict []) w) = Some a -> kept c (model_init E (conv_at E j) c (VDict e) (VDict []) w) = Some b ->
    value_at E (TModel c) p a = value_at E (TModel c) p b.
  Proof using HN Wv Wc Wm. intros H M P S1 S2 K1 K2. eapply kept_same; eauto. Qed.
End Main.
