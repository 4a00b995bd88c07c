(** Importing data in steps. *)
From Verif.Model Require Import Py Core Export Api.
From Verif.Spec Require Import ImportSpec NestedSpec StepsSpec.
From Verif.Proofs Require Import DictLemmas ImportLemmas ApiLemmas ImportApi PolyLemmas Nested.

Lemma defining_leaf_members f : defining f -> leaf_members f.
Proof.
  unfold defining, leaf_members. destruct (fs_type f); auto. intros H m Hm. destruct (H m Hm) as (o & l0 & -> & _). eauto.
Qed.
Lemma new_not_undef E fc pre c v x : cx_validate x = false -> model_new E fc pre c v x <> Ok VUndef.
Proof.
  intros V. unfold model_new. destruct (if truthy v then _ else _) as [d|]; [|discriminate]. cbn [rbind]. rewrite V.
  set (out := import_loop _ _ _ _ _ _ _ _). assert (M : exists m, lo_mut out = VModel c m).
  { unfold out, import_loop. rewrite V, andb_false_r. destruct (if truthy (cx_trusted x) then _ else _); cbn [lo_mut]; eauto. }
  destruct M as [m ->]. destruct (lo_res out); cbn; discriminate.
Qed.
Lemma not_undef_field E j f v x : cx_validate x = false -> defining f -> v <> VUndef -> cv_field (conv_at E j) f v x <> Ok VUndef.
Proof.
  intros V D Hv. destruct j as [|j]; [discriminate|].
  change (field_step (conv_at E j) f v x <> Ok VUndef). unfold field_step. destruct (check_required f v x); [discriminate|].
  destruct (is_nil v); [congruence|]. rewrite V. destruct j as [|j]; [discriminate|].
  change (convert_step E (conv_at E j) f v x <> Ok VUndef). unfold convert_step, defining in *. destruct (fs_type f) as [l|ms|c|p|g|g ck].
  - now apply D.
  - intros H. destruct (union_resolve _ ms v) as [[m w]|] eqn:U; [|discriminate]. cbn in H. injection H as ->.
    apply union_In in U as [U1 U2]. destruct (D m U1) as (o & l & -> & N). destruct j as [|j]; [discriminate|]. exact (N v Hv U2).
  - unfold model_convert. assert (R : forall c', (if cx_convert x && cx_oo x then model_new E (cv_field (conv_at E j)) (cv_pre (conv_at E j)) c' v x
        else model_class_convert E (cv_field (conv_at E j)) (cv_pre (conv_at E j)) c' v x) <> Ok VUndef).
    { intros c'. destruct (cx_convert x && cx_oo x).
      - now apply new_not_undef.
      - unfold model_class_convert. destruct (lo_res _); cbn; discriminate. }
    destruct v; try discriminate; try apply R. destruct (e_issub E c0 c); [apply R|discriminate].
  - unfold poly_convert. destruct (is_none v); [discriminate|]. destruct (negb (cx_validate x) && poly_allowed E p v); [congruence|].
    destruct (_ && _); [discriminate|]. destruct (find_model E p v) as [c'|]; [|discriminate]. cbn [rbind].
    now apply new_not_undef.
  - unfold list_convert. destruct (list_elems E v); [|discriminate]. destruct (list_loop _ _ _ _ _ _ _) as [[a [|]]|]; discriminate.
  - unfold dict_convert. destruct v; try discriminate. destruct (dict_loop _ _ _ _ _ _ _) as [[a [|]]|]; discriminate.
Qed.

Section Steps.
  Context (E : env) (j : nat) (c : cid) (w : kwargs).
  Hypothesis S : steppable E c.
  Hypothesis R : replacing w.
  Let fs := fields_of E c.
  Let r := conv_at E j.
  Let mp := kw_mapping w.
  (** The context of a field, the same for all instances. *)
  Let x0 := kw_ctx w (VDict []).

  Definition out (m : mdata pyval) (d : list (key * pyval)) (n : key) (f : fspec) : outcome :=
    match supplied d n f mp, chain_get m n with
    | None, Some _ => Keep
    | sup, _ => match cv_field r f (candidate x0 f sup) (field_ctx E x0 n f) with
                | Ok VUndef => Keep
                | Ok v => Store v
                | Raise e => Fail e
                end
    end.

  Lemma same_conversion td n f v : leaf_members f ->
    cv_field r f v (field_ctx E (kw_ctx w (VDict td)) n f) = cv_field r f v (field_ctx E x0 n f).
  Proof.
    destruct R as [_ Hr]. intros L. unfold field_ctx. destruct (is_compound f) eqn:C.
    - unfold nested_td. cbn [cx_trusted cx_recursive kw_ctx x0]. rewrite Hr, !andb_false_r. reflexivity.
    - change x0 with (with_trusted (kw_ctx w (VDict td)) (VDict [])). symmetry. now apply leaf_trusted.
  Qed.
  Lemma outcome_out m d n f : In (n, f) fs ->
    field_outcome E (cv_field r) (kw_ctx w (VDict (model_items E c m))) d (model_items E c m) n (fd_spec f) = out m d n (fd_spec f).
  Proof.
    intros Hi. unfold field_outcome, out. change (cx_mapping (kw_ctx _ _)) with mp.
    assert (Ht : dget n (model_items E c m) = chain_get m n).
    { rewrite model_items_get by apply S. replace (dmem n (mc_fields (e_class E c))) with true; [reflexivity|].
      symmetry; apply dmem_In. apply (in_map fst) in Hi; exact Hi. }
    rewrite Ht. destruct (supplied d n (fd_spec f) mp), (chain_get m n); try reflexivity;
      rewrite same_conversion by (eapply defining_leaf_members, S, Hi); reflexivity.
  Qed.

  Definition no_rogue (d : list (key * pyval)) : Prop := kw_strict w = true -> forall y, ~ rogue_key fs mp d y.
  Lemma step_iff m d : settled m -> input d ->
    ((exists m', model_import_data E r c m (VDict d) w = (m', None)) <->
     (forall n f e, In (n, f) fs -> out m d n (fd_spec f) <> Fail e) /\ no_rogue d).
  Proof.
    intros [Hu Hd] [Hdef Hne]. destruct S as [Hnd Hp _]. destruct R as [Hv _].
    pose proof (idata_eff E c m d w Hv) as Ef. pose proof (idata_trusted E c m w) as Tr.
    split.
    - intros [m' H]. split.
      + intros n f e Hi. rewrite <- outcome_out by exact Hi. apply (idata_value E r c m d w Hdef Hne Hnd Hv Hu Hp Hd m' n f H Hi).
      + intros Hs y Hy. destruct (idata_ok E r c m d w Hdef Hne Hnd Hv Hu Hp Hd m' H) as (data & L & _).
        eapply (success_no_errors E (cv_field r) (cv_pre r) _ fs _ NoAlias d d _ Ef Hdef Hnd Tr data y L). left. now split.
    - intros [Hf Hr]. rewrite (idata_eq E r c m d w Hdef Hne Hnd Hv Hu Hp Hd).
      destruct (no_errors_success E (cv_field r) (cv_pre r) _ (fields_of E c) (VModel c m) NoAlias d d _ Ef Hdef Hnd Tr) as [data ->].
      + intros n f e Hi _ F. exfalso. unfold fails in F. rewrite outcome_out in F by exact Hi. now apply (Hf n f e Hi).
      + intros y [[Hs Hy]|(n & f & e & Hi & _ & F & _)]; [now apply (Hr Hs y)|].
        unfold fails in F. rewrite outcome_out in F by exact Hi. now apply (Hf n f e Hi).
      + eauto.
  Qed.
  Lemma step_value m d m' n f : settled m -> input d -> model_import_data E r c m (VDict d) w = (m', None) -> In (n, f) fs ->
    chain_get m' n = value_after x0 (fd_spec f) (out m d n (fd_spec f)) (chain_get m n).
  Proof.
    intros [Hu Hd] [Hdef Hne] H Hi. destruct S as [Hnd Hp _]. destruct R as [Hv _].
    destruct (idata_value E r c m d w Hdef Hne Hnd Hv Hu Hp Hd m' n f H Hi) as [G _]. rewrite G, outcome_out by exact Hi. reflexivity.
  Qed.
  Lemma step_other m d m' y : settled m -> input d -> model_import_data E r c m (VDict d) w = (m', None) -> ~ In y (dkeys fs) ->
    chain_get m' y = chain_get m y.
  Proof. intros [Hu Hd] [Hdef Hne] H Hy. destruct S as [Hnd Hp _]. destruct R as [Hv _]. now apply (idata_other E r c m d w Hdef Hne Hnd Hv Hu Hp Hd). Qed.
  Lemma out_defined m d n f : out m d n f <> Store VUndef.
  Proof.
    unfold out. destruct (supplied d n f mp), (chain_get m n); try discriminate; destruct (cv_field _ _ _ _) as [[]|]; discriminate.
  Qed.
  Lemma field_dec y : {f | In (y, f) fs} + {~ In y (dkeys fs)}.
  Proof.
    destruct (dget y fs) as [f|] eqn:G; [left; exists f; now apply dget_In|right]. intros H. apply dget_keys in H. now rewrite G in H.
  Qed.
  Lemma step_settled m d m' : settled m -> input d -> model_import_data E r c m (VDict d) w = (m', None) -> settled m'.
  Proof.
    intros Hm Hi H. split.
    - destruct Hm as [Hu Hd], Hi as [Hdef Hne], S as [Hnd Hp _], R as [Hv _]. rewrite (idata_eq E r c m d w Hdef Hne Hnd Hv Hu Hp Hd) in H.
      destruct (lo_res _); [|discriminate]. injection H as <-. exact Hu.
    - intros y. destruct (field_dec y) as [[f Hf]|N].
      + rewrite (step_value m d m' y f Hm Hi H Hf). destruct (out m d y (fd_spec f)) eqn:O; cbn.
        * apply Hm.
        * intros [= ->]. exact (out_defined m d y _ O).
        * exfalso. destruct (proj1 (step_iff m d Hm Hi) (ex_intro _ m' H)) as [F _]. exact (F y f e Hf O).
      + rewrite (step_other m d m' y Hm Hi H N). apply Hm.
  Qed.
  Lemma supplied_ne d n f v : input d -> supplied d n f mp = Some v -> v <> VUndef.
  Proof. intros [Hd _] H. apply supplied_defined in H; [|exact Hd]. now intros ->. Qed.
  (** A supplied field is stored or fails. *)
  Lemma out_supplied m d n f v : In (n, f) fs -> input d -> supplied d n (fd_spec f) mp = Some v ->
    out m d n (fd_spec f) = match cv_field r (fd_spec f) v (field_ctx E x0 n (fd_spec f)) with Ok u => Store u | Raise e => Fail e end.
  Proof.
    intros Hi Hd Hs. unfold out. rewrite Hs. cbn [candidate].
    assert (N : cv_field r (fd_spec f) v (field_ctx E x0 n (fd_spec f)) <> Ok VUndef).
    { apply not_undef_field; [|eapply S, Hi|eapply supplied_ne; eassumption]. unfold field_ctx. destruct (is_compound _); apply R. }
    destruct (cv_field _ _ _ _) as [[]|]; try reflexivity. now destruct N.
  Qed.
  Lemma out_unsupplied m d n f : supplied d n f mp = None ->
    out m d n f = match chain_get m n with
                  | Some _ => Keep
                  | None => match cv_field r f (candidate x0 f None) (field_ctx E x0 n f) with
                            | Ok VUndef => Keep | Ok v => Store v | Raise e => Fail e end
                  end.
  Proof. intros H. unfold out. rewrite H. reflexivity. Qed.

  (** Two steps are one step with the merged data. *)
  Lemma steps_merged m d1 d2 d m1 m2 : settled m -> input d1 -> input d2 -> input d -> merged E c mp d1 d2 d ->
    model_import_data E r c m (VDict d1) w = (m1, None) -> model_import_data E r c m1 (VDict d2) w = (m2, None) ->
    exists m3, model_import_data E r c m (VDict d) w = (m3, None) /\ read_alike m3 m2.
  Proof.
    intros Hm I1 I2 I [Mg Mr] H1 H2. pose proof (step_settled _ _ _ Hm I1 H1) as Hm1.
    destruct (proj1 (step_iff m d1 Hm I1) (ex_intro _ _ H1)) as [F1 R1].
    destruct (proj1 (step_iff m1 d2 Hm1 I2) (ex_intro _ _ H2)) as [F2 R2].
    assert (V : forall n f, In (n, f) fs -> (forall e, out m d n (fd_spec f) <> Fail e) /\
      value_after x0 (fd_spec f) (out m d n (fd_spec f)) (chain_get m n) = chain_get m2 n).
    { intros n f Hi. rewrite (step_value m1 d2 m2 n f Hm1 I2 H2 Hi). pose proof (Mg n f Hi) as G.
      specialize (F1 n f). specialize (F2 n f).
      destruct (supplied d2 n (fd_spec f) mp) as [v|] eqn:S2.
      - rewrite (out_supplied m d n f v Hi I G). rewrite (out_supplied m1 d2 n f v Hi I2 S2) in F2 |- *.
        destruct (cv_field _ _ _ _); [split; [discriminate|reflexivity]|]. now destruct (F2 e Hi).
      - pose proof (step_value m d1 m1 n f Hm I1 H1 Hi) as G1. rewrite (out_unsupplied m1 d2 n _ S2).
        destruct (supplied d1 n (fd_spec f) mp) as [v|] eqn:S1.
        + rewrite (out_supplied m d n f v Hi I G). rewrite (out_supplied m d1 n f v Hi I1 S1) in F1, G1.
          destruct (cv_field _ _ v _); [|now destruct (F1 e Hi)]. cbn in G1. rewrite G1. split; [discriminate|reflexivity].
        + rewrite (out_unsupplied m d n _ G). rewrite (out_unsupplied m d1 n _ S1) in F1, G1.
          destruct (chain_get m n); [rewrite G1; split; [discriminate|reflexivity]|].
          destruct (cv_field _ _ _ _) as [[]|]; cbn in G1 |- *; rewrite ?G1; try (split; [discriminate|reflexivity]).
          now destruct (F1 e Hi). }
    destruct (proj2 (step_iff m d Hm I)) as [m3 H3].
    { split; [intros n f e Hi; now apply V|]. intros Hs y Hy. apply Mr in Hy as [Hy|Hy]; [now apply (R1 Hs y)|now apply (R2 Hs y)]. }
    exists m3. split; [exact H3|]. intros y. destruct (field_dec y) as [[f Hf]|N].
    - rewrite (step_value m d m3 y f Hm I H3 Hf). now apply V.
    - rewrite (step_other m d m3 y Hm I H3 N), (step_other m1 d2 m2 y Hm1 I2 H2 N). symmetry. now apply (step_other m d1 m1 y Hm I1 H1).
  Qed.

  (** The same step again changes nothing. *)
  Lemma step_again m d m1 : settled m -> input d -> model_import_data E r c m (VDict d) w = (m1, None) ->
    exists m2, model_import_data E r c m1 (VDict d) w = (m2, None) /\ read_alike m2 m1.
  Proof.
    intros Hm I H1. pose proof (step_settled _ _ _ Hm I H1) as Hm1.
    destruct (proj1 (step_iff m d Hm I) (ex_intro _ _ H1)) as [F1 R1].
    assert (V : forall n f, In (n, f) fs -> (forall e, out m1 d n (fd_spec f) <> Fail e) /\
      value_after x0 (fd_spec f) (out m1 d n (fd_spec f)) (chain_get m1 n) = chain_get m1 n).
    { intros n f Hi. pose proof (step_value m d m1 n f Hm I H1 Hi) as G1. specialize (F1 n f).
      destruct (supplied d n (fd_spec f) mp) as [v|] eqn:S1.
      - rewrite (out_supplied m1 d n f v Hi I S1). rewrite (out_supplied m d n f v Hi I S1) in F1, G1.
        destruct (cv_field _ _ _ _); [|now destruct (F1 e Hi)]. cbn in *. split; [discriminate|congruence].
      - rewrite (out_unsupplied m1 d n _ S1). rewrite (out_unsupplied m d n _ S1) in F1, G1.
        destruct (chain_get m n); [cbn in G1; rewrite G1; split; [discriminate|reflexivity]|].
        destruct (cv_field _ _ _ _) as [[]|]; cbn in G1 |- *; rewrite ?G1; try (split; [discriminate|reflexivity]).
        now destruct (F1 e Hi). }
    destruct (proj2 (step_iff m1 d Hm1 I)) as [m2 H2]; [split; [intros n f e Hi; now apply V|exact R1]|].
    exists m2. split; [exact H2|]. intros y. destruct (field_dec y) as [[f Hf]|N].
    - rewrite (step_value m1 d m2 y f Hm1 I H2 Hf). now apply V.
    - exact (step_other m1 d m2 y Hm1 I H2 N).
  Qed.
End Steps.

Section Split.
  Context (E : env) (j : nat) (c : cid) (w : kwargs).
  Hypothesis S : steppable E c.
  Hypothesis R : replacing w.
  Hypothesis A : kw_apply_defaults w = false.
  Let fs := fields_of E c.
  Let mp := kw_mapping w.
  Let r := conv_at E (Datatypes.S j).
  Lemma absent_ok m n f : complete E c w m -> chain_get m n = None -> In (n, f) fs ->
    exists v, cv_field r (fd_spec f) (candidate (kw_ctx w (VDict [])) (fd_spec f) None) (field_ctx E (kw_ctx w (VDict [])) n (fd_spec f)) = Ok v.
  Proof.
    intros Cm Hn Hi. set (v := candidate _ _ _). set (y := field_ctx _ _ _ _).
    change (exists u, field_step (conv_at E j) (fd_spec f) v y = Ok u).
    assert (C : is_nil v = true).
    { unfold v, candidate. cbn [cx_apply_defaults kw_ctx]. rewrite A. destruct (cx_init_values _); reflexivity. }
    unfold field_step, check_required. rewrite C. destruct (fo_required (fs_opts (fd_spec f))) eqn:Q; [|cbn; eauto].
    destruct (Cm n f Hi Q) as [[P N]|H]; [|contradiction]. rewrite N.
    replace (cx_partial y) with true; [cbn; eauto|]. unfold y, field_ctx. destruct (is_compound _); symmetry; exact P.
  Qed.
  (** One step with the merged data is two steps, if these supply different fields. *)
  Lemma merged_steps m d1 d2 d m3 : settled m -> complete E c w m -> input d1 -> input d2 -> input d -> merged E c mp d1 d2 d -> apart E c mp d1 d2 ->
    (forall y, rogue_key fs mp d1 y \/ rogue_key fs mp d2 y -> rogue_key fs mp d y) ->
    model_import_data E r c m (VDict d) w = (m3, None) ->
    exists m1 m2, model_import_data E r c m (VDict d1) w = (m1, None) /\ model_import_data E r c m1 (VDict d2) w = (m2, None) /\ read_alike m2 m3.
  Proof.
    intros Hm Cm I1 I2 I Mg Ap Rg H3. destruct (proj1 (step_iff E _ c w S R m d Hm I) (ex_intro _ _ H3)) as [F3 R3]. fold r fs mp in F3, R3.
    assert (F : forall m' n f d', (chain_get m' n = None -> chain_get m n = None) -> input d' -> In (n, f) fs -> (forall v, supplied d' n (fd_spec f) mp = Some v -> supplied d n (fd_spec f) mp = Some v) ->
      forall e, out E (Datatypes.S j) w m' d' n (fd_spec f) <> Fail e).
    { intros m' n f d' Le I' Hi Hs e. destruct (supplied d' n (fd_spec f) mp) as [v|] eqn:S1.
      - rewrite (out_supplied E _ c w S R m' d' n f v Hi I' S1). specialize (F3 n f e Hi).
        rewrite (out_supplied E _ c w S R m d n f v Hi I (Hs v eq_refl)) in F3. exact F3.
      - rewrite out_unsupplied by exact S1. destruct (chain_get m' n) eqn:G; [discriminate|]. destruct (absent_ok m n f Cm (Le eq_refl) Hi) as [v V]. unfold r in V. rewrite V.
        destruct v; discriminate. }
    assert (S1 : forall n f, In (n, f) fs -> forall v, supplied d1 n (fd_spec f) mp = Some v -> supplied d n (fd_spec f) mp = Some v).
    { intros n f Hi v Hs. rewrite (proj1 Mg n f Hi). destruct (Ap n f Hi) as [H|H]; [congruence|]. now rewrite H. }
    assert (S2 : forall n f, In (n, f) fs -> forall v, supplied d2 n (fd_spec f) mp = Some v -> supplied d n (fd_spec f) mp = Some v).
    { intros n f Hi v Hs. rewrite (proj1 Mg n f Hi). now rewrite Hs. }
    destruct (proj2 (step_iff E (Datatypes.S j) c w S R m d1 Hm I1)) as [m1 H1].
    { split; [intros n f e Hi; apply F; auto|]. intros Hs y Hy. apply (R3 Hs y). auto. }
    pose proof (step_settled E _ c w S R m d1 m1 Hm I1 H1) as Hm1.
    destruct (proj2 (step_iff E (Datatypes.S j) c w S R m1 d2 Hm1 I2)) as [m2 H2].
    { split; [|intros Hs y Hy; apply (R3 Hs y); auto]. intros n f e Hi; apply F; auto. intros G.
      rewrite (step_value E _ c w S R m d1 m1 n f Hm I1 H1 Hi) in G. destruct (out _ _ _ _ _ _ _) eqn:O; [exact G|discriminate|].
      exfalso. exact (F m n f d1 (fun h => h) I1 Hi (S1 n f Hi) e0 O). }
    exists m1, m2. split; [exact H1|]. split; [exact H2|].
    destruct (steps_merged E _ c w S R m d1 d2 d m1 m2 Hm I1 I2 I Mg H1 H2) as (m3' & H3' & Q).
    fold r in H3'. rewrite H3 in H3'. injection H3' as <-. intros y. symmetry. apply Q.
  Qed.
End Split.

(** The merge of two dictionaries, as [{**d1, **d2}] makes it. *)
Lemma supplied_find d n f mp : supplied d n f mp = match find (fun y => dmem y d) (accepted_names n f mp) with Some y => dget y d | None => None end.
Proof. reflexivity. Qed.
Lemma update_merged E c mp d1 d2 : NoDup (dkeys d2) -> one_key_each E c mp d1 d2 -> merged E c mp d1 d2 (dupdate d1 d2).
Proof.
  intros Nd O. split.
  - intros n f Hi. unfold supplied. specialize (O n f).
    assert (O2 : forall y1 y2, In y1 (accepted_names n (fd_spec f) mp) -> In y2 (accepted_names n (fd_spec f) mp) -> dmem y1 d1 = true -> dmem y2 d2 = true -> y1 = y2).
    { intros y1 y2 A1 A2 M1 M2. apply dmem_In in M1, M2. now apply (O y1 y2 Hi). }
    clear O. set (l := accepted_names n (fd_spec f) mp) in *.
    assert (M : forall y, dmem y (dupdate d1 d2) = dmem y d1 || dmem y d2).
    { intros y. unfold dmem. rewrite dget_dupdate by exact Nd. destruct (dget y d2), (dget y d1); reflexivity. }
    destruct (find (fun y => dmem y d2) l) as [y2|] eqn:F2.
    + pose proof (find_some _ _ F2) as [L2 D2]. assert (F : find (fun y => dmem y (dupdate d1 d2)) l = Some y2).
      { assert (H : forall l0, incl l0 l -> find (fun y => dmem y d2) l0 = Some y2 -> find (fun y => dmem y (dupdate d1 d2)) l0 = Some y2).
        { induction l0 as [|a l0 IH]; [discriminate|]. intros Inc. cbn. rewrite M. destruct (dmem a d2) eqn:D; [now rewrite orb_true_r|].
          rewrite orb_false_r. intros Fd. destruct (dmem a d1) eqn:D1; [|apply IH; [intros b Hb; apply Inc; now right|exact Fd]].
          f_equal. apply O2; [apply Inc; now left|exact L2|exact D1|exact D2]. }
        apply H; [apply incl_refl|exact F2]. }
      rewrite F, dget_dupdate by exact Nd. apply dmem_true_dget in D2 as [v ->]. reflexivity.
    + rewrite (find_ext (fun y => dmem y (dupdate d1 d2)) (fun y => dmem y d1) l).
      * destruct (find (fun y => dmem y d1) l) as [y|] eqn:F; [|reflexivity]. apply find_some in F as [L _].
        rewrite dget_dupdate by exact Nd. pose proof (find_none _ _ F2 y L) as D. cbn in D. apply dmem_dget in D. now rewrite D.
      * intros y L. rewrite M. pose proof (find_none _ _ F2 y L) as D. cbn in D. rewrite D. apply orb_false_r.
  - intros y [H N]. apply dkeys_dupdate_in in H as [H|H]; [left|right]; now split.
Qed.
Lemma update_rogue E c mp d1 d2 y : rogue_key (fields_of E c) mp d1 y \/ rogue_key (fields_of E c) mp d2 y -> rogue_key (fields_of E c) mp (dupdate d1 d2) y.
Proof. intros [[H N]|[H N]]; (split; [|exact N]); apply dkeys_dupdate_in; auto. Qed.
Lemma supplied_none d n f mp y : supplied d n f mp = None -> In y (accepted_names n f mp) -> ~ In y (dkeys d).
Proof.
  unfold supplied. destruct (find _ _) as [z|] eqn:F.
  - apply find_some in F as [_ D]. apply dmem_true_dget in D as [v ->]. discriminate.
  - intros _ L. pose proof (find_none _ _ F y L) as D. cbn in D. now apply dmem_nIn.
Qed.
Lemma apart_one_key E c mp d1 d2 : apart E c mp d1 d2 -> one_key_each E c mp d1 d2.
Proof.
  intros Ap n f y1 y2 Hi A1 A2 D1 D2. exfalso. destruct (Ap n f Hi) as [H|H]; [exact (supplied_none _ _ _ _ _ H A1 D1)|exact (supplied_none _ _ _ _ _ H A2 D2)].
Qed.
Lemma update_input d1 d2 : NoDup (dkeys d2) -> input d1 -> input d2 -> input (dupdate d1 d2).
Proof.
  intros Nd [D1 _] [D2 N]. split.
  - intros y. rewrite dget_dupdate by exact Nd. destruct (dget y d2) eqn:G; [rewrite <- G; apply D2|apply D1].
  - intros H. destruct d2 as [|[y v] d2]; [congruence|]. assert (I : In y (dkeys (dupdate d1 ((y, v) :: d2)))) by (apply dkeys_dupdate_in; right; now left).
    rewrite H in I. destruct I.
Qed.
(** Python's merge. *)
Lemma steps_update E j c w m d1 d2 m1 m2 : steppable E c -> replacing w -> settled m -> input d1 -> input d2 -> NoDup (dkeys d2) ->
  one_key_each E c (kw_mapping w) d1 d2 ->
  model_import_data E (conv_at E j) c m (VDict d1) w = (m1, None) -> model_import_data E (conv_at E j) c m1 (VDict d2) w = (m2, None) ->
  exists m3, model_import_data E (conv_at E j) c m (VDict (dupdate d1 d2)) w = (m3, None) /\ read_alike m3 m2.
Proof.
  intros S R Hm I1 I2 Nd O. apply steps_merged; try assumption; [now apply update_input|now apply update_merged].
Qed.
Lemma steps_split E j c w m d1 d2 m3 : steppable E c -> replacing w -> kw_apply_defaults w = false ->
  settled m -> complete E c w m -> input d1 -> input d2 -> NoDup (dkeys d2) -> apart E c (kw_mapping w) d1 d2 ->
  model_import_data E (conv_at E (S j)) c m (VDict (dupdate d1 d2)) w = (m3, None) ->
  exists m1 m2, model_import_data E (conv_at E (S j)) c m (VDict d1) w = (m1, None) /\
    model_import_data E (conv_at E (S j)) c m1 (VDict d2) w = (m2, None) /\ read_alike m2 m3.
Proof.
  intros S R A Hm Cm I1 I2 Nd Ap. eapply merged_steps; try eassumption; [now apply update_input|now apply update_merged, apart_one_key|].
  intros y. apply update_rogue.
Qed.
(** Steps that supply different fields can be swapped. *)
Lemma steps_swap E j c w m d1 d2 m1 m2 : steppable E c -> replacing w -> kw_apply_defaults w = false ->
  settled m -> complete E c w m -> input d1 -> input d2 -> NoDup (dkeys d2) -> apart E c (kw_mapping w) d1 d2 ->
  model_import_data E (conv_at E (S j)) c m (VDict d1) w = (m1, None) -> model_import_data E (conv_at E (S j)) c m1 (VDict d2) w = (m2, None) ->
  exists m1' m2', model_import_data E (conv_at E (S j)) c m (VDict d2) w = (m1', None) /\
    model_import_data E (conv_at E (S j)) c m1' (VDict d1) w = (m2', None) /\ read_alike m2' m2.
Proof.
  intros S R A Hm Cm I1 I2 Nd Ap H1 H2.
  assert (Mg := update_merged E c (kw_mapping w) d1 d2 Nd (apart_one_key _ _ _ _ _ Ap)).
  destruct (steps_merged E _ c w S R m d1 d2 _ m1 m2 Hm I1 I2 (update_input _ _ Nd I1 I2) Mg H1 H2) as (m3 & H3 & Q).
  destruct (merged_steps E j c w S R A m d2 d1 (dupdate d1 d2) m3 Hm Cm I2 I1 (update_input _ _ Nd I1 I2)) as (a & b & Ha & Hb & Q2).
  - destruct Mg as [G1 G2]. split; [|intros y Hy; destruct (G2 y Hy); auto]. intros n f Hi. rewrite (G1 n f Hi).
    destruct (Ap n f Hi) as [H|H]; rewrite H; [destruct (supplied d2 _ _ _)|destruct (supplied d1 _ _ _)]; reflexivity.
  - intros n f Hi. destruct (Ap n f Hi); auto.
  - intros y Hy. apply update_rogue. tauto.
  - exact H3.
  - exists a, b. split; [exact Ha|]. split; [exact Hb|]. intros y. rewrite (Q2 y). apply Q.
Qed.
