(** Import and validation do not look at the order of dictionaries. *)
From Verif.Model Require Import Py Core Api.
From Verif.Spec Require Import OrderSpec.
From Verif.Proofs Require Import DictLemmas OrderFacts.

Section Main.
  Context (K : key -> Prop).
  Local Notation alike := (alike K).
  Local Notation keyed := (keyed K).
  Local Notation alike_exn := (alike_exn K).
  Local Notation alike_res := (alike_res K).
  Context (E : env) (HE : blind_env K E).

  Section Dict.
    Context (fc : fspec -> pyval -> ictx -> res pyval) (f : fspec) (ck : key -> res key).
    Definition entry_out (x : ictx) (p : key * pyval) : res (key * pyval) :=
      rbind (fc f (snd p) x) (fun w => rbind (ck (fst p)) (fun y' => Ok (y', w))).
    Definition good x (l : list (key * pyval)) : list (key * pyval) :=
      flat_map (fun p => match entry_out x p with Ok q => [q] | Raise _ => [] end) l.
    Definition bad x (l : list (key * pyval)) : list (key * errnode) :=
      flat_map (fun p => match entry_out x p with Ok _ => [] | Raise e => [(fst p, err_node e)] end) l.
    Definition crashes x (p : key * pyval) : bool :=
      match entry_out x p with Ok _ => false | Raise e => negb (caught_by_loop e) end.

    Lemma uncaught e : caught_by_loop e = false -> crash e.
    Proof. destruct e; cbn; try discriminate; auto. Qed.
    Lemma crash_uncaught e : crash e -> caught_by_loop e = false.
    Proof. destruct e; cbn; tauto. Qed.
    Lemma dict_loop_spec x l data errs :
      if existsb (crashes x) l then exists e, dict_loop fc f ck x l data errs = Raise e /\ crash e
      else dict_loop fc f ck x l data errs = Ok (dupdate data (good x l), dupdate errs (bad x l)).
    Proof.
      revert data errs. induction l as [|[y v] l IH]; intros data errs; cbn [existsb dict_loop]; [reflexivity|].
      unfold crashes at 1, good, bad. cbn [flat_map]. change (rbind (fc f v x) _) with (entry_out x (y, v)).
      destruct (entry_out x (y, v)) as [[y' w]|e] eqn:O; cbn [orb].
      - apply (IH (dset y' w data) errs).
      - unfold is_base_error. destruct (caught_by_loop e) eqn:C; cbn [negb orb].
        + apply (IH data (dset y (err_node e) errs)).
        + exists e. split; [reflexivity|now apply uncaught].
    Qed.

    Context (Hf : blind_field K f) (Hck : keeps_apart K ck) (Hfc : fc_same K fc).
    Lemma entry_out_same x t y v w : K y -> alike v w -> alike (cx_trusted x) t ->
      alike_res (fun p q => fst p = fst q /\ K (fst p) /\ alike (snd p) (snd q)) (entry_out x (y, v)) (entry_out (branch x t None) (y, w)).
    Proof using Hf Hck Hfc.
      intros Hy H Ht. unfold entry_out. cbn [fst snd]. eapply res_bind; [now apply Hfc|]. intros a b Hab.
      eapply res_bind; [apply Hck, Hy|]. intros p q [-> Hq]. constructor. auto.
    Qed.
    Lemma good_In x l p : In p (good x l) <-> exists q, In q l /\ entry_out x q = Ok p.
    Proof.
      unfold good. rewrite in_flat_map. split; intros (q & Hq & H); exists q; (split; [assumption|]).
      - destruct (entry_out x q); [destruct H as [->|[]]; reflexivity|destruct H].
      - rewrite H. now left.
    Qed.
    Lemma bad_In x l y n : In (y, n) (bad x l) <-> exists v e, In (y, v) l /\ entry_out x (y, v) = Raise e /\ n = err_node e.
    Proof.
      unfold bad. rewrite in_flat_map. split.
      - intros ([z v] & Hq & H). destruct (entry_out x (z, v)) as [|e] eqn:O; [destruct H|].
        destruct H as [Q|[]]. injection Q as <- <-. eauto.
      - intros (v & e & Hi & O & ->). exists (y, v). split; [assumption|]. rewrite O. now left.
    Qed.
    Lemma entry_key x y v y' w : entry_out x (y, v) = Ok (y', w) -> ck y = Ok y'.
    Proof.
      unfold entry_out. cbn. destruct (fc f v x); cbn; [|discriminate]. destruct (ck y); cbn; congruence.
    Qed.
    Lemma good_NoDup x l : NoDup (dkeys l) -> (forall y, In y (dkeys l) -> K y) -> NoDup (dkeys (good x l)).
    Proof using Hck.
      unfold dkeys. induction l as [|[y v] l IH]; cbn; [constructor|]. intros N HK. inversion N as [|? ? N1 N2]; subst.
      destruct (entry_out x (y, v)) as [[y' w]|e] eqn:O; cbn; [|auto]. constructor; [|auto].
      intros Hi. apply in_map_iff in Hi. destruct Hi as ([z' w'] & Q & Hi). cbn in Q. subst z'.
      change (In (y', w') (good x l)) in Hi. apply good_In in Hi. destruct Hi as ([z u] & Hz & Oz).
      apply entry_key in O, Oz. apply N1. apply (in_map fst) in Hz. cbn in Hz.
      rewrite (proj2 Hck y z y'); auto.
    Qed.
    Lemma bad_NoDup x l : NoDup (dkeys l) -> NoDup (dkeys (bad x l)).
    Proof.
      unfold dkeys. induction l as [|[y v] l IH]; cbn; [constructor|]. intros N. inversion N as [|? ? N1 N2]; subst.
      destruct (entry_out x (y, v)) as [p|e] eqn:O; cbn; [auto|]. constructor; [|auto].
      intros Hi. apply in_map_iff in Hi. destruct Hi as ([z n] & Q & Hi). cbn in Q. subst z.
      change (In (y, n) (bad x l)) in Hi. apply bad_In in Hi. destruct Hi as (v' & e' & Hz & _).
      apply N1. apply (in_map fst) in Hz. exact Hz.
    Qed.

    Lemma dict_convert_same v w x t : alike v w -> alike (cx_trusted x) t ->
      alike_res alike (dict_convert fc f ck v x) (dict_convert fc f ck w (branch x t None)).
    Proof using Hf Hck Hfc.
      intros H Ht. unfold dict_convert.
      destruct H as [u H|l m F|l m F|d d' Hd|c m n H1 H2 H3 H4]; try (constructor; now constructor).
      { destruct u; cbn in H; try discriminate; constructor; constructor. }
      pose proof (keyed_entries _ _ _ _ Hd) as He. destruct Hd as [HK _].
      assert (forall y v w, In (y, v) d -> alike v w -> alike_res (fun p q => fst p = fst q /\ K (fst p) /\ alike (snd p) (snd q))
                (entry_out x (y, v)) (entry_out (branch x t None) (y, w))) as Hout.
      { intros y v w Hi Hvw. apply entry_out_same; try assumption. apply HK. apply (in_map fst) in Hi. exact Hi. }
      assert (existsb (crashes x) d = existsb (crashes (branch x t None)) d') as Hc.
      { apply eq_true_iff_eq. rewrite !existsb_exists. split.
        - intros ([y v] & Hi & C). destruct (entries_In_l _ _ _ _ _ He Hi) as (w & Hw & Hvw). exists (y, w). split; [assumption|].
          unfold crashes in *. destruct (Hout y v w Hi Hvw) as [a b _|a b Q]; [discriminate|]. now rewrite <- (caught_same _ _ _ Q).
        - intros ([y w] & Hi & C). destruct (entries_In_r _ _ _ _ _ He Hi) as (v & Hv & Hvw). exists (y, v). split; [assumption|].
          unfold crashes in *. destruct (Hout y v w Hv Hvw) as [a b _|a b Q]; [discriminate|]. now rewrite (caught_same _ _ _ Q). }
      pose proof (dict_loop_spec x d [] []) as S1. pose proof (dict_loop_spec (branch x t None) d' [] []) as S2.
      rewrite <- Hc in S2. destruct (existsb (crashes x) d) eqn:Cr.
      { destruct S1 as (e1 & -> & C1), S2 as (e2 & -> & C2). cbn. constructor. now apply ax_crash. }
      rewrite S1, S2. cbn [rbind].
      destruct He as (N1 & N2 & Hget). pose proof (conj N1 (conj N2 Hget)) as He.
      assert (forall y, In y (dkeys d') -> K y) as HK'.
      { intros y Hy. apply HK. eapply (entries_keys alike); [exact He|exact Hy]. }
      rewrite !dupdate_nil_l by (apply good_NoDup || apply bad_NoDup; assumption).
      assert (keyed alike (good x d) (good (branch x t None) d')) as Hg.
      { split.
        - intros y' Hy. unfold dkeys in Hy. apply in_map_iff in Hy. destruct Hy as ([a w] & <- & Hi). apply good_In in Hi.
          destruct Hi as ([y v] & Hi & O). destruct (entries_In_l _ _ _ _ _ He Hi) as (v' & _ & Hvw).
          pose proof (Hout y v v' Hi Hvw) as Q. rewrite O in Q. inversion Q as [p q (_ & Hk & _)|]; subst. exact Hk.
        - apply entries_In; [now apply good_NoDup|now apply good_NoDup| |].
          + intros y' w Hi. apply good_In in Hi. destruct Hi as ([y v] & Hi & O).
            destruct (entries_In_l _ _ _ _ _ He Hi) as (v' & Hi' & Hvw).
            pose proof (Hout y v v' Hi Hvw) as Q. rewrite O in Q. inversion Q as [p [q1 q2] (Hq & _ & Hq2) Q1 Q2|]; subst. cbn in *. subst q1.
            exists q2. split; [|assumption]. apply good_In. exists (y, v'). split; [assumption|]. congruence.
          + intros y' w Hi. apply good_In in Hi. destruct Hi as ([y v'] & Hi & O).
            destruct (entries_In_r _ _ _ _ _ He Hi) as (v & Hi' & Hvw).
            pose proof (Hout y v v' Hi' Hvw) as Q. rewrite O in Q. inversion Q as [[p1 p2] q (Hq & _ & Hq2) Q1 Q2|]; subst. cbn in *. subst p1.
            exists p2. apply good_In. exists (y, v). split; [assumption|]. congruence. }
      assert (entries alike_err (bad x d) (bad (branch x t None) d')) as Hb.
      { assert (forall y v e, In (y, v) d -> entry_out x (y, v) = Raise e -> caught_by_loop e = true) as Hcb.
        { intros y v e Hi O. destruct (caught_by_loop e) eqn:C; [reflexivity|].
          assert (existsb (crashes x) d = true) as X; [|congruence]. apply existsb_exists. exists (y, v). split; [assumption|].
          unfold crashes. now rewrite O, C. }
        apply entries_In; [now apply bad_NoDup|now apply bad_NoDup| |].
        - intros y n Hi. apply bad_In in Hi. destruct Hi as (v & e & Hi & O & ->).
          destruct (entries_In_l _ _ _ _ _ He Hi) as (v' & Hi' & Hvw).
          pose proof (Hout y v v' Hi Hvw) as Q. rewrite O in Q. inversion Q as [|p q Hpq Q1 Q2]; subst.
          exists (err_node q). split; [apply bad_In; eauto|]. apply err_node_same with (K := K); [assumption|]. eapply Hcb; eassumption.
        - intros y n Hi. apply bad_In in Hi. destruct Hi as (v' & e & Hi & O & ->).
          destruct (entries_In_r _ _ _ _ _ He Hi) as (v & Hi' & Hvw).
          pose proof (Hout y v v' Hi' Hvw) as Q. rewrite O in Q. inversion Q as [|p q Hpq Q1 Q2]; subst.
          exists (err_node p). apply bad_In; eauto. }
      destruct (bad x d) as [|p1 l1], (bad (branch x t None) d') as [|p2 l2].
      - constructor. now constructor.
      - apply entries_empty in Hb. destruct Hb as [Hb _]. now specialize (Hb eq_refl).
      - apply entries_empty in Hb. destruct Hb as [_ Hb]. now specialize (Hb eq_refl).
      - constructor. now constructor.
    Qed.
  End Dict.

  (** ** Polymorphic fields, unions *)
  Lemma poly_scan_same v w cs fb hits : alike v w -> alike_res eq (poly_scan E v cs fb hits) (poly_scan E w cs fb hits).
  Proof using HE.
    intros H. revert fb hits. induction cs as [|c cs IH]; intros fb hits; cbn; [now constructor|].
    destruct (mc_claim (e_class E c)) as [cl|] eqn:C; [|apply IH].
    eapply res_bind; [eapply bc_claim; [apply HE|exact C|exact H]|]. intros a b <-. apply IH.
  Qed.
  Lemma find_model_same p v w : blind_poly K p -> alike v w -> alike_res eq (find_model E p v) (find_model E p w).
  Proof using HE.
    intros Hp H. unfold find_model, blind_poly in *. destruct (po_claim p) as [cl|].
    - rewrite <- (Hp v w H). destruct (cl v); constructor; [reflexivity|apply py_same].
    - eapply res_bind; [now apply poly_scan_same|]. intros [fb hits] q <-.
      destruct hits as [|c [|c' hits]], fb; constructor; try reflexivity; apply py_same.
  Qed.
  Lemma poly_allowed_same p v w : alike v w -> poly_allowed E p v = poly_allowed E p w.
  Proof. intros [u H|l m F|l m F|d e H|c m n H1 H2 H3 H4]; reflexivity. Qed.
  Lemma poly_convert_same fc pre pre' p v w x t : fc_same K fc -> blind_poly K p -> alike v w -> alike (cx_trusted x) t ->
    alike_res alike (poly_convert E fc pre p v x) (poly_convert E fc pre' p w (branch x t None)).
  Proof using HE.
    intros Hfc Hp H Ht. unfold poly_convert. cbn [cx_validate branch].
    rewrite <- (alike_none _ _ _ H), <- (poly_allowed_same p _ _ H).
    assert (match v with VDict _ => true | _ => false end = match w with VDict _ => true | _ => false end) as <-.
    { destruct H as [u H|l m F|l m F|d e H|c m n H1 H2 H3 H4]; reflexivity. }
    destruct (is_none v); [constructor; now constructor|].
    destruct (negb (cx_validate x) && poly_allowed E p v); [now constructor|].
    destruct (negb (cx_validate x) && negb _); [constructor; constructor|].
    eapply res_bind; [now apply find_model_same|]. intros c c' <-. now apply model_new_same.
  Qed.
  Lemma union_resolve_same (cv cv' : fspec -> pyval -> res pyval) ms v w :
    Forall (blind_field K) ms -> (forall m, blind_field K m -> alike_res alike (cv m v) (cv' m w)) ->
    alike_res (fun p q => fst p = fst q /\ blind_field K (fst p) /\ alike (snd p) (snd q)) (union_resolve cv ms v) (union_resolve cv' ms w).
  Proof.
    intros F H. induction F as [|m ms Hm F IH]; cbn; [constructor; constructor|].
    destruct (H m Hm) as [a b Hab|a b Hab]; [constructor; auto|].
    destruct Hab as [es|s es|d e Q|d e p q Q Q'|a b Q Q']; try (constructor; now constructor); [exact IH|].
    destruct a, b; cbn in *; try tauto; constructor; now apply ax_crash.
  Qed.

  (** ** The converters *)
  Record conv_same (r : conv) : Prop := {
    cs_field : fc_same K (cv_field r);
    cs_convert : fc_same K (cv_convert r);
    cs_validate : fc_same K (cv_validate r);
    cs_pre : forall f v w, blind_field K f -> alike v w -> alike_res alike (cv_pre r f v) (cv_pre r f w) }.

  Lemma blind_validators f : blind_field K f -> Forall (blind_validator K) (fo_validators (fs_opts f)).
  Proof. intros [o l [_ Ho]|o ms [_ Ho]|o c [_ Ho]|o p [_ Ho]|o g [_ Ho]|o g ck [_ Ho]]; exact Ho. Qed.

  Lemma convert_step_same r : conv_same r -> fc_same K (convert_step E r).
  Proof using HE.
    intros [Hr Hc Hv Hp] f v w x t Hf H Ht. unfold convert_step.
    destruct Hf as [o l Ho Hl|o ms Ho Hms|o c Ho|o p Ho Hpo|o g Ho Hg|o g ck Ho Hk Hg]; cbn [fs_type].
    - now apply Hl.
    - eapply res_bind; [apply union_resolve_same; [exact Hms|]; intros m Hm; now apply Hc|].
      intros [m a] [m' b] (_ & _ & Hab). now constructor.
    - now apply model_convert_same.
    - now apply poly_convert_same.
    - now apply list_convert_same.
    - now apply dict_convert_same.
  Qed.
  Lemma step_same r : conv_same r -> conv_same (conv_step E r).
  Proof using HE.
    intros Hr. pose proof (convert_step_same r Hr) as Hcs. destruct Hr as [Hr Hc Hv Hp].
    constructor; cbn [conv_step cv_field cv_convert cv_validate cv_pre]; [|exact Hcs| |].
    - intros f v w x t Hf H Ht. unfold field_step.
      assert (check_required f w (branch x t None) = check_required f v x) as ->.
      { unfold check_required. cbn [cx_partial branch]. now rewrite (alike_nil _ _ _ H). }
      destruct (check_required f v x) as [e|] eqn:Q.
      + unfold check_required in Q. destruct (_ && _ && _); [|discriminate]. injection Q as <-. constructor. constructor.
      + rewrite <- (alike_nil _ _ _ H). destruct (is_nil v); [now constructor|]. cbn [cx_validate branch].
        destruct (cx_validate x); [now apply Hv|now apply Hc].
    - intros f v w x t Hf H Ht. unfold validate_step. cbn [cx_convert branch].
      assert (alike_res alike
        (rbind (if cx_convert x then cv_convert r f v x else if is_compound f then rbind (cv_convert r f v x) (fun _ => Ok v) else Ok v)
               (validators_result (fo_validators (fs_opts f))))
        (rbind (if cx_convert x then cv_convert r f w (branch x t None)
                else if is_compound f then rbind (cv_convert r f w (branch x t None)) (fun _ => Ok w) else Ok w)
               (validators_result (fo_validators (fs_opts f))))) as Hrest.
      { eapply res_bind with (R := alike).
        - destruct (cx_convert x); [now apply Hc|]. destruct (is_compound f); [|now constructor].
          eapply res_bind; [now apply Hc|]. intros. now constructor.
        - intros a b Hab. apply validators_result_same; [now apply blind_validators|assumption]. }
      destruct (fs_type f) as [l|ms|c|p|g|g ck] eqn:T; try exact Hrest.
      destruct Hf as [o l' Ho Hl|o ms' Ho Hms|o c Ho|o p Ho Hpo|o g Ho Hg|o g ck Ho Hk Hg]; cbn in T; try discriminate.
      injection T as <-.
      eapply res_bind; [apply union_resolve_same; [exact Hms|]; intros m Hm; now apply Hc|].
      intros [m a] [m' b] (Q & Hm & Hab). cbn in *. subst m'. now apply Hv.
    - intros f v w Hf H. unfold pre_step. destruct (fs_type f) as [l|ms|c|p|g|g ck]; try now constructor.
      pose proof (model_new_same K E HE (cv_field r) Hr (cv_pre r) (cv_pre r) c v w default_ctx (VDict [])) as Hn.
      specialize (Hn H). change (branch default_ctx (VDict []) None) with default_ctx in Hn.
      assert (alike (cx_trusted default_ctx) (VDict [])) as Ht by (apply al_dict, keyed_nil). specialize (Hn Ht).
      destruct H as [u H|l m F|l m F|d e H|c' m n H1 H2 H3 H4].
      + destruct u; cbn in H; try discriminate; try (constructor; constructor; reflexivity); constructor; constructor.
      + constructor; constructor.
      + constructor; constructor.
      + exact Hn.
      + constructor. now apply al_model.
  Qed.
  Lemma conv_at_same n : conv_same (conv_at E n).
  Proof using HE.
    induction n as [|n IH]; cbn [conv_at]; [|now apply step_same].
    constructor; intros; try (intros ? ? ? ? ? ? ? ?); constructor; apply ax_crash; exact I.
  Qed.

  (** ** The methods *)
  Context (r : conv) (Hr : conv_same r).
  Local Notation adata := (alike_data K).

  Lemma data_of c m n : adata m n <-> alike (VModel c m) (VModel c n).
  Proof.
    unfold alike_data. split.
    - intros (H1 & H2 & H3 & H4). now constructor.
    - intros H. inversion H; subst; [discriminate|tauto].
  Qed.
  Lemma set_unsafe_same m n : adata m n -> adata (md_set_unsafe m []) (md_set_unsafe n []).
  Proof. intros (H1 & H2 & H3 & H4). split; [|split; [|split]]; cbn; try assumption. apply keyed_nil. Qed.
  Lemma set_conv_same m n d e : adata m n -> keyed alike d e -> adata (md_set_converted m d) (md_set_converted n e).
  Proof. intros (H1 & H2 & H3 & H4) Hd. split; [|split; [|split]]; cbn; assumption. Qed.
  Lemma set_valid_same m n d e : adata m n -> keyed alike d e -> adata (md_set_valid m d) (md_set_valid n e).
  Proof.
    intros (H1 & H2 & H3 & H4) Hd. split; [|split; [|split]]; cbn; try assumption.
    destruct H4; constructor; assumption.
  Qed.
  Lemma kw_ctx_branch w t t' : kw_ctx w t' = branch (kw_ctx w t) t' None.
  Proof. reflexivity. Qed.

  Lemma convert_same c m n raw raw' td td' w : adata m n -> alike raw raw' -> alike td td' ->
    adata (fst (model__convert E r c m raw td w)) (fst (model__convert E r c n raw' td' w)) /\
    alike_res (keyed alike) (snd (model__convert E r c m raw td w)) (snd (model__convert E r c n raw' td' w)).
  Proof using HE Hr.
    intros Hm Hraw Htd. unfold model__convert. rewrite <- (alike_truthy _ _ _ Hraw).
    assert (alike_res (keyed alike) (if truthy raw then py_dict E raw else Ok (md_converted m))
                                    (if truthy raw then py_dict E raw' else Ok (md_converted n))) as Hd.
    { destruct (truthy raw); [now apply dict_same|]. constructor. apply Hm. }
    destruct Hd as [d0 d0' Hd|a b Hab]; [|split; [assumption|now constructor]].
    set (a0 := if truthy raw then NoAlias else AliasConverted).
    set (P := match md_unsafe m with [] => _ | _ => _ end).
    set (P' := match md_unsafe n with [] => _ | _ => _ end).
    assert (let '(m1, a1, d1, w1) := P in let '(m2, a2, d2, w2) := P' in
            adata m1 m2 /\ a1 = a2 /\ keyed alike d1 d2 /\ w1 = w2) as HP.
    { subst P P'. pose proof (proj1 Hm) as Hu. pose proof (entries_empty _ _ _ (keyed_entries _ _ _ _ Hu)) as He.
      destruct (md_unsafe m) as [|p l] eqn:U, (md_unsafe n) as [|p' l'] eqn:U'.
      - auto.
      - destruct He as [He _]. now specialize (He eq_refl).
      - destruct He as [_ He]. now specialize (He eq_refl).
      - split; [now apply set_unsafe_same|]. split; [reflexivity|]. split; [|reflexivity]. now apply keyed_dupdate. }
    clearbody P P'. destruct P as [[[m1 a1] d1] w1], P' as [[[m2 a2] d2] w2]. destruct HP as (Hm1 & <- & Hd1 & <-).
    assert (alike (if truthy td then td else VDict []) (if truthy td' then td' else VDict [])) as Ht.
    { rewrite <- (alike_truthy _ _ _ Htd). destruct (truthy td); [assumption|]. apply al_dict, keyed_nil. }
    set (t1 := if truthy td then td else VDict []) in *. set (t2 := if truthy td' then td' else VDict []) in *. clearbody t1 t2.
    rewrite (kw_ctx_branch w1 t1 t2).
    set (o := if kw_validate w then _ else _). set (o' := if kw_validate w then validate_fn _ _ _ (branch _ _ _) _ _ _ _ else _).
    assert (out_same K o o') as (Q1 & Q2 & Q3).
    { subst o o'. assert (alike (VModel c m1) (VModel c m2)) as Hv by now apply data_of.
      assert (alike (VDict d1) (VDict d2)) as Hdd by now constructor.
      destruct (kw_validate w); [apply validate_fn_same|apply import_loop_same]; try assumption; apply Hr. }
    clearbody o o'. cbn [fst snd]. split; [|exact Q3].
    destruct Q1 as [u H|l l' F|l l' F|d e H|c' m3 m4 H1 H2 H3 H4]; try assumption; [destruct u; try assumption; discriminate|].
    split; [|split; [|split]]; assumption.
  Qed.

  Definition step_out_same (p q : mdata pyval * option exn) : Prop :=
    adata (fst p) (fst q) /\ both alike_exn (snd p) (snd q).

  Lemma validate_body_same c m n w : adata m n -> step_out_same (model_validate_body E r c m w) (model_validate_body E r c n w).
  Proof using HE Hr.
    intros Hm. unfold model_validate_body.
    set (wv := KW _ _ _ _ _ _ _ _).
    assert (alike VNone VNone) as H0 by now constructor.
    assert (alike (VDict []) (VDict [])) as H1 by (apply al_dict, keyed_nil).
    destruct (convert_same c m n VNone VNone (VDict []) (VDict []) wv Hm H0 H1) as [Q1 Q2].
    destruct (model__convert E r c m VNone (VDict []) wv) as [m1 r1], (model__convert E r c n VNone (VDict []) wv) as [m2 r2].
    cbn [fst snd] in *. destruct Q2 as [d e Hd|a b Hab].
    - split; [now apply set_valid_same|constructor].
    - destruct Hab as [ms|s ms|d e H|d e p q H H'|a b H H']; try (split; [assumption|constructor; now constructor]).
      + split; cbn [fst snd]; [|constructor; now constructor]. apply set_valid_same; [assumption|].
        apply keyed_dupdate; [apply Q1|assumption].
      + destruct a, b; cbn in *; try tauto; (split; [assumption|constructor; now apply ax_crash]).
  Qed.
  Lemma validate_same c m n w : adata m n -> step_out_same (model_validate E r c m w) (model_validate E r c n w).
  Proof using HE Hr.
    intros Hm. unfold model_validate. pose proof (validate_body_same c m n w Hm) as [Q1 Q2].
    assert (step_out_same (let '(m1, oe) := model_validate_body E r c m w in (md_set_converted m1 [], oe))
                          (let '(m1, oe) := model_validate_body E r c n w in (md_set_converted m1 [], oe))) as Hrest.
    { destruct (model_validate_body E r c m w) as [m1 o1], (model_validate_body E r c n w) as [m2 o2].
      split; cbn [fst snd] in *; [apply set_conv_same; [assumption|apply keyed_nil]|assumption]. }
    pose proof (entries_empty _ _ _ (keyed_entries _ _ _ _ (proj1 (proj2 Hm)))) as He.
    destruct (md_converted m) as [|p l], (md_converted n) as [|p' l'].
    - destruct (kw_partial w); [split; [assumption|constructor]|assumption].
    - destruct He as [He _]. now specialize (He eq_refl).
    - destruct He as [_ He]. now specialize (He eq_refl).
    - assumption.
  Qed.
  Lemma init_same c raw raw' td td' w : alike raw raw' -> alike td td' ->
    alike_res adata (model_init E r c raw td w) (model_init E r c raw' td' w).
  Proof using HE Hr.
    intros Hraw Htd. unfold model_init.
    set (v := match td with VDict d => d | _ => [] end). set (v' := match td' with VDict d => d | _ => [] end).
    assert (keyed alike v v') as Hv.
    { subst v v'. destruct Htd as [u H|l l' F|l l' F|d e H|c' m3 m4 H1 H2 H3 H4]; try apply keyed_nil; [|assumption].
      destruct u; cbn in H; try discriminate; apply keyed_nil. }
    clearbody v v'.
    assert (adata (MD [] [] v None) (MD [] [] v' None)) as H0.
    { split; [|split; [|split]]; cbn; try apply keyed_nil; [assumption|constructor]. }
    destruct (convert_same c _ _ raw raw' td td' w H0 Hraw Htd) as [Q1 Q2].
    destruct (model__convert E r c (MD [] [] v None) raw td w) as [m1 r1],
             (model__convert E r c (MD [] [] v' None) raw' td' w) as [m2 r2]. cbn [fst snd] in *.
    destruct Q2 as [d e Hd|a b Hab]; [|now constructor].
    pose proof (set_conv_same _ _ _ _ Q1 Hd) as Hs. destruct (kw_validate w); [|now constructor].
    set (w' := KW _ _ _ _ _ _ _ _). destruct (validate_same c _ _ w' Hs) as [Q3 Q4].
    destruct (model_validate E r c (md_set_converted m1 d) w') as [m3 o3], (model_validate E r c (md_set_converted m2 e) w') as [m4 o4].
    cbn [fst snd] in *. destruct Q4; now constructor.
  Qed.
  Lemma import_data_same c m n raw raw' w : adata m n -> alike raw raw' ->
    step_out_same (model_import_data E r c m raw w) (model_import_data E r c n raw' w).
  Proof using HE Hr.
    intros Hm Hraw. unfold model_import_data.
    destruct (dict_same K E HE _ _ (proj1 (data_of c m n) Hm)) as [d e Hd|a b Hab]; [|split; [assumption|now constructor]].
    assert (alike (VDict d) (VDict e)) as Ht by now constructor.
    destruct (convert_same c m n raw raw' (VDict d) (VDict e) w Hm Hraw Ht) as [Q1 Q2].
    destruct (model__convert E r c m raw (VDict d) w) as [m1 r1], (model__convert E r c n raw' (VDict e) w) as [m2 r2].
    cbn [fst snd] in *. destruct Q2 as [d1 e1 Hd1|a b Hab]; [|split; [assumption|now constructor]].
    assert (adata (md_set_converted m1 (dupdate (md_converted m1) d1)) (md_set_converted m2 (dupdate (md_converted m2) e1))) as Hs.
    { apply set_conv_same; [assumption|]. apply keyed_dupdate; [apply Q1|assumption]. }
    destruct (kw_validate w); [now apply validate_same|split; [assumption|constructor]].
  Qed.
  Lemma setitem_same c m n x v w : adata m n -> alike v w -> K x ->
    step_out_same (model_setitem E r c m x v) (model_setitem E r c n x w).
  Proof using HE Hr.
    intros Hm H Hx. unfold model_setitem. destruct (dget x (mc_fields (e_class E c))) as [f|] eqn:G.
    - apply dget_In in G. rewrite (bc_setters _ _ (HE c) x f G).
      destruct (fd_get f); [split; [assumption|constructor; apply py_same]|].
      destruct (cs_pre r Hr (fd_spec f) v w (bc_fields _ _ (HE c) x f G) H) as [a b Hab|a b Hab].
      + split; [|constructor]. cbn [fst]. apply set_conv_same; [assumption|]. apply keyed_dset; try assumption. apply Hm.
      + split; [assumption|now constructor].
    - split; [assumption|constructor; apply py_same].
  Qed.
End Main.
