(** The order of the fields in a class: import and validation. *)
From Coq Require Import Permutation.
From Verif.Model Require Import Py Core Api.
From Verif.Spec Require Import ExportSpec PrimitiveSpec OrderSpec ReorderSpec.
From Verif.Proofs Require Import DictLemmas OrderFacts OrderMain ReorderFacts.

(** ** Validation of the class, in parts *)
Section Model.
  Context (vfs : list (key * mvalidator)) (mut : pyval) (d : list (key * pyval)).
  Definition fault (n : key) : option exn :=
    match dget n d with
    | Some v => match dget n vfs with Some vf => if is_undef v then None else snd (vf mut d v) | None => None end
    | None => None
    end.
  Definition verrs (fs : list (key * field)) : list (key * errnode) :=
    flat_map (fun p => match fault (fst p) with
                       | Some e => match mv_caught e with Some nd => [(sname_of (fst p) (fd_spec (snd p)), nd)] | None => [] end
                       | None => [] end) fs.
  Definition vbad (fs : list (key * field)) : list key :=
    flat_map (fun p => match fault (fst p) with Some e => match mv_caught e with Some _ => [fst p] | None => [] end | None => [] end) fs.
  Definition fatal (p : key * field) : bool :=
    match fault (fst p) with Some e => match mv_caught e with Some _ => false | None => true end | None => false end.

  Lemma vloop_spec (Hk : forall n vf v, In (n, vf) vfs -> fst (vf mut d v) = d) fs errs bad :
    if existsb fatal fs
    then exists e p, validate_model_loop vfs mut fs d errs bad = Raise e /\ In p fs /\ fault (fst p) = Some e /\ mv_caught e = None
    else validate_model_loop vfs mut fs d errs bad = Ok (d, dupdate errs (verrs fs), bad ++ vbad fs).
  Proof.
    revert errs bad. induction fs as [|[n f] fs IH]; intros errs bad; cbn [existsb validate_model_loop].
    { now rewrite app_nil_r. }
    unfold fatal at 1, verrs, vbad. cbn [fst snd flat_map].
    assert (forall e0 b0, validate_model_loop vfs mut ((n, f) :: fs) d e0 b0 =
      match fault n with
      | None => validate_model_loop vfs mut fs d e0 b0
      | Some e => match mv_caught e with
                  | Some nd => validate_model_loop vfs mut fs d (dset (sname_of n (fd_spec f)) nd e0) (b0 ++ [n])
                  | None => Raise e end end) as Hstep.
    { intros e0 b0. cbn [validate_model_loop]. unfold fault. destruct (dget n d) as [v|]; [|reflexivity].
      destruct (dget n vfs) as [vf|] eqn:G; [|reflexivity]. destruct (is_undef v); [reflexivity|].
      pose proof (Hk n vf v (dget_In _ _ _ G)) as Q. destruct (vf mut d v) as [d1 oe]. cbn [fst snd] in *. subst d1.
      destruct oe as [e|]; reflexivity. }
    cbn [validate_model_loop] in Hstep. rewrite Hstep. clear Hstep.
    destruct (fault n) as [e|] eqn:Q; cbn [orb].
    - destruct (mv_caught e) as [nd|] eqn:C; cbn [orb].
      + specialize (IH (dset (sname_of n (fd_spec f)) nd errs) (bad ++ [n])). destruct (existsb fatal fs).
        * destruct IH as (e' & p & H1 & H2 & H3). exists e', p. split; [exact H1|]. split; [now right|exact H3].
        * rewrite IH, <- app_assoc. reflexivity.
      + exists e, (n, f). split; [reflexivity|]. split; [now left|]. cbn. auto.
    - specialize (IH errs bad). destruct (existsb fatal fs); [|exact IH].
      destruct IH as (e' & p & H1 & H2 & H3). exists e', p. split; [exact H1|]. split; [now right|exact H3].
  Qed.
  Lemma verrs_In fs s nd : In (s, nd) (verrs fs) <->
    exists n f e, In (n, f) fs /\ fault n = Some e /\ mv_caught e = Some nd /\ s = sname_of n (fd_spec f).
  Proof.
    unfold verrs. rewrite in_flat_map. split.
    - intros ([n f] & Hi & H). cbn in H. destruct (fault n) as [e|] eqn:Q; [|destruct H]. destruct (mv_caught e) as [nd'|] eqn:C; [|destruct H].
      destruct H as [H|[]]. injection H as <- <-. exists n, f, e. auto.
    - intros (n & f & e & Hi & Q & C & ->). exists (n, f). split; [assumption|]. cbn. rewrite Q, C. now left.
  Qed.
  Lemma vbad_In fs n : In n (vbad fs) <-> exists f e nd, In (n, f) fs /\ fault n = Some e /\ mv_caught e = Some nd.
  Proof.
    unfold vbad. rewrite in_flat_map. split.
    - intros ([n0 f] & Hi & H). cbn in H. destruct (fault n0) as [e|] eqn:Q; [|destruct H]. destruct (mv_caught e) as [nd'|] eqn:C; [|destruct H].
      destruct H as [<-|[]]. exists f, e, nd'. auto.
    - intros (f & e & nd & Hi & Q & C). exists (n, f). split; [assumption|]. cbn. rewrite Q, C. now left.
  Qed.
  Lemma verrs_NoDup fs : NoDup (map (fun p => sname_of (fst p) (fd_spec (snd p))) fs) -> NoDup (dkeys (verrs fs)).
  Proof.
    unfold dkeys. induction fs as [|[n f] fs IH]; cbn; [constructor|]. intros N. inversion N as [|? ? N1 N2]; subst.
    destruct (fault n) as [e|]; [|apply IH, N2]. destruct (mv_caught e) as [nd|]; [|apply IH, N2]. cbn. constructor; [|apply IH, N2].
    intros Hi. apply in_map_iff in Hi. destruct Hi as ([s nd'] & Q & Hi). cbn in Q. subst s.
    change (In (sname_of n (fd_spec f), nd') (verrs fs)) in Hi. apply verrs_In in Hi. destruct Hi as (n0 & f0 & e0 & Hi & _ & _ & Q).
    apply N1. rewrite Q. apply (in_map (fun p => sname_of (fst p) (fd_spec (snd p)))) in Hi. exact Hi.
  Qed.
  Lemma vbad_NoDup fs : NoDup (dkeys fs) -> NoDup (vbad fs).
  Proof.
    unfold dkeys. induction fs as [|[n f] fs IH]; cbn; [constructor|]. intros N. inversion N as [|? ? N1 N2]; subst.
    destruct (fault n) as [e|]; [|apply IH, N2]. destruct (mv_caught e) as [nd|]; [|apply IH, N2]. cbn. constructor; [|apply IH, N2].
    intros Hi. change (In n (vbad fs)) in Hi. apply vbad_In in Hi. destruct Hi as (f0 & e0 & nd0 & Hi & _).
    apply N1. apply (in_map fst) in Hi. exact Hi.
  Qed.
End Model.
Lemma pop_all_spec bad (d : list (key * pyval)) : NoDup bad -> NoDup (dkeys d) -> (forall n, In n bad -> dmem n d = true) ->
  exists d', pop_all bad d = Ok d' /\ NoDup (dkeys d') /\ forall y, dget y d' = if kmem y bad then None else dget y d.
Proof.
  revert d. induction bad as [|n bad IH]; intros d N Nd H; cbn; [eauto|].
  inversion N as [|? ? N1 N2]; subst. rewrite (H n (or_introl eq_refl)).
  destruct (IH (ddel n d) N2 (NoDup_ddel _ _ Nd)) as (d' & -> & Nd' & G).
  { intros y Hy. unfold dmem. rewrite dget_ddel by assumption. destruct (key_eqb y n) eqn:Q; [apply key_eqb_eq in Q; subst; contradiction|].
    apply (H y (or_intror Hy)). }
  exists d'. split; [reflexivity|split; [assumption|]]. intros y. rewrite G, dget_ddel by assumption. unfold kmem. cbn.
  destruct (key_eqb y n); cbn; [|reflexivity]. now destruct (existsb _ bad).
Qed.

Section Main.
  Context (K : key -> Prop).
  Local Notation alike := (alike K).
  Local Notation keyed := (keyed K).
  Local Notation alike_exn := (alike_exn K).
  Local Notation alike_res := (alike_res K).
  Context (E E' : env) (HE : blind_env K E) (HR : reordered E E') (HS : steady_env E).

  Lemma public_right c : NoDup (public_names (e_class E' c)).
  Proof using HR HS. eapply Permutation_NoDup; [apply Permutation_map, (ro_fields _ _ HR c)|apply HS]. Qed.
  Lemma setters_right c n f : In (n, f) (mc_fields (e_class E' c)) -> fd_set f = None.
  Proof using HE HR. intros H. apply (fields_left E E' HR) in H. eapply bc_setters; [apply HE|exact H]. Qed.
  Lemma crash_right a b : alike_exn a b -> crash a -> crash b.
  Proof. intros []; cbn; tauto. Qed.

  Section Loop.
    Context (fc fc' : fspec -> pyval -> ictx -> res pyval) (Hfc : fc_same K E fc fc').

    Lemma import_fields_same x t got c v w s s' : fit_input E c v -> alike (cx_trusted x) t -> cx_mapping x = no_mapping ->
      alike v w -> state_same K s s' ->
      alike_res (state_same K) (import_fields E fc x got v (mc_fields (e_class E c)) s)
                               (import_fields E' fc' (branch x t None) got w (mc_fields (e_class E' c)) s').
    Proof using HE HR HS Hfc.
      intros Hfit Ht Hmap H. destruct s as [d e], s' as [d' e']. intros [Hd He]. cbn [fst snd] in *.
      set (there := fun n => dmem n d).
      assert (forall n f, In (n, f) (mc_fields (e_class E c)) ->
        alike_res (out_round K) (round E fc x got v n f (there n)) (round E' fc' (branch x t None) got w n f (there n))) as Hrd.
      { intros n f Hi. eapply round_same; eassumption. }
      pose proof (import_fields_rounds E fc x got v there (mc_fields (e_class E c)) d e (bc_setters _ _ (HE c)) (bc_names _ _ (HE c))
        (fun n _ => eq_refl)) as S1.
      pose proof (import_fields_rounds E' fc' (branch x t None) got w there (mc_fields (e_class E' c)) d' e' (setters_right c) (names_right K E E' HE HR c)
        (fun n _ => eq_sym (entries_mem _ _ _ n (keyed_entries _ _ _ _ Hd)))) as S2.
      set (F := fails E fc x got v there) in *. set (F' := fails E' fc' (branch x t None) got w there) in *.
      assert (existsb F (mc_fields (e_class E c)) = existsb F' (mc_fields (e_class E' c))) as Q.
      { apply eq_true_iff_eq. rewrite !existsb_exists. subst F F'. unfold fails. split; intros ([n f] & Hi & Hf); exists (n, f); cbn [fst snd] in *.
        - split; [now apply (fields_left E E' HR)|]. now destruct (Hrd n f Hi).
        - apply (fields_left E E' HR) in Hi. split; [assumption|]. now destruct (Hrd n f Hi). }
      rewrite <- Q in S2. clear Q. destruct (existsb F (mc_fields (e_class E c))).
      { destruct S1 as (e1 & [n1 f1] & -> & H1 & Q1), S2 as (e2 & [n2 f2] & -> & H2 & Q2). cbn [fst snd] in *. constructor.
        apply (fields_left E E' HR) in H2. pose proof (Hrd n2 f2 H2) as R. rewrite Q2 in R. inversion R as [|a b Hab Qa Qb]; subst.
        apply ax_crash; [eapply round_calm; [exact HS|exact Q1]|]. eapply crash_right; [exact Hab|].
        eapply round_calm; [exact HS|symmetry; exact Qa]. }
      rewrite S1, S2. constructor. split; cbn [fst snd].
      - apply keyed_dupdate; [assumption|]. split.
        + intros y Hy. unfold dkeys in Hy. apply in_map_iff in Hy. destruct Hy as ([n u] & <- & Hi). apply gained_In in Hi.
          destruct Hi as (f & r & Hi & _). eapply bc_keys; [apply HE|exact Hi].
        + apply entries_In; [apply gained_NoDup, HE|apply gained_NoDup; eapply names_right; eassumption| |].
          * intros n u Hi. apply gained_In in Hi. destruct Hi as (f & r & Hi & Q). pose proof (Hrd n f Hi) as R. rewrite Q in R.
            inversion R as [[o1 r1] [o2 r2] [R1 R2] Q1 Q2|]; subst. cbn in R1. inversion R1 as [|a b Hab]; subst.
            exists b. split; [|assumption]. apply gained_In. exists f, r2. split; [now apply (fields_left E E' HR)|congruence].
          * intros n u Hi. apply gained_In in Hi. destruct Hi as (f & r & Hi & Q). apply (fields_left E E' HR) in Hi.
            pose proof (Hrd n f Hi) as R. rewrite Q in R.
            inversion R as [[o1 r1] [o2 r2] [R1 R2] Q1 Q2|]; subst. cbn in R1. inversion R1 as [|a b Hab]; subst.
            exists a. apply gained_In. exists f, r1. split; [assumption|congruence].
      - apply entries_dupdate; [assumption|].
        apply entries_In; [apply missed_NoDup, HS|apply missed_NoDup, public_right| |].
        + intros s u Hi. apply missed_In in Hi. destruct Hi as (n & f & o & Hi & Q & ->). pose proof (Hrd n f Hi) as R. rewrite Q in R.
          inversion R as [[o1 r1] [o2 r2] [R1 R2] Q1 Q2|]; subst. cbn in R2. inversion R2 as [|a b Hab]; subst.
          exists b. split; [|assumption]. apply missed_In. exists n, f, o2. split; [now apply (fields_left E E' HR)|]. split; [congruence|reflexivity].
        + intros s u Hi. apply missed_In in Hi. destruct Hi as (n & f & o & Hi & Q & ->). apply (fields_left E E' HR) in Hi.
          pose proof (Hrd n f Hi) as R. rewrite Q in R.
          inversion R as [[o1 r1] [o2 r2] [R1 R2] Q1 Q2|]; subst. cbn in R2. inversion R2 as [|a b Hab]; subst.
          exists a. apply missed_In. exists n, f, o1. split; [assumption|]. split; [congruence|reflexivity].
    Qed.

    Lemma mutate_same pre pre' x t a c mut mut' raw raw' : alike mut mut' -> alike raw raw' ->
      fit_input E c mut -> fit_input E c raw ->
      let '(m1, r1, e1) := mutate E fc pre x a (mc_fields (e_class E c)) mut raw in
      let '(m2, r2, e2) := mutate E' fc' pre' (branch x t None) a (mc_fields (e_class E' c)) mut' raw' in
      alike m1 m2 /\ alike r1 r2 /\ fit_input E c r1 /\ alike_res (entries alike_err) e1 e2.
    Proof using HE HR HS.
      intros Hm Hr Fm Fr. unfold mutate. rewrite (mutate_fields_none E) by apply HE. rewrite (mutate_fields_none E') by apply setters_right.
      destruct Hr as [u H|l m F|l m F|d e H|c' m n H1 H2 H3 H4].
      - destruct u; cbn in H; try discriminate; (split; [assumption|split; [now constructor|split; [exact Fr|constructor; apply py_same]]]).
      - split; [assumption|split; [now constructor|split; [exact Fr|constructor; apply py_same]]].
      - split; [assumption|split; [now constructor|split; [exact Fr|constructor; apply py_same]]].
      - pose proof (items_fit E HS c mut) as Hi.
        destruct (dict_same K E E' HE HR HS mut mut' Hm) as [i j Hij|p q Hpq].
        + pose proof (keyed_dupdate _ _ _ _ _ _ H Hij) as Hu.
          split; [|split; [now constructor|split; [|constructor; apply entries_nil]]].
          * destruct a; [assumption|now apply set_converted_same|now constructor].
          * cbn. apply fit_update; [exact Fr|]. now apply Hi.
        + split; [assumption|split; [now constructor|split; [exact Fr|now constructor]]].
      - split; [assumption|split; [now constructor|split; [exact Fr|constructor; apply py_same]]].
    Qed.

    Lemma input_keys_same c mp y : In y (all_input_keys (mc_fields (e_class E c)) mp) <-> In y (all_input_keys (mc_fields (e_class E' c)) mp).
    Proof using HR.
      unfold all_input_keys, valid_input_keys. rewrite !in_app_iff, !in_flat_map.
      split; (intros [(p & Hp & Hy)|Hy]; [left; exists p; split; [|exact Hy]|now right]); destruct p; now apply (fields_left E E' HR).
    Qed.
    Lemma rogues_same x t c v w e e' : alike v w -> entries alike_err e e' ->
      alike_res (entries alike_err) (rogues E x (mc_fields (e_class E c)) v e) (rogues E' (branch x t None) (mc_fields (e_class E' c)) w e').
    Proof using HE HR.
      intros H He. unfold rogues. cbn [cx_strict cx_mapping branch]. destruct (cx_strict x); [|now constructor].
      eapply res_bind; [eapply keys_same; eassumption|]. intros l l' (N1 & N2 & Hl). constructor.
      split; [apply fold_rogue_NoDup, He|split; [apply fold_rogue_NoDup, He|]]. intros y. rewrite !fold_rogue_get.
      set (p := fun y => negb (kmem y (all_input_keys (mc_fields (e_class E c)) (cx_mapping x)))).
      set (p' := fun y => negb (kmem y (all_input_keys (mc_fields (e_class E' c)) (cx_mapping x)))).
      assert (kmem y (filter p l) = kmem y (filter p' l')) as ->.
      { apply eq_true_iff_eq. rewrite !kmem_In, !filter_In, Hl.
        assert (p y = p' y) as ->; [|tauto]. subst p p'. cbn. f_equal. apply eq_true_iff_eq. rewrite !kmem_In. apply input_keys_same. }
      destruct (kmem y (filter p' l')); [constructor; constructor|apply entries_get, He].
    Qed.

    Lemma import_loop_same pre pre' x t c a mut mut' raw raw' : alike (cx_trusted x) t -> cx_mapping x = no_mapping ->
      alike mut mut' -> alike raw raw' -> fit_input E c mut -> fit_input E c raw ->
      out_same K (import_loop E fc pre x (mc_fields (e_class E c)) mut a raw)
                 (import_loop E' fc' pre' (branch x t None) (mc_fields (e_class E' c)) mut' a raw').
    Proof using HE HR HS Hfc.
      intros Ht Hmap Hm Hr Fm Fr. unfold import_loop. cbn [cx_trusted cx_validate branch].
      rewrite <- (alike_truthy _ _ _ Ht), <- (alike_none _ _ _ Hr).
      assert (alike_res (keyed alike) (if truthy (cx_trusted x) then py_dict E (cx_trusted x) else Ok [])
                (if truthy (cx_trusted x) then py_dict E' t else Ok [])) as Hd.
      { destruct (truthy (cx_trusted x)); [now apply dict_same|constructor; apply keyed_nil]. }
      destruct Hd as [d d' Hd|p q Hpq]; [|split; [assumption|split; [assumption|now constructor]]].
      set (got := negb (is_none raw)).
      set (M := if got && cx_validate x then _ else (mut, raw, Ok [])).
      set (M' := if got && cx_validate x then _ else (mut', raw', Ok [])).
      assert (let '(m1, r1, e1) := M in let '(m2, r2, e2) := M' in
              alike m1 m2 /\ alike r1 r2 /\ fit_input E c r1 /\ alike_res (entries alike_err) e1 e2) as HM.
      { subst M M'. destruct (got && cx_validate x); [now apply mutate_same|].
        split; [assumption|split; [assumption|split; [assumption|constructor; apply entries_nil]]]. }
      clearbody M M'. destruct M as [[m1 r1] e1], M' as [[m2 r2] e2]. destruct HM as (Hm1 & Hr1 & Fr1 & He1).
      split; [assumption|split; [assumption|]]. cbn [lo_res].
      eapply res_bind; [exact He1|]. intros a0 b0 H0.
      eapply res_bind with (R := entries alike_err).
      { destruct got; [now apply rogues_same|now constructor]. }
      intros a1 b1 H1. eapply res_bind; [apply import_fields_same; [exact Fr1|exact Ht|exact Hmap|exact Hr1|]|].
      { split; [exact Hd|exact H1]. }
      intros [d1 ee1] [d2 ee2] [H2 H3]. cbn [fst snd] in *. rewrite (copy_settable_none E) by apply HE.
      rewrite (copy_settable_none E') by apply setters_right.
      assert (keyed alike (if cx_validate x then d1 else d1) (if cx_validate x then d2 else d2)) as H2' by now destruct (cx_validate x).
      destruct ee1 as [|p1 ee1], ee2 as [|p2 ee2].
      - now constructor.
      - apply entries_empty in H3. destruct H3 as [H3 _]. now specialize (H3 eq_refl).
      - apply entries_empty in H3. destruct H3 as [_ H3]. now specialize (H3 eq_refl).
      - constructor. now constructor.
    Qed.

    (** ** Validation of the class *)
    Lemma fault_same c mut mut' d d' n : alike mut mut' -> keyed alike d d' ->
      both alike_exn (fault (mc_validators (e_class E c)) mut d n) (fault (mc_validators (e_class E c)) mut' d' n).
    Proof using HE.
      intros Hm Hd. unfold fault. destruct (entries_get _ _ _ n (keyed_entries _ _ _ _ Hd)) as [|v w Hvw]; [constructor|].
      destruct (dget n (mc_validators (e_class E c))) as [vf|] eqn:G; [|constructor].
      rewrite <- (alike_undef _ _ _ Hvw). destruct (is_undef v); [constructor|].
      apply (bc_validators _ _ (HE c) n vf (dget_In _ _ _ G) mut mut' d d' v w Hm Hd Hvw).
    Qed.
    Lemma validate_model_same c mut mut' d d' : alike mut mut' -> keyed alike d d' ->
      alike_res (state_same K) (validate_model (mc_validators (e_class E c)) mut (mc_fields (e_class E c)) d)
                               (validate_model (mc_validators (e_class E' c)) mut' (mc_fields (e_class E' c)) d').
    Proof using HE HR HS.
      intros Hm Hd. rewrite <- (ro_validators _ _ HR c). set (vfs := mc_validators (e_class E c)). unfold validate_model.
      pose proof (fun n => fault_same c mut mut' d d' n Hm Hd) as Hft. fold vfs in Hft.
      assert (forall m1 d1 n vf v, In (n, vf) vfs -> fst (vf m1 d1 v) = d1) as Hk.
      { intros m1 d1 n vf v Hi. now apply (sc_validators _ (HS c) n vf m1 d1 v Hi). }
      assert (forall n e, fault vfs mut d n = Some e -> mv_caught e = None -> crash e) as Hcr.
      { intros n e. unfold fault. destruct (dget n d) as [v|]; [|discriminate]. destruct (dget n vfs) as [vf|] eqn:G; [|discriminate].
        destruct (is_undef v); [discriminate|]. intros Q C.
        pose proof (proj2 (sc_validators _ (HS c) n vf mut d v (dget_In _ _ _ G))) as X. rewrite Q in X.
        destruct e as [ms|s ms|d0|d0 p|pe|]; cbn in *; try discriminate; try exact Logic.I. now specialize (X d0). }
      pose proof (vloop_spec vfs mut d (Hk mut d) (mc_fields (e_class E c)) [] []) as S1.
      pose proof (vloop_spec vfs mut' d' (Hk mut' d') (mc_fields (e_class E' c)) [] []) as S2.
      set (F := fatal vfs mut d) in *. set (F' := fatal vfs mut' d') in *.
      assert (existsb F (mc_fields (e_class E c)) = existsb F' (mc_fields (e_class E' c))) as Q.
      { assert (forall p, F p = F' p) as QF.
        { intros p. subst F F'. unfold fatal. destruct (Hft (fst p)) as [|a b Hab]; [reflexivity|]. now destruct (mv_caught_same _ _ _ Hab). }
        apply eq_true_iff_eq. rewrite !existsb_exists. split; intros ([n f] & Hi & Hf); exists (n, f); (split; [now apply (fields_left E E' HR)|]);
          [now rewrite <- QF|now rewrite QF]. }
      rewrite <- Q in S2. clear Q. destruct (existsb F (mc_fields (e_class E c))).
      { destruct S1 as (e1 & p1 & -> & H1 & Q1 & C1), S2 as (e2 & p2 & -> & H2 & Q2 & C2). cbn [rbind]. constructor.
        apply ax_crash; [eapply Hcr; eassumption|]. pose proof (Hft (fst p2)) as R. rewrite Q2 in R. inversion R as [|a b Hab Qa Qb]; subst.
        eapply crash_right; [exact Hab|]. eapply Hcr; [symmetry; exact Qa|]. pose proof (mv_caught_same _ _ _ Hab) as M. rewrite C2 in M.
        now inversion M. }
      rewrite S1, S2. cbn [rbind app].
      assert (forall n, In n (vbad vfs mut d (mc_fields (e_class E c))) <-> In n (vbad vfs mut' d' (mc_fields (e_class E' c)))) as Hbad.
      { intros n. rewrite !vbad_In. split; intros (f & e & nd & Hi & Q & C); pose proof (Hft n) as R; rewrite Q in R; inversion R as [|a b Hab Qa Qb]; subst;
          pose proof (mv_caught_same _ _ _ Hab) as M; rewrite C in M; inversion M; subst; exists f; eexists; eexists;
          (split; [now apply (fields_left E E' HR)|split; [reflexivity|symmetry; eassumption]]). }
      assert (forall m1 d1 n fs, In n (vbad vfs m1 d1 fs) -> dmem n d1 = true) as Hin.
      { intros m1 d1 n fs Hi. apply vbad_In in Hi. destruct Hi as (f & e & nd & _ & Q & _). unfold fault in Q. unfold dmem.
        now destruct (dget n d1). }
      destruct (pop_all_spec (vbad vfs mut d (mc_fields (e_class E c))) d) as (p1 & -> & N1 & G1);
        [apply vbad_NoDup, HE|apply Hd|intros n; apply Hin|].
      destruct (pop_all_spec (vbad vfs mut' d' (mc_fields (e_class E' c))) d') as (p2 & -> & N2 & G2);
        [apply vbad_NoDup; eapply names_right; eassumption|apply Hd|intros n; apply Hin|].
      cbn [rbind]. constructor. split; cbn [fst snd].
      - assert (entries alike p1 p2) as He.
        { split; [assumption|split; [assumption|]]. intros y. rewrite G1, G2.
          assert (kmem y (vbad vfs mut d (mc_fields (e_class E c))) = kmem y (vbad vfs mut' d' (mc_fields (e_class E' c)))) as ->.
          { apply eq_true_iff_eq. rewrite !kmem_In. apply Hbad. }
          destruct (kmem y _); [constructor|apply entries_get, Hd]. }
        split; [|exact He]. intros y Hy. apply (proj1 Hd). apply dmem_In in Hy. apply dmem_In. unfold dmem in *. rewrite G1 in Hy.
        destruct (kmem y _); [discriminate|assumption].
      - rewrite !dupdate_nil_l; [|apply verrs_NoDup, public_right|apply verrs_NoDup, HS].
        apply entries_In; [apply verrs_NoDup, HS|apply verrs_NoDup, public_right| |].
        + intros s nd Hi. apply verrs_In in Hi. destruct Hi as (n & f & e & Hi & Q & C & ->). pose proof (Hft n) as R. rewrite Q in R.
          inversion R as [|a b Hab Qa Qb]; subst. pose proof (mv_caught_same _ _ _ Hab) as M. rewrite C in M. inversion M as [|x1 x2 Hx Qx Qy]; subst.
          exists x2. split; [|assumption]. apply verrs_In. exists n, f, b. split; [now apply (fields_left E E' HR)|]. auto.
        + intros s nd Hi. apply verrs_In in Hi. destruct Hi as (n & f & e & Hi & Q & C & ->). pose proof (Hft n) as R. rewrite Q in R.
          inversion R as [|a b Hab Qa Qb]; subst. pose proof (mv_caught_same _ _ _ Hab) as M. rewrite C in M. inversion M as [|x1 x2 Hx Qx Qy]; subst.
          exists x1. apply verrs_In. exists n, f, a. split; [now apply (fields_left E E' HR)|]. auto.
    Qed.
    Lemma validate_fn_same pre pre' x t c a mut mut' raw raw' : alike (cx_trusted x) t -> cx_mapping x = no_mapping ->
      alike mut mut' -> alike raw raw' -> fit_input E c mut -> fit_input E c raw ->
      out_same K (validate_fn E fc pre x (e_class E c) mut a raw) (validate_fn E' fc' pre' (branch x t None) (e_class E' c) mut' a raw').
    Proof using HE HR HS Hfc.
      intros Ht Hmap Hm Hr Fm Fr. unfold validate_fn.
      destruct (import_loop_same pre pre' x t c a mut mut' raw raw' Ht Hmap Hm Hr Fm Fr) as (H1 & H2 & H3).
      set (o := import_loop E _ pre _ _ _ _ _) in *. set (o' := import_loop E' _ pre' _ _ _ _ _) in *. clearbody o o'.
      split; [assumption|split; [assumption|]]. cbn [lo_res].
      assert (forall e e' d d', entries alike_err e e' -> keyed alike d d' -> alike_res (keyed alike)
        (rbind (validate_model (mc_validators (e_class E c)) (lo_mut o) (mc_fields (e_class E c)) d) (fun '(d0, e0) =>
           match dupdate e e0 with [] => Ok d0 | errs' => Raise (XData errs' d0) end))
        (rbind (validate_model (mc_validators (e_class E' c)) (lo_mut o') (mc_fields (e_class E' c)) d') (fun '(d0, e0) =>
           match dupdate e' e0 with [] => Ok d0 | errs' => Raise (XData errs' d0) end))) as Hfin.
      { intros e e' d d' He Hd. eapply res_bind; [now apply validate_model_same|].
        intros [d1 e1] [d2 e2] [Q1 Q2]. cbn [fst snd] in *. pose proof (entries_dupdate _ _ _ _ _ He Q2) as Hu.
        destruct (dupdate e e1) as [|p1 l1], (dupdate e' e2) as [|p2 l2].
        - now constructor.
        - apply entries_empty in Hu. destruct Hu as [Hu _]. now specialize (Hu eq_refl).
        - apply entries_empty in Hu. destruct Hu as [_ Hu]. now specialize (Hu eq_refl).
        - constructor. now constructor. }
      destruct H3 as [d d' Hd|p q Hpq]; [apply Hfin; [apply entries_nil|assumption]|].
      destruct Hpq as [ms|s ms|d e H|d e p q H H'|p q H H']; try (constructor; now constructor).
      - now apply Hfin.
      - destruct p, q; cbn in *; try tauto; constructor; now apply ax_crash.
    Qed.

    (** ** Compound types *)
    Lemma fit_instance o c c' m : fit E (FS o (TModel c)) (VModel c' m) -> fit_input E c' (VModel c' m).
    Proof.
      intros H. inversion H; subst; [now destruct (free_model c' m)|]. cbn. intros L HL n v n' f. match goal with X : _ |- _ => now apply X end.
    Qed.
    Lemma fit_dict_of o c d : fit E (FS o (TModel c)) (VDict d) -> fit_input E c (VDict d).
    Proof.
      intros H. inversion H; subst; [now apply free_layer|]. cbn. intros n v n' f. match goal with X : _ |- _ => now apply X end.
    Qed.
    Lemma fit_any o p v c : fit E (FS o (TPoly p)) v -> fit_input E c v.
    Proof.
      intros H. inversion H; subst.
      - destruct v; try exact Logic.I; [now apply free_layer|]. now destruct (free_model c0 m).
      - cbn. intros n v n' f. match goal with X : _ |- _ => now apply X end.
      - cbn. intros L HL n v n' f. match goal with X : _ |- _ => now apply X end.
    Qed.
    Lemma fit_nothing c : fit_input E c (VModel c md_empty).
    Proof. cbn. intros L [<-|[<-|[<-|[]]]] n v n' f []. Qed.

    Lemma model_new_same pre pre' c v w x t : alike v w -> fit_input E c v -> alike (cx_trusted x) t -> cx_mapping x = no_mapping ->
      alike_res alike (model_new E fc pre c v x) (model_new E' fc' pre' c w (branch x t None)).
    Proof using HE HR HS Hfc.
      intros H Fv Ht Hmap. unfold model_new. cbn [cx_validate branch]. rewrite <- (alike_truthy _ _ _ H).
      eapply res_bind with (R := fun d d' => keyed alike d d' /\ fit_layer E c d).
      { destruct (truthy v); [|constructor; split; [apply keyed_nil|intros n u n' f []]].
        pose proof (items_fit E HS c v) as Hi.
        destruct (dict_same K E E' HE HR HS v w H) as [d d' Hd|p q Hpq]; [|now constructor]. constructor. split; [assumption|now apply Hi]. }
      intros d d' [Hd Fd]. assert (alike (VDict d) (VDict d')) as Hd' by now constructor.
      set (a := if truthy v then NoAlias else AliasConverted).
      set (o := if cx_validate x then validate_fn E fc pre x _ _ _ _ else _).
      set (o' := if cx_validate x then validate_fn E' fc' pre' _ _ _ _ _ else _).
      assert (out_same K o o') as (H1 & H2 & H3).
      { subst o o'. destruct (cx_validate x); [apply validate_fn_same|apply import_loop_same]; try assumption;
          (apply empty_same || apply fit_nothing). }
      clearbody o o'. eapply res_bind; [exact H3|]. intros d1 d2 H4. constructor. now apply set_converted_same.
    Qed.
    Lemma model_class_convert_same pre pre' c v w x t : alike v w -> fit_input E c v -> alike (cx_trusted x) t -> cx_mapping x = no_mapping ->
      alike_res alike (model_class_convert E fc pre c v x) (model_class_convert E' fc' pre' c w (branch x t None)).
    Proof using HE HR HS Hfc.
      intros H Fv Ht Hmap. unfold model_class_convert.
      destruct (import_loop_same pre pre' x t c AliasSelf v w v w Ht Hmap H H Fv Fv) as (_ & _ & H3).
      eapply res_bind; [exact H3|]. intros d d' Hd. constructor. now constructor.
    Qed.
    Lemma model_convert_same pre pre' o c v w x t : alike v w -> fit E (FS o (TModel c)) v -> alike (cx_trusted x) t -> cx_mapping x = no_mapping ->
      alike_res alike (model_convert E fc pre c v x) (model_convert E' fc' pre' c w (branch x t None)).
    Proof using HE HR HS Hfc.
      intros H Fv Ht Hmap. unfold model_convert. cbn [cx_convert cx_oo branch].
      pose proof (fun d F => model_new_same pre pre' d v w x t H F Ht Hmap) as Hn.
      pose proof (fun d F => model_class_convert_same pre pre' d v w x t H F Ht Hmap) as Hc.
      destruct H as [u H|l m F|l m F|d e H|c' m n H1 H2 H3 H4]; try (constructor; now constructor).
      - destruct u; cbn in H; try discriminate; constructor; constructor.
      - apply fit_dict_of in Fv. destruct (cx_convert x && cx_oo x); auto.
      - apply fit_instance in Fv. rewrite <- (ro_issub _ _ HR). destruct (e_issub E c' c); [|constructor; constructor].
        destruct (cx_convert x && cx_oo x); auto.
    Qed.

    Lemma list_elems_same o g v w : alike v w -> fit E (FS o (TList g)) v ->
      both (fun l m => Forall2 alike l m /\ forall u, In u l -> fit E g u) (list_elems E v) (list_elems E' w).
    Proof.
      intros H Fv. destruct H as [u H|l m F|l m F|d e H|c m n H1 H2 H3 H4]; cbn; try constructor.
      - destruct u; cbn in H; try discriminate; constructor. split.
        + clear. induction s; constructor; [now constructor|assumption].
        + intros v Hv. apply in_map_iff in Hv. destruct Hv as (y & <- & _). now apply fit_free, free_atom.
      - split; [assumption|]. intros v Hv. inversion Fv; subst; [apply fit_free; eapply free_list; eassumption|auto].
      - split; [assumption|]. intros v Hv. inversion Fv; subst; [apply fit_free; eapply free_tuple; eassumption|auto].
      - inversion Fv; subst. now destruct (free_model c m).
    Qed.
    Lemma list_loop_same f x t i l m data data' e e' : blind_field K f -> leaf_unions f -> alike (cx_trusted x) t -> cx_mapping x = no_mapping ->
      Forall2 alike l m -> (forall u, In u l -> fit E f u) -> Forall2 alike data data' -> entries alike_err e e' ->
      alike_res (fun p q => Forall2 alike (fst p) (fst q) /\ entries alike_err (snd p) (snd q))
        (list_loop fc f x i l data e) (list_loop fc' f (branch x t None) i m data' e').
    Proof using Hfc.
      intros Hf Hu Ht Hmap F. revert i data data' e e'. induction F as [|v w l m H F IH]; intros i data data' e e' Fl Hd He; cbn.
      { constructor. split; assumption. }
      assert (forall u, In u l -> fit E f u) as Fl' by (intros u Hi; apply Fl; now right).
      destruct (Hfc f v w x t Hf Hu (Fl v (or_introl eq_refl)) H Ht Hmap) as [a b Hab|a b Hab].
      - apply IH; [assumption| |assumption]. apply Forall2_app; [assumption|]. constructor; [assumption|constructor].
      - unfold is_base_error. rewrite <- (caught_same _ _ _ Hab). destruct (caught_by_loop a) eqn:C; [|now constructor].
        apply IH; [assumption|assumption|]. apply entries_dset; [assumption|now apply err_node_same with (K := K)].
    Qed.
    Lemma list_convert_same o f v w x t : blind_field K f -> leaf_unions f -> fit E (FS o (TList f)) v -> alike v w ->
      alike (cx_trusted x) t -> cx_mapping x = no_mapping ->
      alike_res alike (list_convert E fc f v x) (list_convert E' fc' f w (branch x t None)).
    Proof using Hfc.
      intros Hf Hu Fv H Ht Hmap. unfold list_convert. destruct (list_elems_same o f v w H Fv) as [|l m [F Fl]]; [constructor; constructor|].
      eapply res_bind; [apply list_loop_same; try eassumption; [constructor|apply entries_nil]|].
      intros [a ea] [b eb] [Ha He]. cbn [fst snd] in *. destruct ea as [|p1 ea], eb as [|p2 eb].
      - constructor. now constructor.
      - apply entries_empty in He. destruct He as [He _]. now specialize (He eq_refl).
      - apply entries_empty in He. destruct He as [_ He]. now specialize (He eq_refl).
      - constructor. now constructor.
    Qed.

    Lemma dict_convert_same o f ck v w x t : blind_field K f -> leaf_unions f -> keeps_apart K ck -> fit E (FS o (TDict f ck)) v -> alike v w ->
      alike (cx_trusted x) t -> cx_mapping x = no_mapping ->
      alike_res alike (dict_convert fc f ck v x) (dict_convert fc' f ck w (branch x t None)).
    Proof using Hfc.
      intros Hf Hu Hck Fv H Ht Hmap. unfold dict_convert.
      destruct H as [u H|l m F|l m F|d d' Hd|c m n H1 H2 H3 H4]; try (constructor; now constructor).
      { destruct u; cbn in H; try discriminate; constructor; constructor. }
      pose proof (keyed_entries _ _ _ _ Hd) as He. destruct Hd as [HK _].
      assert (forall y v, In (y, v) d -> fit E f v) as Fd.
      { intros y v Hi. inversion Fv; subst; [apply fit_free; eapply free_dict; eassumption|eauto]. }
      set (x' := branch x t None).
      assert (forall y v w, In (y, v) d -> alike v w -> alike_res (fun p q => fst p = fst q /\ K (fst p) /\ alike (snd p) (snd q))
                (entry_out fc f ck x (y, v)) (entry_out fc' f ck x' (y, w))) as Hout.
      { intros y v w Hi Hvw. unfold entry_out. cbn [fst snd]. eapply res_bind; [apply Hfc; eauto|]. intros a b Hab.
        assert (K y) as Hy by (apply HK; apply (in_map fst) in Hi; exact Hi).
        eapply res_bind; [apply Hck, Hy|]. intros p q [-> Hq]. constructor. auto. }
      assert (existsb (crashes fc f ck x) d = existsb (crashes fc' f ck x') d') as Hc.
      { apply eq_true_iff_eq. rewrite !existsb_exists. split.
        - intros ([y v] & Hi & C). destruct (entries_In_l _ _ _ _ _ He Hi) as (w & Hw & Hvw). exists (y, w). split; [assumption|].
          unfold crashes in *. destruct (Hout y v w Hi Hvw) as [a b _|a b Q]; [discriminate|]. now rewrite <- (caught_same _ _ _ Q).
        - intros ([y w] & Hi & C). destruct (entries_In_r _ _ _ _ _ He Hi) as (v & Hv & Hvw). exists (y, v). split; [assumption|].
          unfold crashes in *. destruct (Hout y v w Hv Hvw) as [a b _|a b Q]; [discriminate|]. now rewrite (caught_same _ _ _ Q). }
      pose proof (dict_loop_spec fc f ck x d [] []) as S1. pose proof (dict_loop_spec fc' f ck x' d' [] []) as S2.
      rewrite <- Hc in S2. destruct (existsb (crashes fc f ck x) d) eqn:Cr.
      { destruct S1 as (e1 & -> & C1), S2 as (e2 & -> & C2). cbn. constructor. now apply ax_crash. }
      rewrite S1, S2. cbn [rbind].
      destruct He as (N1 & N2 & Hget). pose proof (conj N1 (conj N2 Hget)) as He.
      assert (forall y, In y (dkeys d') -> K y) as HK'.
      { intros y Hy. apply HK. eapply (entries_keys alike); [exact He|exact Hy]. }
      rewrite !dupdate_nil_l by ((eapply good_NoDup; eassumption) || (apply bad_NoDup; assumption)).
      assert (keyed alike (good fc f ck x d) (good fc' f ck x' d')) as Hg.
      { split.
        - intros y' Hy. unfold dkeys in Hy. apply in_map_iff in Hy. destruct Hy as ([a w] & <- & Hi). apply good_In in Hi.
          destruct Hi as ([y v] & Hi & O). destruct (entries_In_l _ _ _ _ _ He Hi) as (v' & _ & Hvw).
          pose proof (Hout y v v' Hi Hvw) as Q. rewrite O in Q. inversion Q as [p q (_ & Hk & _)|]; subst. exact Hk.
        - apply entries_In; [eapply good_NoDup; eassumption|eapply good_NoDup; eassumption| |].
          + intros y' w Hi. apply good_In in Hi. destruct Hi as ([y v] & Hi & O).
            destruct (entries_In_l _ _ _ _ _ He Hi) as (v' & Hi' & Hvw).
            pose proof (Hout y v v' Hi Hvw) as Q. rewrite O in Q. inversion Q as [p [q1 q2] (Hq & _ & Hq2) Q1 Q2|]; subst. cbn in Hq, Hq2. subst q1.
            exists q2. split; [|assumption]. apply good_In. exists (y, v'). split; [assumption|]. congruence.
          + intros y' w Hi. apply good_In in Hi. destruct Hi as ([y v'] & Hi & O).
            destruct (entries_In_r _ _ _ _ _ He Hi) as (v & Hi' & Hvw).
            pose proof (Hout y v v' Hi' Hvw) as Q. rewrite O in Q. inversion Q as [[p1 p2] q (Hq & _ & Hq2) Q1 Q2|]; subst. cbn in Hq, Hq2. subst p1.
            exists p2. apply good_In. exists (y, v). split; [assumption|]. congruence. }
      assert (entries alike_err (bad fc f ck x d) (bad fc' f ck x' d')) as Hb.
      { assert (forall y v e, In (y, v) d -> entry_out fc f ck x (y, v) = Raise e -> caught_by_loop e = true) as Hcb.
        { intros y v e Hi O. destruct (caught_by_loop e) eqn:C; [reflexivity|].
          assert (existsb (crashes fc f ck x) d = true) as X; [|congruence]. apply existsb_exists. exists (y, v). split; [assumption|].
          unfold crashes. now rewrite O, C. }
        apply entries_In; [now apply bad_NoDup|now apply bad_NoDup| |].
        - intros y n Hi. apply bad_In in Hi. destruct Hi as (v & e & Hi & O & ->).
          destruct (entries_In_l _ _ _ _ _ He Hi) as (v' & Hi' & Hvw).
          pose proof (Hout y v v' Hi Hvw) as Q. rewrite O in Q. inversion Q as [|p q Hpq Q1 Q2]; subst.
          exists (err_node q). split; [apply bad_In; eauto|]. apply err_node_same with (K := K); [assumption|]. eapply Hcb; eassumption.
        - intros y n Hi. apply bad_In in Hi. destruct Hi as (v' & e & Hi & O & ->).
          destruct (entries_In_r _ _ _ _ _ He Hi) as (v & Hi' & Hvw).
          pose proof (Hout y v v' Hi' Hvw) as Q. rewrite O in Q. inversion Q as [|p q Hpq Q1 Q2]; subst.
          exists (err_node p). apply bad_In; eauto. }
      destruct (bad fc f ck x d) as [|p1 l1], (bad fc' f ck x' d') as [|p2 l2].
      - constructor. now constructor.
      - apply entries_empty in Hb. destruct Hb as [Hb _]. now specialize (Hb eq_refl).
      - apply entries_empty in Hb. destruct Hb as [_ Hb]. now specialize (Hb eq_refl).
      - constructor. now constructor.
    Qed.

    Lemma poly_scan_right w cs fb hits : poly_scan E' w cs fb hits = poly_scan E w cs fb hits.
    Proof using HR.
      revert fb hits. induction cs as [|c cs IH]; intros fb hits; cbn; [reflexivity|]. rewrite <- (ro_claim _ _ HR c).
      destruct (mc_claim (e_class E c)) as [cl|]; [|apply IH]. destruct (cl w); cbn; [apply IH|reflexivity].
    Qed.
    Lemma find_model_same p v w : blind_poly K p -> alike v w -> alike_res eq (find_model E p v) (find_model E' p w).
    Proof using HE HR.
      intros Hp H. assert (find_model E' p w = find_model E p w) as ->; [|eapply OrderMain.find_model_same; eassumption].
      unfold find_model. destruct (po_claim p); [reflexivity|]. rewrite poly_scan_right.
      assert (poly_candidates E' p = poly_candidates E p) as ->; [|reflexivity]. unfold poly_candidates. destruct (po_allow_sub p); [|reflexivity].
      apply flat_map_ext. intros c. now rewrite (ro_subs _ _ HR).
    Qed.
    Lemma poly_allowed_right p v : poly_allowed E' p v = poly_allowed E p v.
    Proof using HR.
      destruct v; try reflexivity. cbn. destruct (po_allow_sub p); [|reflexivity].
      induction (po_classes p) as [|d l IH]; cbn; [reflexivity|]. now rewrite IH, (ro_issub _ _ HR).
    Qed.
    Lemma poly_convert_same pre pre' o p v w x t : blind_poly K p -> fit E (FS o (TPoly p)) v -> alike v w -> alike (cx_trusted x) t ->
      cx_mapping x = no_mapping ->
      alike_res alike (poly_convert E fc pre p v x) (poly_convert E' fc' pre' p w (branch x t None)).
    Proof using HE HR HS Hfc.
      intros Hp Fv H Ht Hmap. unfold poly_convert. cbn [cx_validate branch].
      rewrite <- (alike_none _ _ _ H), poly_allowed_right, <- (poly_allowed_same K E p _ _ H).
      assert (match v with VDict _ => true | _ => false end = match w with VDict _ => true | _ => false end) as <-.
      { destruct H as [u H|l m F|l m F|d e H|c m n H1 H2 H3 H4]; reflexivity. }
      destruct (is_none v); [constructor; now constructor|].
      destruct (negb (cx_validate x) && poly_allowed E p v); [now constructor|].
      destruct (negb (cx_validate x) && negb _); [constructor; constructor|].
      eapply res_bind; [now apply find_model_same|]. intros c c' <-. apply model_new_same; try assumption. eapply fit_any, Fv.
    Qed.
  End Loop.

  (** ** The converters *)
  Record conv_same (r r' : conv) : Prop := {
    cs_field : fc_same K E (cv_field r) (cv_field r');
    cs_convert : fc_same K E (cv_convert r) (cv_convert r');
    cs_validate : fc_same K E (cv_validate r) (cv_validate r');
    cs_pre : forall f v w, blind_field K f -> fit E f v -> alike v w -> alike_res alike (cv_pre r f v) (cv_pre r' f w) }.

  Lemma union_resolve_same (cv cv' : fspec -> pyval -> res pyval) ms v w : (forall m, In m ms -> exists o l, m = FS o (TLeaf l)) ->
    Forall (blind_field K) ms -> (forall m, blind_field K m -> (exists o l, m = FS o (TLeaf l)) -> alike_res alike (cv m v) (cv' m w)) ->
    alike_res (fun p q => fst p = fst q /\ (blind_field K (fst p) /\ exists o l, fst p = FS o (TLeaf l)) /\ alike (snd p) (snd q))
      (union_resolve cv ms v) (union_resolve cv' ms w).
  Proof.
    intros Hl F H. induction F as [|m ms Hm F IH]; cbn; [constructor; constructor|].
    destruct (H m Hm (Hl m (or_introl eq_refl))) as [a b Hab|a b Hab]; [constructor; split; [reflexivity|]; split; [|assumption]; split; [assumption|apply Hl; now left]|].
    assert (forall m0, In m0 ms -> exists o l, m0 = FS o (TLeaf l)) as Hl' by (intros; apply Hl; now right). specialize (IH Hl').
    destruct Hab as [es|s es|d e Q|d e p q Q Q'|a b Q Q']; try (constructor; now constructor); [exact IH|].
    destruct a, b; cbn in *; try tauto; constructor; now apply ax_crash.
  Qed.

  Lemma convert_step_same r r' : conv_same r r' -> fc_same K E (convert_step E r) (convert_step E' r').
  Proof using HE HR HS.
    intros [Hr Hc Hv Hp] f v w x t Hf Hu Fv H Ht Hmap. unfold convert_step.
    destruct Hf as [o l Ho Hl|o ms Ho Hms|o c Ho|o p Ho Hpo|o g Ho Hg|o g ck Ho Hk Hg]; cbn [fs_type].
    - now apply Hl.
    - eapply res_bind; [apply union_resolve_same; [exact Hu|exact Hms|]|].
      + intros m Hm (o' & l & ->). apply Hc; try assumption; [exact Logic.I|apply fit_leaf].
      + intros [m a] [m' b] (_ & _ & Hab). now constructor.
    - eapply model_convert_same; eassumption.
    - eapply poly_convert_same; eassumption.
    - eapply list_convert_same; eassumption.
    - eapply dict_convert_same; eassumption.
  Qed.
  Lemma step_same r r' : conv_same r r' -> conv_same (conv_step E r) (conv_step E' r').
  Proof using HE HR HS.
    intros Hr. pose proof (convert_step_same r r' Hr) as Hcs. destruct Hr as [Hr Hc Hv Hp].
    constructor; cbn [conv_step cv_field cv_convert cv_validate cv_pre]; [|exact Hcs| |].
    - intros f v w x t Hf Hu Fv H Ht Hmap. unfold field_step.
      assert (check_required f w (branch x t None) = check_required f v x) as ->.
      { unfold check_required. cbn [cx_partial branch]. now rewrite (alike_nil _ _ _ H). }
      destruct (check_required f v x) as [e|] eqn:Q.
      + unfold check_required in Q. destruct (_ && _ && _); [|discriminate]. injection Q as <-. constructor. constructor.
      + rewrite <- (alike_nil _ _ _ H). destruct (is_nil v); [now constructor|]. cbn [cx_validate branch].
        destruct (cx_validate x); [now apply Hv|now apply Hc].
    - intros f v w x t Hf Hu Fv H Ht Hmap. unfold validate_step. cbn [cx_convert branch].
      assert (alike_res alike
        (rbind (if cx_convert x then cv_convert r f v x else if is_compound f then rbind (cv_convert r f v x) (fun _ => Ok v) else Ok v)
               (validators_result (fo_validators (fs_opts f))))
        (rbind (if cx_convert x then cv_convert r' f w (branch x t None)
                else if is_compound f then rbind (cv_convert r' f w (branch x t None)) (fun _ => Ok w) else Ok w)
               (validators_result (fo_validators (fs_opts f))))) as Hrest.
      { eapply res_bind with (R := alike).
        - destruct (cx_convert x); [now apply Hc|]. destruct (is_compound f); [|now constructor].
          eapply res_bind; [now apply Hc|]. intros. now constructor.
        - intros a b Hab. apply validators_result_same; [now apply blind_validators|assumption]. }
      destruct (fs_type f) as [l|ms|c|p|g|g ck] eqn:T; try exact Hrest.
      destruct Hf as [o l' Ho Hl|o ms' Ho Hms|o c Ho|o p Ho Hpo|o g Ho Hg|o g ck Ho Hk Hg]; cbn in T; try discriminate.
      injection T as <-.
      eapply res_bind; [apply union_resolve_same; [exact Hu|exact Hms|]|].
      + intros m Hm (o' & l & ->). apply Hc; try assumption; [exact Logic.I|apply fit_leaf].
      + intros [m a] [m' b] (Q & (Hm & o' & l & Ql) & Hab). cbn in *. subst m' m. apply Hv; try assumption; [exact Logic.I|apply fit_leaf].
    - intros f v w Hf Fv H. unfold pre_step. destruct f as [o t]. cbn [fs_type]. destruct t as [l|ms|c|p|g|g ck]; try now constructor.
      pose proof (model_new_same (cv_field r) (cv_field r') Hr (cv_pre r) (cv_pre r') c v w default_ctx (VDict [])) as Hn.
      specialize (Hn H). change (branch default_ctx (VDict []) None) with default_ctx in Hn.
      assert (alike (cx_trusted default_ctx) (VDict [])) as Ht by (apply al_dict, keyed_nil).
      destruct H as [u H|l m F|l m F|d e H|c' m n H1 H2 H3 H4].
      + destruct u; cbn in H; try discriminate; try (constructor; constructor; reflexivity); constructor; constructor.
      + constructor; constructor.
      + constructor; constructor.
      + apply Hn; [eapply fit_dict_of, Fv|exact Ht|reflexivity].
      + constructor. now apply al_model.
  Qed.
  Lemma conv_at_same n : conv_same (conv_at E n) (conv_at E' n).
  Proof using HE HR HS.
    induction n as [|n IH]; cbn [conv_at]; [|now apply step_same].
    constructor; intros; try (intros ? ? ? ? ? ? ? ? ? ? ?); constructor; apply ax_crash; exact Logic.I.
  Qed.

  (** ** The methods *)
  Context (r r' : conv) (Hr : conv_same r r').
  Local Notation adata := (alike_data K).

  Lemma convert_same c m n raw raw' td td' w : adata m n -> alike raw raw' -> alike td td' -> kw_mapping w = no_mapping ->
    fit_data E c m -> fit_input E c raw ->
    adata (fst (model__convert E r c m raw td w)) (fst (model__convert E' r' c n raw' td' w)) /\
    alike_res (keyed alike) (snd (model__convert E r c m raw td w)) (snd (model__convert E' r' c n raw' td' w)).
  Proof using HE HR HS Hr.
    intros Hm Hraw Htd Hmap Fm Fr. unfold model__convert. rewrite <- (alike_truthy _ _ _ Hraw).
    assert (alike_res (fun d e => keyed alike d e /\ fit_layer E c d) (if truthy raw then py_dict E raw else Ok (md_converted m))
                                    (if truthy raw then py_dict E' raw' else Ok (md_converted n))) as Hd.
    { destruct (truthy raw).
      - pose proof (fun d => items_fit E HS c raw d Fr) as Hi.
        destruct (dict_same K E E' HE HR HS raw raw' Hraw) as [d d' Hd|p q Hpq]; constructor; [|assumption]. split; [assumption|now apply Hi].
      - constructor. split; [apply Hm|]. apply Fm. right. now left. }
    destruct Hd as [d0 d0' [Hd Fd]|a b Hab]; [|split; [assumption|now constructor]].
    set (a0 := if truthy raw then NoAlias else AliasConverted).
    set (P := match md_unsafe m with [] => _ | _ => _ end).
    set (P' := match md_unsafe n with [] => _ | _ => _ end).
    assert (let '(m1, a1, d1, w1) := P in let '(m2, a2, d2, w2) := P' in
            adata m1 m2 /\ a1 = a2 /\ (keyed alike d1 d2 /\ fit_data E c m1 /\ fit_layer E c d1 /\ kw_mapping w1 = no_mapping) /\ w1 = w2) as HP.
    { subst P P'. pose proof (proj1 Hm) as Hu. pose proof (entries_empty _ _ _ (keyed_entries _ _ _ _ Hu)) as He.
      pose proof (Fm _ (or_introl eq_refl)) as Fu.
      destruct (md_unsafe m) as [|p l] eqn:U, (md_unsafe n) as [|p' l'] eqn:U'.
      - split; [assumption|]. split; [reflexivity|]. split; [|reflexivity]. auto.
      - destruct He as [He _]. now specialize (He eq_refl).
      - destruct He as [_ He]. now specialize (He eq_refl).
      - split; [now apply set_unsafe_same|]. split; [reflexivity|]. split; [|reflexivity]. split; [now apply keyed_dupdate|].
        split; [|split; [now apply fit_update|exact Hmap]].
        intros L [<-|[<-|[<-|[]]]]; [intros ? ? ? ? []|apply Fm; right; now left|apply Fm; right; right; now left]. }
    clearbody P P'. destruct P as [[[m1 a1] d1] w1], P' as [[[m2 a2] d2] w2]. destruct HP as (Hm1 & <- & (Hd1 & Fm1 & Fd1 & Hmap1) & <-).
    assert (alike (if truthy td then td else VDict []) (if truthy td' then td' else VDict [])) as Ht.
    { rewrite <- (alike_truthy _ _ _ Htd). destruct (truthy td); [assumption|]. apply al_dict, keyed_nil. }
    set (t1 := if truthy td then td else VDict []) in *. set (t2 := if truthy td' then td' else VDict []) in *. clearbody t1 t2.
    rewrite (kw_ctx_branch w1 t1 t2).
    set (o := if kw_validate w then _ else _). set (o' := if kw_validate w then validate_fn _ _ _ (branch _ _ _) _ _ _ _ else _).
    assert (out_same K o o') as (Q1 & Q2 & Q3).
    { subst o o'. assert (alike (VModel c m1) (VModel c m2)) as Hv by now apply data_of.
      assert (alike (VDict d1) (VDict d2)) as Hdd by now constructor.
      destruct (kw_validate w); [apply validate_fn_same|apply import_loop_same]; try assumption; apply Hr. }
    clearbody o o'. cbn [fst snd]. split; [|exact Q3].
    destruct Q1 as [u H|l l' F|l l' F|d e H|c' m3 m4 H1 H2 H3 H4]; try assumption; [destruct u; try assumption; discriminate|].
    split; [|split; [|split]]; assumption.
  Qed.

  Lemma validate_body_same c m n w : adata m n -> kw_mapping w = no_mapping -> fit_data E c m ->
    step_out_same K (model_validate_body E r c m w) (model_validate_body E' r' c n w).
  Proof using HE HR HS Hr.
    intros Hm Hmap Fm. unfold model_validate_body.
    set (wv := KW _ _ _ _ _ _ _ _).
    assert (alike VNone VNone) as H0 by now constructor.
    assert (alike (VDict []) (VDict [])) as H1 by (apply al_dict, keyed_nil).
    destruct (convert_same c m n VNone VNone (VDict []) (VDict []) wv Hm H0 H1 Hmap Fm Logic.I) as [Q1 Q2].
    destruct (model__convert E r c m VNone (VDict []) wv) as [m1 r1], (model__convert E' r' c n VNone (VDict []) wv) as [m2 r2].
    cbn [fst snd] in *. destruct Q2 as [d e Hd|a b Hab].
    - split; [now apply set_valid_same|constructor].
    - destruct Hab as [ms|s ms|d e H|d e p q H H'|a b H H']; try (split; [assumption|constructor; now constructor]).
      + split; cbn [fst snd]; [|constructor; now constructor]. apply set_valid_same; [assumption|].
        apply keyed_dupdate; [apply Q1|assumption].
      + destruct a, b; cbn in *; try tauto; (split; [assumption|constructor; now apply ax_crash]).
  Qed.
  Lemma validate_same c m n w : adata m n -> kw_mapping w = no_mapping -> fit_data E c m ->
    step_out_same K (model_validate E r c m w) (model_validate E' r' c n w).
  Proof using HE HR HS Hr.
    intros Hm Hmap Fm. unfold model_validate. pose proof (validate_body_same c m n w Hm Hmap Fm) as [Q1 Q2].
    assert (step_out_same K (let '(m1, oe) := model_validate_body E r c m w in (md_set_converted m1 [], oe))
                          (let '(m1, oe) := model_validate_body E' r' c n w in (md_set_converted m1 [], oe))) as Hrest.
    { destruct (model_validate_body E r c m w) as [m1 o1], (model_validate_body E' r' c n w) as [m2 o2].
      split; cbn [fst snd] in *; [apply set_conv_same; [assumption|apply keyed_nil]|assumption]. }
    pose proof (entries_empty _ _ _ (keyed_entries _ _ _ _ (proj1 (proj2 Hm)))) as He.
    destruct (md_converted m) as [|p l], (md_converted n) as [|p' l'].
    - destruct (kw_partial w); [split; [assumption|constructor]|assumption].
    - destruct He as [He _]. now specialize (He eq_refl).
    - destruct He as [_ He]. now specialize (He eq_refl).
    - assumption.
  Qed.
  Lemma init_same c raw raw' td td' w : alike raw raw' -> alike td td' -> kw_mapping w = no_mapping -> kw_validate w = false ->
    fit_input E c raw -> fit_input E c td ->
    alike_res adata (model_init E r c raw td w) (model_init E' r' c raw' td' w).
  Proof using HE HR HS Hr.
    intros Hraw Htd Hmap Hval Fr Ft. unfold model_init.
    set (v := match td with VDict d => d | _ => [] end). set (v' := match td' with VDict d => d | _ => [] end).
    assert (keyed alike v v' /\ fit_layer E c v) as [Hv Fv].
    { subst v v'. destruct Htd as [u H|l l' F|l l' F|d e H|c' m3 m4 H1 H2 H3 H4]; try (split; [apply keyed_nil|intros ? ? ? ? []]); [|now split].
      destruct u; cbn in H; try discriminate; (split; [apply keyed_nil|intros ? ? ? ? []]). }
    clearbody v v'.
    assert (adata (MD [] [] v None) (MD [] [] v' None)) as H0.
    { split; [|split; [|split]]; cbn; try apply keyed_nil; [assumption|constructor]. }
    assert (fit_data E c (MD [] [] v None)) as F0.
    { intros L [<-|[<-|[<-|[]]]]; [intros ? ? ? ? []|intros ? ? ? ? []|assumption]. }
    destruct (convert_same c _ _ raw raw' td td' w H0 Hraw Htd Hmap F0 Fr) as [Q1 Q2].
    destruct (model__convert E r c (MD [] [] v None) raw td w) as [m1 r1],
             (model__convert E' r' c (MD [] [] v' None) raw' td' w) as [m2 r2]. cbn [fst snd] in *.
    destruct Q2 as [d e Hd|a b Hab]; [|now constructor].
    pose proof (set_conv_same _ _ _ _ _ Q1 Hd) as Hs. rewrite Hval. now constructor.
  Qed.
  Lemma import_data_same c m n raw raw' w : adata m n -> alike raw raw' -> kw_mapping w = no_mapping -> kw_validate w = false ->
    fit_data E c m -> fit_input E c raw ->
    step_out_same K (model_import_data E r c m raw w) (model_import_data E' r' c n raw' w).
  Proof using HE HR HS Hr.
    intros Hm Hraw Hmap Hval Fm Fr. unfold model_import_data.
    destruct (dict_same K E E' HE HR HS _ _ (proj1 (data_of K c m n) Hm)) as [d e Hd|a b Hab]; [|split; [assumption|now constructor]].
    assert (alike (VDict d) (VDict e)) as Ht by now constructor.
    destruct (convert_same c m n raw raw' (VDict d) (VDict e) w Hm Hraw Ht Hmap Fm Fr) as [Q1 Q2].
    destruct (model__convert E r c m raw (VDict d) w) as [m1 r1], (model__convert E' r' c n raw' (VDict e) w) as [m2 r2].
    cbn [fst snd] in *. destruct Q2 as [d1 e1 Hd1|a b Hab]; [|split; [assumption|now constructor]].
    rewrite Hval. split; [|constructor]. cbn [fst]. apply set_conv_same; [assumption|]. apply keyed_dupdate; [apply Q1|assumption].
  Qed.
  Lemma setitem_same c m n x v w : adata m n -> alike v w -> K x ->
    (forall f, dget x (mc_fields (e_class E c)) = Some f -> fit E (fd_spec f) v) ->
    step_out_same K (model_setitem E r c m x v) (model_setitem E' r' c n x w).
  Proof using HE HR HS Hr.
    intros Hm H Hx Fv. unfold model_setitem. rewrite (fields_get K E E' HE HR). destruct (dget x (mc_fields (e_class E c))) as [f|] eqn:G.
    - specialize (Fv f eq_refl). apply dget_In in G. rewrite (bc_setters _ _ (HE c) x f G).
      destruct (fd_get f); [split; [assumption|constructor; apply py_same]|].
      destruct (cs_pre r r' Hr (fd_spec f) v w (bc_fields _ _ (HE c) x f G) Fv H) as [a b Hab|a b Hab].
      + split; [|constructor]. cbn [fst]. apply set_conv_same; [assumption|]. apply keyed_dset; try assumption. apply Hm.
      + split; [assumption|now constructor].
    - split; [assumption|constructor; apply py_same].
  Qed.
End Main.
