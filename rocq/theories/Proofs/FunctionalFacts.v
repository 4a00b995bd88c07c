(** Comparing the functional interface with instances. *)
From Verif.Model Require Import Py Core Export Api Functional.
From Verif.Spec Require Import ImportSpec FunctionalSpec.
From Verif.Proofs Require Import DictLemmas.

(** ** Entries related one by one *)

Definition drel (P : key -> pyval -> pyval -> Prop) : list (key * pyval) -> list (key * pyval) -> Prop :=
  Forall2 (fun p q => fst p = fst q /\ P (fst p) (snd p) (snd q)).

Lemma drel_dset P n w1 w2 d1 d2 : drel P d1 d2 -> P n w1 w2 -> drel P (dset n w1 d1) (dset n w2 d2).
Proof.
  intros H K. induction H as [|[a v1] [b v2] d1 d2 [Hk Hp] H IH].
  - repeat constructor. exact K.
  - cbn [fst snd] in Hk, Hp. subst b. cbn [dset]. destruct (key_eqb n a) eqn:En.
    + apply key_eqb_eq in En. subst a. constructor; [now split|exact H].
    + constructor; [now split|exact IH].
Qed.

Lemma dkeys_dset_congr n w1 w2 (d1 d2 : list (key * pyval)) : dkeys d1 = dkeys d2 -> dkeys (dset n w1 d1) = dkeys (dset n w2 d2).
Proof.
  revert d2. induction d1 as [|[a v1] d1 IH]; intros [|[b v2] d2] H; try discriminate; [reflexivity|].
  cbn in H. injection H as -> H. cbn [dset]. destruct (key_eqb n b); cbn [dkeys map fst]; f_equal; [exact H|apply IH, H].
Qed.

Lemma drel_dkeys P d1 d2 : drel P d1 d2 -> dkeys d1 = dkeys d2.
Proof. induction 1 as [|p q d1 d2 [Hk _] H IH]; [reflexivity|]. cbn. now rewrite Hk; f_equal. Qed.

Lemma drel_dget P n d1 d2 : drel P d1 d2 ->
  match dget n d1, dget n d2 with Some a, Some b => P n a b | None, None => True | _, _ => False end.
Proof.
  induction 1 as [|[a v1] [b v2] d1 d2 [Hk Hp] H IH]; [exact I|].
  cbn [fst snd] in Hk, Hp. subst b. cbn [dget]. destruct (key_eqb n a) eqn:En.
  - apply key_eqb_eq in En. now subst a.
  - exact IH.
Qed.

Lemma dmem_dkeys n (d1 d2 : list (key * pyval)) : dkeys d1 = dkeys d2 -> dmem n d1 = dmem n d2.
Proof.
  intros H. destruct (dmem n d1) eqn:E1, (dmem n d2) eqn:E2; try reflexivity.
  - apply dmem_In in E1. apply dmem_nIn in E2. rewrite H in E1. contradiction.
  - apply dmem_In in E2. apply dmem_nIn in E1. rewrite <- H in E2. contradiction.
Qed.

(** ** Results related *)

Definition rrel {A B} (P : A -> B -> Prop) (a : res A) (b : res B) : Prop :=
  match a, b with Ok v, Ok w => P v w | Raise e, Raise e' => same_failure e e' | _, _ => False end.

Lemma rrel_bind {A B C D} (P : A -> B -> Prop) (Q : C -> D -> Prop) a b f g :
  rrel P a b -> (forall v w, P v w -> rrel Q (f v) (g w)) -> rrel Q (rbind a f) (rbind b g).
Proof. intros H K. destruct a, b; try contradiction; [apply K, H|exact H]. Qed.

Lemma same_failure_caught e e' : same_failure e e' -> caught_by_loop e = caught_by_loop e' /\ err_node e = err_node e'.
Proof. intros [f|errs p q]; now split. Qed.

(** ** Data without instances *)

Lemma no_instances_dict d n v : no_instances (VDict d) -> In (n, v) d -> no_instances v.
Proof. intros H K c m O. apply (H c m). now apply (oc_dict _ d n v). Qed.
Lemma no_instances_nil v : is_nil v = true -> no_instances v.
Proof. intros H c m O. destruct v; try discriminate H; inversion O. Qed.

Lemma no_instances_get E d n v : no_instances (VDict d) -> py_getitem E (VDict d) n = Ok v -> no_instances v.
Proof.
  intros H K. cbn in K. destruct (dget n d) as [w|] eqn:G; [|discriminate]. injection K as <-.
  eapply no_instances_dict; [exact H|]. apply dget_In. exact G.
Qed.
Lemma no_instances_undef : no_instances VUndef.
Proof. now apply no_instances_nil. Qed.
Lemma no_instances_atom E d n : no_instances (VDict d) -> no_instances (atom_value E (VDict d) n).
Proof.
  intros H. unfold atom_value. destruct (py_getitem E (VDict d) n) as [v|e] eqn:G.
  - eapply no_instances_get; eauto.
  - apply no_instances_undef.
Qed.
Lemma no_instances_alt E d n ks v : no_instances (VDict d) -> find_alt E (VDict d) n ks = Ok v -> no_instances v.
Proof.
  intros H. induction ks as [|x ks IH]; cbn [find_alt]; intros K.
  - injection K as <-. apply no_instances_undef.
  - destruct (key_true x && negb (key_eqb x n) && py_contains E (VDict d) x).
    + eapply no_instances_get; eauto.
    + auto.
Qed.

(** ** The two contexts *)

Definition unoo (x : ictx) : ictx :=
  {| cx_trusted := cx_trusted x; cx_mapping := cx_mapping x; cx_partial := cx_partial x; cx_strict := cx_strict x;
     cx_init_values := cx_init_values x; cx_apply_defaults := cx_apply_defaults x; cx_convert := cx_convert x;
     cx_validate := cx_validate x; cx_oo := false; cx_recursive := cx_recursive x |}.
Definition ooc (x : ictx) : Prop := cx_oo x = true /\ cx_convert x = true /\ cx_validate x = false.

Lemma unoo_field_ctx E x n f : field_ctx E (unoo x) n f = unoo (field_ctx E x n f).
Proof. unfold field_ctx. destruct (is_compound f); reflexivity. Qed.
Lemma ooc_field_ctx E x n f : ooc x -> ooc (field_ctx E x n f).
Proof. unfold field_ctx. destruct (is_compound f); [|auto]. intros H. exact H. Qed.

Definition sim (E : env) (fc1 fc2 : fspec -> pyval -> ictx -> res pyval) : Prop :=
  forall f v x, ooc x -> no_instances v -> rrel (agree E f) (fc1 f v x) (fc2 f v (unoo x)).

Section Sim.
  Context (E : env) (HD : plain_defaults E).
  Context (fc1 fc2 : fspec -> pyval -> ictx -> res pyval) (HS : sim E fc1 fc2).

  Definition entry (c : cid) (n : key) (v1 v2 : pyval) : Prop :=
    v1 = v2 \/ exists f, In (n, f) (mc_fields (e_class E c)) /\ agree E (fd_spec f) v1 v2.

  Definition ssim (c : cid) (s1 s2 : lstate) : Prop :=
    snd s1 = snd s2 /\ dkeys (fst s1) = dkeys (fst s2) /\ (snd s1 = [] -> drel (entry c) (fst s1) (fst s2)).

  Lemma dset_not_nil {A} n (v : A) d : dset n v d <> [].
  Proof. destruct d as [|[a b] d]; cbn; [discriminate|]. destruct (key_eqb n a); discriminate. Qed.

  Lemma import_field_sim c x got d n f s1 s2 :
    ooc x -> no_instances (VDict d) -> In (n, f) (mc_fields (e_class E c)) -> ssim c s1 s2 ->
    rrel (ssim c) (import_field E fc1 x got (VDict d) n f s1) (import_field E fc2 (unoo x) got (VDict d) n f s2).
  Proof using HD HS.
    intros Hx Hd Hin Hs. destruct s1 as [d1 e1], s2 as [d2 e2]. destruct Hs as (He & Hk & Hr). cbn [fst snd] in He, Hk, Hr.
    subst e2. unfold import_field.
    change (cx_mapping (unoo x)) with (cx_mapping x). change (cx_apply_defaults (unoo x)) with (cx_apply_defaults x).
    change (cx_init_values (unoo x)) with (cx_init_values x).
    set (r1 := if got && is_undef (atom_value E (VDict d) n)
               then find_alt E (VDict d) n (input_keys n (fd_spec f) (cx_mapping x)) else Ok (atom_value E (VDict d) n)).
    assert (Hr1 : forall v, r1 = Ok v -> no_instances v).
    { intros v. unfold r1. destruct (got && is_undef (atom_value E (VDict d) n)).
      - apply no_instances_alt, Hd.
      - intros [= <-]. now apply no_instances_atom. }
    destruct r1 as [v1|e]; cbn [rbind]; [|constructor].
    specialize (Hr1 v1 eq_refl). rewrite (dmem_dkeys n d1 d2 Hk).
    destruct (is_undef v1 && dmem n d2).
    { split; [reflexivity|]. split; [exact Hk|exact Hr]. }
    set (v2 := if is_undef v1 && cx_apply_defaults x then fo_default (fs_opts (fd_spec f)) else v1).
    assert (H2 : no_instances v2). { unfold v2. destruct (is_undef v1 && cx_apply_defaults x); [|exact Hr1]. eapply HD; eauto. }
    set (v3 := if is_undef v2 && cx_init_values x then VNone else v2).
    assert (H3 : no_instances v3). { unfold v3. destruct (is_undef v2 && cx_init_values x); [now apply no_instances_nil|exact H2]. }
    clearbody v3 v2.
    assert (Hstore : forall w1 w2, agree E (fd_spec f) w1 w2 ->
      rrel (ssim c) (if is_undef w1 then Ok (d1, e1) else Ok (dset n w1 d1, e1))
                    (if is_undef w2 then Ok (d2, e1) else Ok (dset n w2 d2, e1))).
    { intros w1 w2 Hw. assert (U : is_undef w1 = is_undef w2).
      { clear -Hw. induction Hw; try reflexivity. exact IHHw. }
      rewrite U. destruct (is_undef w2).
      - split; [reflexivity|]. split; [exact Hk|exact Hr].
      - split; [reflexivity|]. cbn [fst snd]. split; [now apply dkeys_dset_congr|].
        intros En. apply drel_dset; [auto|]. right. exists f. now split. }
    destruct got; [|apply Hstore; constructor].
    rewrite unoo_field_ctx.
    pose proof (HS (fd_spec f) v3 (field_ctx E x n (fd_spec f)) (ooc_field_ctx E x n _ Hx) H3) as K.
    destruct (fc1 (fd_spec f) v3 (field_ctx E x n (fd_spec f))) as [w1|ex1],
             (fc2 (fd_spec f) v3 (unoo (field_ctx E x n (fd_spec f)))) as [w2|ex2]; cbn [rrel] in K; try contradiction.
    - apply Hstore, K.
    - destruct (same_failure_caught _ _ K) as [C1 C2]. rewrite C1. destruct (caught_by_loop ex2); [|exact K].
      rewrite C2. split; [reflexivity|]. cbn [fst snd]. split.
      + set (p1 := if cx_apply_defaults x && _ then _ else d1). set (p2 := if cx_apply_defaults x && _ then _ else d2).
        assert (Hp : dkeys p1 = dkeys p2).
        { unfold p1, p2. destruct (cx_apply_defaults x && _); [now apply dkeys_dset_congr|exact Hk]. }
        destruct K as [e|errs q1 q2]; [destruct e|]; try exact Hp; now apply dkeys_dset_congr.
      + intros En. now apply dset_not_nil in En.
  Qed.

  Lemma import_fields_sim c x got d fs :
    ooc x -> no_instances (VDict d) -> (forall n f, In (n, f) fs -> In (n, f) (mc_fields (e_class E c))) ->
    forall s1 s2, ssim c s1 s2 ->
    rrel (ssim c) (import_fields E fc1 x got (VDict d) fs s1) (import_fields E fc2 (unoo x) got (VDict d) fs s2).
  Proof using HD HS.
    intros Hx Hd. induction fs as [|[n f] fs IH]; intros Hin s1 s2 Hs; [exact Hs|].
    cbn [import_fields]. change (cx_validate (unoo x)) with (cx_validate x).
    destruct (negb (cx_validate x) && has_setter f).
    - apply IH; [|exact Hs]. intros a b K. apply Hin. now right.
    - eapply rrel_bind.
      + apply import_field_sim with (c := c); auto. apply Hin. now left.
      + intros u1 u2 Hu. apply IH; [|exact Hu]. intros a b K. apply Hin. now right.
  Qed.

  Lemma copy_settable_sim c raw fs d1 d2 : drel (entry c) d1 d2 ->
    drel (entry c) (copy_settable E raw fs d1) (copy_settable E raw fs d2).
  Proof.
    revert d1 d2. induction fs as [|[n f] fs IH]; intros d1 d2 H; [exact H|]. cbn [copy_settable]. apply IH.
    destruct (has_setter f); [|exact H]. apply drel_dset; [exact H|]. now left.
  Qed.

  Lemma drel_refl c d : drel (entry c) d d.
  Proof. induction d; constructor; [|assumption]. split; [reflexivity|]. now left. Qed.

  Lemma import_loop_sim pre1 pre2 c x mut1 mut2 a1 a2 d :
    ooc x -> no_instances (VDict d) ->
    let o1 := import_loop E fc1 pre1 x (mc_fields (e_class E c)) mut1 a1 (VDict d) in
    let o2 := import_loop E fc2 pre2 (unoo x) (mc_fields (e_class E c)) mut2 a2 (VDict d) in
    lo_mut o1 = mut1 /\ lo_mut o2 = mut2 /\ rrel (agree_items E c) (lo_res o1) (lo_res o2).
  Proof using HD HS.
    intros Hx Hd. cbv zeta. unfold import_loop.
    change (cx_trusted (unoo x)) with (cx_trusted x). change (cx_validate (unoo x)) with (cx_validate x).
    destruct Hx as (Ho & Hc & Hv). rewrite Hv.
    replace (negb (is_none (VDict d)) && false) with false by reflexivity.
    destruct (if truthy (cx_trusted x) then py_dict E (cx_trusted x) else Ok []) as [d0|e].
    2:{ cbn [lo_mut lo_res]. split; [reflexivity|]. split; [reflexivity|]. constructor. }
    cbn [lo_mut lo_res rbind]. split; [reflexivity|]. split; [reflexivity|].
    replace (negb (is_none (VDict d))) with true by reflexivity. cbv iota.
    assert (R : rogues E (unoo x) (mc_fields (e_class E c)) (VDict d) [] = rogues E x (mc_fields (e_class E c)) (VDict d) [])
      by reflexivity.
    rewrite R. destruct (rogues E x (mc_fields (e_class E c)) (VDict d) []) as [errs|e]; cbn [rbind]; [|constructor].
    eapply rrel_bind.
    - apply import_fields_sim with (c := c); auto.
      + now repeat split.
      + split; [reflexivity|]. split; [reflexivity|]. intros _. apply drel_refl.
    - intros [d1 e1] [d2 e2] (He & Hk & Hr). cbn [fst snd] in He, Hk, Hr. subst e2.
      destruct e1 as [|p e1]; [|constructor]. constructor. apply copy_settable_sim, Hr. reflexivity.
  Qed.

  Lemma model_new_sim pre1 pre2 c x d :
    ooc x -> no_instances (VDict d) ->
    (exists d1 d2, model_new E fc1 pre1 c (VDict d) x = Ok (VModel c (MD [] d1 [] None)) /\
                   model_new E fc2 pre2 c (VDict d) (unoo x) = Ok (VModel c (MD [] d2 [] None)) /\
                   model_class_convert E fc2 pre2 c (VDict d) (unoo x) = Ok (VDict d2) /\ agree_items E c d1 d2) \/
    (exists e1 e2, model_new E fc1 pre1 c (VDict d) x = Raise e1 /\
                   model_new E fc2 pre2 c (VDict d) (unoo x) = Raise e2 /\
                   model_class_convert E fc2 pre2 c (VDict d) (unoo x) = Raise e2 /\ same_failure e1 e2).
  Proof using HD HS.
    intros Hx Hd.
    assert (Hp : forall y, (if truthy (VDict d) then py_dict E (VDict d) else Ok []) = y -> y = Ok d).
    { intros y <-. destruct d; reflexivity. }
    set (a := if truthy (VDict d) then NoAlias else AliasConverted).
    pose proof (import_loop_sim pre1 pre2 c x (VModel c md_empty) (VModel c md_empty) a a d Hx Hd) as (M1 & M2 & R).
    pose proof (import_loop_sim pre1 pre2 c x (VModel c md_empty) (VDict d) a AliasSelf d Hx Hd) as (_ & _ & R').
    assert (Heq : lo_res (import_loop E fc2 pre2 (unoo x) (mc_fields (e_class E c)) (VModel c md_empty) a (VDict d)) =
                  lo_res (import_loop E fc2 pre2 (unoo x) (mc_fields (e_class E c)) (VDict d) AliasSelf (VDict d))).
    { destruct Hx as (_ & _ & Hv). unfold import_loop. change (cx_validate (unoo x)) with (cx_validate x). rewrite Hv.
      change (negb (is_none (VDict d)) && false) with false. cbv iota.
      destruct (if truthy (cx_trusted (unoo x)) then py_dict E (cx_trusted (unoo x)) else Ok []); reflexivity. }
    unfold model_new, model_class_convert. rewrite (Hp _ eq_refl). cbn [rbind]. fold a.
    destruct Hx as (_ & _ & Hv). change (cx_validate (unoo x)) with (cx_validate x). rewrite Hv. rewrite <- Heq.
    cbv zeta in M1, M2, R. rewrite M1, M2.
    destruct (lo_res (import_loop E fc1 pre1 x (mc_fields (e_class E c)) (VModel c md_empty) a (VDict d))) as [d1|e1],
             (lo_res (import_loop E fc2 pre2 (unoo x) (mc_fields (e_class E c)) (VModel c md_empty) a (VDict d))) as [d2|e2];
      cbn [rrel] in R; try contradiction.
    - left. exists d1, d2. do 3 (split; [reflexivity|]). exact R.
    - right. exists e1, e2. do 3 (split; [reflexivity|]). exact R.
  Qed.

  Lemma list_loop_sim g x l : ooc x -> (forall v, In v l -> no_instances v) -> forall i d1 d2 errs,
    (errs = [] -> Forall2 (agree E g) d1 d2) ->
    rrel (fun s1 s2 => snd s1 = snd s2 /\ (snd s1 = [] -> Forall2 (agree E g) (fst s1) (fst s2)))
      (list_loop fc1 g x i l d1 errs) (list_loop fc2 g (unoo x) i l d2 errs).
  Proof using HS.
    intros Hx. induction l as [|v l IH]; intros Hl i d1 d2 errs Hd.
    - split; [reflexivity|exact Hd].
    - cbn [list_loop].
      pose proof (HS g v x Hx (Hl v (or_introl eq_refl))) as K.
      assert (Hl' : forall u, In u l -> no_instances u) by (intros u Hu; apply Hl; now right).
      destruct (fc1 g v x) as [w1|e1], (fc2 g v (unoo x)) as [w2|e2]; cbn [rrel] in K; try contradiction.
      + apply IH; [exact Hl'|]. intros En. apply Forall2_app; [auto|]. now repeat constructor.
      + unfold is_base_error. destruct (same_failure_caught _ _ K) as [C1 C2]. rewrite C1, C2.
        destruct (caught_by_loop e2); [|exact K]. apply IH; [exact Hl'|]. intros En. now apply dset_not_nil in En.
  Qed.

  Lemma list_convert_sim o g v x : ooc x -> no_instances v ->
    rrel (agree E (FS o (TList g))) (list_convert E fc1 g v x) (list_convert E fc2 g v (unoo x)).
  Proof using HS.
    intros Hx Hv. unfold list_convert. destruct (list_elems E v) as [l|] eqn:El; [|constructor].
    eapply rrel_bind.
    - apply list_loop_sim; [exact Hx| |constructor].
      intros w Hw. destruct v; try discriminate El; injection El as <-.
      + intros c m O. apply in_map_iff in Hw. destruct Hw as (z & <- & _). inversion O.
      + intros c m O. apply (Hv c m). now apply (oc_list _ l0 w).
      + intros c m O. apply (Hv c m). now apply (oc_tuple _ l0 w).
      + exfalso. apply (Hv c m). constructor.
    - intros [d1 e1] [d2 e2] [He Hd]. cbn [fst snd] in He, Hd. subst e2. destruct e1; [|constructor].
      constructor. auto.
  Qed.

  Lemma dict_loop_sim g ck x l : ooc x -> (forall n v, In (n, v) l -> no_instances v) -> forall d1 d2 errs,
    (errs = [] -> drel (fun _ => agree E g) d1 d2) ->
    rrel (fun s1 s2 => snd s1 = snd s2 /\ (snd s1 = [] -> drel (fun _ => agree E g) (fst s1) (fst s2)))
      (dict_loop fc1 g ck x l d1 errs) (dict_loop fc2 g ck (unoo x) l d2 errs).
  Proof using HS.
    intros Hx. induction l as [|[n v] l IH]; intros Hl d1 d2 errs Hd.
    - split; [reflexivity|exact Hd].
    - cbn [dict_loop].
      pose proof (HS g v x Hx (Hl n v (or_introl eq_refl))) as K.
      assert (Hl' : forall m u, In (m, u) l -> no_instances u) by (intros m u Hu; apply (Hl m); now right).
      destruct (fc1 g v x) as [w1|e1], (fc2 g v (unoo x)) as [w2|e2]; cbn [rrel] in K; try contradiction; cbn [rbind].
      + destruct (ck n) as [n'|e]; cbn [rbind].
        * apply IH; [exact Hl'|]. intros En. apply drel_dset; auto.
        * unfold is_base_error. destruct (caught_by_loop e); [|constructor].
          apply IH; [exact Hl'|]. intros En. now apply dset_not_nil in En.
      + unfold is_base_error. destruct (same_failure_caught _ _ K) as [C1 C2]. rewrite C1, C2.
        destruct (caught_by_loop e2); [|exact K]. apply IH; [exact Hl'|]. intros En. now apply dset_not_nil in En.
  Qed.

  Lemma dict_convert_sim o g ck v x : ooc x -> no_instances v ->
    rrel (agree E (FS o (TDict g ck))) (dict_convert fc1 g ck v x) (dict_convert fc2 g ck v (unoo x)).
  Proof using HS.
    intros Hx Hv. unfold dict_convert. destruct v as [| | | | | | | | |d| | | | | | | |]; try (constructor; fail).
    eapply rrel_bind.
    - apply dict_loop_sim; [exact Hx| |constructor].
      intros n w Hw. eapply no_instances_dict; eauto.
    - intros [d1 e1] [d2 e2] [He Hd]. cbn [fst snd] in He, Hd. subst e2. destruct e1; [|constructor].
      constructor. apply Hd. reflexivity.
  Qed.

  Lemma model_convert_sim o pre1 pre2 c v x : ooc x -> no_instances v ->
    rrel (agree E (FS o (TModel c))) (model_convert E fc1 pre1 c v x) (model_convert E fc2 pre2 c v (unoo x)).
  Proof using HD HS.
    intros Hx Hv. unfold model_convert. destruct v as [| | | | | | | | |d|c' m| | | | | | |]; try (constructor; fail).
    - destruct (Hx) as (Ho & Hc & _).
      change (cx_convert (unoo x)) with (cx_convert x). change (cx_oo (unoo x)) with false. rewrite Hc, Ho. cbn [andb].
      destruct (model_new_sim pre1 pre2 c x d Hx Hv) as [(d1 & d2 & -> & _ & -> & A)|(e1 & e2 & -> & _ & -> & A)].
      + now constructor.
      + exact A.
    - exfalso. apply (Hv c' m). constructor.
  Qed.

  Lemma poly_convert_sim o pre1 pre2 p v x : ooc x -> no_instances v ->
    rrel (agree E (FS o (TPoly p))) (poly_convert E fc1 pre1 p v x) (poly_convert E fc2 pre2 p v (unoo x)).
  Proof using HD HS.
    intros Hx Hv. unfold poly_convert. change (cx_validate (unoo x)) with (cx_validate x).
    destruct (is_none v); [constructor|].
    destruct (negb (cx_validate x) && poly_allowed E p v); [constructor|].
    destruct v as [| | | | | | | | |d|c' m| | | | | | |];
      try (replace (cx_validate x) with false by (destruct Hx as (_ & _ & ->); reflexivity); constructor; fail).
    - rewrite andb_false_r. destruct (find_model E p (VDict d)) as [c|e]; cbn [rbind]; [|constructor].
      destruct (model_new_sim pre1 pre2 c x d Hx Hv) as [(d1 & d2 & -> & -> & _ & A)|(e1 & e2 & -> & -> & _ & A)].
      + now constructor.
      + exact A.
  Qed.
End Sim.

Lemma conv_sim E : plain_defaults E -> forall n,
  sim E (cv_field (conv_at E n)) (cv_field (conv_at E n)) /\ sim E (cv_convert (conv_at E n)) (cv_convert (conv_at E n)).
Proof.
  intros HD. induction n as [|n [IF IC]].
  - split; intros f v x Hx Hv; constructor.
  - split; intros f v x Hx Hv.
    + cbn [conv_at conv_step cv_field]. unfold field_step.
      replace (check_required f v (unoo x)) with (check_required f v x) by reflexivity.
      destruct (check_required f v x); [constructor|]. destruct (is_nil v); [constructor|].
      change (cx_validate (unoo x)) with (cx_validate x). destruct (Hx) as (_ & _ & ->). apply IC; auto.
    + cbn [conv_at conv_step cv_convert]. unfold convert_step. destruct f as [o t]. cbn [fs_type].
      destruct t as [l|ms|c|p|g|g ck].
      * destruct (lf_native l v); constructor.
      * assert (K : forall ks, (forall m, In m ks -> In m ms) ->
          rrel (fun a b => fst a = fst b /\ In (fst a) ms /\ agree E (fst a) (snd a) (snd b))
            (union_resolve (fun m u => cv_convert (conv_at E n) m u x) ks v)
            (union_resolve (fun m u => cv_convert (conv_at E n) m u (unoo x)) ks v)).
        { induction ks as [|m ks IHk]; intros Hk; [constructor|]. cbn [union_resolve].
          pose proof (IC m v x Hx Hv) as A.
          destruct (cv_convert (conv_at E n) m v x) as [w1|e1], (cv_convert (conv_at E n) m v (unoo x)) as [w2|e2];
            cbn [rrel] in A; try contradiction.
          - split; [reflexivity|]. split; [apply Hk; now left|exact A].
          - destruct A as [e|errs p q]; [destruct e|]; try constructor.
            apply IHk. intros u Hu. apply Hk. now right. }
        eapply rrel_bind; [apply (K ms (fun _ H => H))|].
        intros [m1 w1] [m2 w2] (Hq & Hm & A). cbn [fst snd] in Hq, Hm, A. subst m2. cbn [rrel]. now apply (ag_union _ o ms m1).
      * now apply model_convert_sim.
      * now apply poly_convert_sim.
      * now apply list_convert_sim.
      * now apply dict_convert_sim.
Qed.

(** ** Importing *)

Lemma fn_convert_agrees E n c d td w :
  kw_validate w = false -> kw_convert w = true -> plain_defaults E -> no_instances (VDict d) ->
  match model_init E (conv_at E n) c (VDict d) (VDict td) w,
        lo_res (fn_convert E (conv_at E n) c (VDict d) VNone (VDict td) w) with
  | Ok m, Ok d2 => m = MD [] (md_converted m) td None /\ agree_items E c (md_converted m) d2
  | Raise e1, Raise e2 => same_failure e1 e2
  | _, _ => False
  end.
Proof.
  intros Hv Hc HD Hd. unfold model_init, model__convert, fn_convert. cbn [fn_raw is_none].
  assert (Hp : (if truthy (VDict d) then py_dict E (VDict d) else Ok (md_converted (MD [] [] td None))) = Ok d)
    by (destruct d; reflexivity).
  rewrite Hp. cbn [md_unsafe]. rewrite Hv.
  set (t := if truthy (VDict td) then VDict td else VDict []).
  assert (Hx : ooc (kw_ctx w t)) by (repeat split; assumption).
  assert (Ht : fn_ctx false w (VDict td) = unoo (kw_ctx w t)).
  { unfold fn_ctx, unoo, kw_ctx. cbn. now rewrite Hv. }
  rewrite Ht. set (a := if truthy (VDict d) then NoAlias else AliasConverted).
  pose proof (import_loop_sim E HD _ _ (proj1 (conv_sim E HD n)) (cv_pre (conv_at E n)) (cv_pre (conv_at E n)) c
                (kw_ctx w t) (VModel c (MD [] [] td None)) (VDict d) a AliasSelf d Hx Hd) as (M1 & _ & R).
  cbv zeta in M1, R. rewrite M1.
  destruct (lo_res (import_loop E (cv_field (conv_at E n)) (cv_pre (conv_at E n)) (kw_ctx w t) (mc_fields (e_class E c))
              (VModel c (MD [] [] td None)) a (VDict d))) as [d1|e1],
           (lo_res (import_loop E (cv_field (conv_at E n)) (cv_pre (conv_at E n)) (unoo (kw_ctx w t)) (mc_fields (e_class E c))
              (VDict d) AliasSelf (VDict d))) as [d2|e2]; cbn [rrel] in R; try contradiction.
  - split; [reflexivity|exact R].
  - exact R.
Qed.
