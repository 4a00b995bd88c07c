(** Reading data with a mapping is reading renamed data without one. *)
From Verif.Model Require Import Py Core Export Api.
From Verif.Spec Require Import ImportSpec ValidateSpec PrimitiveSpec MapSpec.
From Verif.Proofs Require Import DictLemmas ImportLemmas ApiLemmas.

(** The context without its mapping. *)
Definition bare (x : ictx) : ictx :=
  {| cx_trusted := cx_trusted x; cx_mapping := no_mapping; cx_partial := cx_partial x; cx_strict := cx_strict x;
     cx_init_values := cx_init_values x; cx_apply_defaults := cx_apply_defaults x; cx_convert := cx_convert x;
     cx_validate := cx_validate x; cx_oo := cx_oo x; cx_recursive := cx_recursive x |}.

(** Validation is done together with conversion to instances. *)
Definition runs (x : ictx) : Prop := cx_validate x = true -> cx_convert x = true /\ cx_oo x = true.

Section M.
  Context (E : env) (HP : forall c, plain_fields (fields_of E c)).

  Lemma carried_nil s mp f v w : carried E s mp f v w -> is_nil w = is_nil v.
  Proof. now destruct 1. Qed.

  Lemma inside_ctx x n f : is_compound f = true -> field_ctx E (bare x) n f = bare (field_ctx E x n f) /\
    cx_mapping (field_ctx E x n f) = mapping_inside (cx_mapping x) n /\ cx_validate (field_ctx E x n f) = cx_validate x /\
    cx_strict (field_ctx E x n f) = cx_strict x.
  Proof.
    intros C. unfold field_ctx. rewrite C. split; [reflexivity|]. split; [|split; reflexivity]. cbn.
    unfold nested_map, mapping_inside. destruct (cx_mapping x) as [a [|p b]]; cbn [map_models]; [reflexivity|].
    now destruct (dget n (p :: b)).
  Qed.

  Lemma carried_flat s mp mp' f v w : is_compound f = false -> carried E s mp f v w -> carried E s mp' f v w.
  Proof.
    intros K C. destruct C; try discriminate K; try (now constructor).
  Qed.

  Section Step.
    Context (fc : fspec -> pyval -> ictx -> res pyval).
    (** The converter of the parts. *)
    Definition agrees : Prop := forall x f v w, runs x -> carried E (cx_strict x) (cx_mapping x) f v w -> fc f v x = fc f w (bare x).
    Context (HF : agrees).

    Lemma field_agrees x n f v w : runs x -> carried E (cx_strict x) (mapping_inside (cx_mapping x) n) f v w ->
      fc f v (field_ctx E x n f) = fc f w (field_ctx E (bare x) n f).
    Proof.
      intros V C. destruct (is_compound f) eqn:K.
      - destruct (inside_ctx x n f K) as (-> & M & V' & S'). apply HF; [|rewrite S', M; exact C]. unfold runs. rewrite V'. unfold field_ctx. rewrite K. exact V.
      - unfold field_ctx. rewrite K. apply HF; [exact V|]. eapply carried_flat; [exact K|exact C].
    Qed.

    Lemma candidate_carried x n f c d e : In (n, f) (fields_of E c) ->
      ((supplied d n (fd_spec f) (cx_mapping x) = None /\ supplied e n (fd_spec f) no_mapping = None /\
          carried E (cx_strict x) (mapping_inside (cx_mapping x) n) (fd_spec f) (fo_default (fs_opts (fd_spec f))) (fo_default (fs_opts (fd_spec f)))) \/
         exists v w, supplied d n (fd_spec f) (cx_mapping x) = Some v /\ supplied e n (fd_spec f) no_mapping = Some w /\
           carried E (cx_strict x) (mapping_inside (cx_mapping x) n) (fd_spec f) v w) ->
      carried E (cx_strict x) (mapping_inside (cx_mapping x) n) (fd_spec f) (candidate x (fd_spec f) (supplied d n (fd_spec f) (cx_mapping x)))
        (candidate (bare x) (fd_spec f) (supplied e n (fd_spec f) no_mapping)).
    Proof.
      intros _ [(-> & -> & C)|(v & w & -> & -> & C)]; [|exact C]. cbn [candidate bare cx_apply_defaults cx_init_values].
      destruct (cx_apply_defaults x), (fo_default (fs_opts (fd_spec f))), (cx_init_values x); try exact C; now constructor.
    Qed.

    Lemma outcome_agrees x n f c d e td : runs x -> In (n, f) (fields_of E c) ->
      ((supplied d n (fd_spec f) (cx_mapping x) = None /\ supplied e n (fd_spec f) no_mapping = None /\
          carried E (cx_strict x) (mapping_inside (cx_mapping x) n) (fd_spec f) (fo_default (fs_opts (fd_spec f))) (fo_default (fs_opts (fd_spec f)))) \/
         exists v w, supplied d n (fd_spec f) (cx_mapping x) = Some v /\ supplied e n (fd_spec f) no_mapping = Some w /\
           carried E (cx_strict x) (mapping_inside (cx_mapping x) n) (fd_spec f) v w) ->
      field_outcome E fc x d td n (fd_spec f) = field_outcome E fc (bare x) e td n (fd_spec f).
    Proof.
      intros V Hi H. pose proof (candidate_carried x n f c d e Hi H) as C. unfold field_outcome. cbn [bare cx_mapping] in *.
      pose proof (field_agrees x n (fd_spec f) _ _ V C) as K. clear C.
      destruct H as [(A & B & _)|(v & w & A & B & _)]; rewrite A, B in *; (destruct (dget n td); [try reflexivity|]); now rewrite K.
    Qed.

    Lemma fields_agree x d e : runs x -> defined_dict d -> defined_dict e ->
      forall fs,
      (forall n f, In (n, f) fs -> forall td, field_outcome E fc x d td n (fd_spec f) = field_outcome E fc (bare x) e td n (fd_spec f)) ->
      forall data errs, (forall n f, In (n, f) fs -> has_setter f = false) ->
      import_fields E fc x true (VDict d) fs (data, errs) = import_fields E fc (bare x) true (VDict e) fs (data, errs).
    Proof.
      intros V Hd He fs. induction fs as [|[n f] fs IH]; intros H data errs S; cbn [import_fields]; [reflexivity|].
      rewrite (S n f (or_introl eq_refl)), !andb_false_r.
      rewrite !(import_field_outcome E fc _ _ data n f data errs) by (assumption || reflexivity).
      rewrite (H n f (or_introl eq_refl) data).
      assert (A : forall o s, apply_outcome x n (fd_spec f) o s = apply_outcome (bare x) n (fd_spec f) o s).
      { intros [|v|ex] [d1 e1]; reflexivity. }
      rewrite A. destruct (apply_outcome _ _ _ _ _) as [[d1 e1]|]; cbn [rbind]; [|reflexivity].
      apply IH; [intros; apply H; now right|intros; eapply S; right; eassumption].
    Qed.

    Lemma rogues_agree x fs d e errs : (cx_strict x = true -> same_unknown fs (cx_mapping x) no_mapping d e) ->
      rogues E x fs (VDict d) errs = rogues E (bare x) fs (VDict e) errs.
    Proof.
      intros H. unfold rogues. cbn [bare cx_strict cx_mapping py_keys rbind]. destruct (cx_strict x); [|reflexivity].
      destruct (H eq_refl) as (b & b' & B & B' & Q).
      assert (G : forall mp (b : key -> bool) l, (forall y, b y = true <-> ~ acceptable fs mp y) ->
        filter (fun y => negb (kmem y (all_input_keys fs mp))) l = filter b l).
      { clear. intros mp b l B. apply filter_ext. intros y. apply eq_true_iff_eq. rewrite B, negb_true_iff, kmem_nIn, all_input_keys_acceptable. reflexivity. }
      now rewrite (G _ _ _ B), (G _ _ _ B'), Q.
    Qed.

    Lemma settable_none raw fs data : (forall n f, In (n, f) fs -> has_setter f = false) -> copy_settable E raw fs data = data.
    Proof.
      revert data. induction fs as [|[n f] fs IH]; intros data S; cbn [copy_settable]; [reflexivity|].
      rewrite (S n f (or_introl eq_refl)). apply IH. intros; eapply S; right; eassumption.
    Qed.
    Lemma no_setter c n f : In (n, f) (fields_of E c) -> has_setter f = false.
    Proof. intros Hi. unfold has_setter. destruct (HP c n f Hi) as [_ ->]. reflexivity. Qed.

    Lemma mutate_none pre x a mut raw fs errs : (forall n f, In (n, f) fs -> has_setter f = false) ->
      mutate_fields E fc pre x a fs mut raw errs = (mut, raw, Ok errs).
    Proof.
      induction fs as [|[n f] fs IH]; intros S; cbn [mutate_fields]; [reflexivity|]. pose proof (S n f (or_introl eq_refl)) as N.
      unfold has_setter in N. destruct (fd_set f); [discriminate N|]. apply IH. intros; eapply S; right; eassumption.
    Qed.
    Lemma empty_items c : py_dict E (VModel c md_empty) = Ok [].
    Proof.
      cbn [py_dict py_keys rbind]. unfold model_iter. replace (filter _ _) with (@nil (key * field)); [reflexivity|].
      induction (mc_fields (e_class E c)) as [|p l IH]; [reflexivity|]. cbn. exact IH.
    Qed.
    (** With validation the instance to be made is empty. *)
    Lemma loop_agrees pre pre' x c mut mut' a a' d e : runs x ->
      (cx_validate x = true -> mut = VModel c md_empty /\ mut' = VModel c md_empty /\ (a = NoAlias \/ a = AliasConverted /\ d = []) /\
         (a' = NoAlias \/ a' = AliasConverted /\ e = [])) ->
      renamed E (cx_strict x) (cx_mapping x) c d e ->
      let o := import_loop E fc pre x (fields_of E c) mut a (VDict d) in
      let o' := import_loop E fc pre' (bare x) (fields_of E c) mut' a' (VDict e) in
      lo_res o = lo_res o' /\ lo_mut o = mut /\ lo_mut o' = mut'.
    Proof.
      intros V HM R. unfold renamed in R.
      inversion R as [? ? ? N| | | | | | |mp o0 c' d' e' Hd He U F|mp f v UF]; subst; [discriminate N| |destruct UF].
      assert (SN : forall n f, In (n, f) (fields_of E c) -> has_setter f = false) by (intros n f Hi; eapply no_setter; exact Hi).
      cbv zeta. unfold import_loop. cbn [is_none negb bare cx_trusted cx_validate].
      destruct (if truthy (cx_trusted x) then _ else _) as [data0|]; [|auto].
      assert (MX : forall y mut a d, cx_validate y = cx_validate x -> (cx_validate x = true -> mut = VModel c md_empty /\ (a = NoAlias \/ a = AliasConverted /\ d = [])) ->
        (if true && cx_validate x then mutate E fc pre y a (fields_of E c) mut (VDict d) else (mut, VDict d, Ok [])) = (mut, VDict d, Ok []) /\
        (if true && cx_validate x then mutate E fc pre' y a (fields_of E c) mut (VDict d) else (mut, VDict d, Ok [])) = (mut, VDict d, Ok [])).
      { intros y mut0 a0 d0 _ G. destruct (cx_validate x); cbn [andb]; [|auto]. destruct (G eq_refl) as [-> Ga]. unfold mutate.
        rewrite !mutate_none by exact SN. rewrite empty_items. destruct Ga as [->|[-> ->]]; cbn; auto. }
      rewrite (proj1 (MX x mut a d eq_refl ltac:(intros Vx; destruct (HM Vx); tauto))).
      rewrite (proj2 (MX (bare x) mut' a' e eq_refl ltac:(intros Vx; destruct (HM Vx); tauto))).
      cbn [lo_res lo_mut rbind]. split; [|auto].
      rewrite (rogues_agree x _ d e [] U). destruct (rogues E (bare x) _ _ _) as [errs|]; cbn [rbind]; [|reflexivity].
      rewrite (fields_agree x d e V Hd He).
      - destruct (import_fields E fc (bare x) _ _ _ _) as [[data errors]|]; cbn [rbind]; [|reflexivity].
        now rewrite !settable_none by exact SN.
      - intros n f Hi td. eapply outcome_agrees; [exact V|exact Hi|]. apply F. exact Hi.
      - exact SN.
    Qed.

    Lemma list_agrees x g l l' : runs x -> Forall2 (carried E (cx_strict x) (cx_mapping x) g) l l' ->
      forall i data errs, list_loop fc g x i l data errs = list_loop fc g (bare x) i l' data errs.
    Proof.
      intros V. induction 1 as [|v w l l' C _ IH]; intros i data errs; cbn [list_loop]; [reflexivity|].
      rewrite (HF x g v w V C). destruct (fc g w (bare x)) as [u|ex]; [apply IH|]. destruct (is_base_error ex); [apply IH|reflexivity].
    Qed.
    Lemma dict_agrees x g ck d e : runs x ->
      Forall2 (fun p q => fst p = fst q /\ carried E (cx_strict x) (cx_mapping x) g (snd p) (snd q)) d e ->
      forall data errs, dict_loop fc g ck x d data errs = dict_loop fc g ck (bare x) e data errs.
    Proof.
      intros V. induction 1 as [|[y v] [y' w] d e [Q C] _ IH]; intros data errs; cbn [dict_loop]; [reflexivity|]. cbn [fst snd] in Q, C. subst y'.
      rewrite (HF x g v w V C). destruct (rbind _ _) as [[y' u]|ex]; [apply IH|]. destruct (is_base_error ex); [apply IH|reflexivity].
    Qed.
  End Step.

  Lemma validate_agrees fc pre pre' x c a a' d e : agrees fc -> runs x -> cx_validate x = true -> (a = NoAlias \/ a = AliasConverted /\ d = []) ->
    (a' = NoAlias \/ a' = AliasConverted /\ e = []) -> renamed E (cx_strict x) (cx_mapping x) c d e ->
    let o := validate_fn E fc pre x (e_class E c) (VModel c md_empty) a (VDict d) in
    let o' := validate_fn E fc pre' (bare x) (e_class E c) (VModel c md_empty) a' (VDict e) in
    lo_res o = lo_res o' /\ lo_mut o = VModel c md_empty /\ lo_mut o' = VModel c md_empty.
  Proof.
    intros HF V Vx A A' R. cbv zeta. unfold validate_fn.
    destruct (loop_agrees fc HF pre pre' x c (VModel c md_empty) (VModel c md_empty) a a' d e V ltac:(tauto) R) as (L1 & L2 & L3).
    unfold fields_of in *. cbn [lo_res lo_mut]. rewrite L1, L2, L3. auto.
  Qed.
  Lemma model_agrees fc pre x c d e : agrees fc -> runs x -> renamed E (cx_strict x) (cx_mapping x) c d e ->
    model_convert E fc pre c (VDict d) x = model_convert E fc pre c (VDict e) (bare x).
  Proof.
    intros HF V R. unfold model_convert. cbn [bare cx_convert cx_oo]. destruct (cx_convert x && cx_oo x) eqn:CO.
    - unfold model_new.
      assert (D : forall d : list (key * pyval), (if truthy (VDict d) then py_dict E (VDict d) else Ok []) = Ok d) by (intros [|]; reflexivity).
      assert (A : forall d : list (key * pyval), (if truthy (VDict d) then NoAlias else AliasConverted) = NoAlias \/
        (if truthy (VDict d) then NoAlias else AliasConverted) = AliasConverted /\ d = []) by (intros [|]; cbn; auto).
      rewrite !D. cbn [rbind]. change (cx_validate (bare x)) with (cx_validate x).
      destruct (cx_validate x) eqn:Vx.
      + destruct (validate_agrees fc pre pre x c _ _ d e HF V Vx (A d) (A e) R) as (-> & -> & ->). reflexivity.
      + destruct (loop_agrees fc HF pre pre x c (VModel c md_empty) (VModel c md_empty) (if truthy (VDict d) then NoAlias else AliasConverted) (if truthy (VDict e) then NoAlias else AliasConverted) d e V ltac:(congruence) R) as (L1 & L2 & L3).
        unfold fields_of in *. rewrite L1, L2, L3. reflexivity.
    - unfold model_class_convert.
      assert (Vx : cx_validate x = false).
      { destruct (cx_validate x) eqn:Vx; [|reflexivity]. destruct (V Vx) as [K1 K2]. rewrite K1, K2 in CO. discriminate CO. }
      destruct (loop_agrees fc HF pre pre x c (VDict d) (VDict e) AliasSelf AliasSelf d e V ltac:(congruence) R) as (L1 & _).
      unfold fields_of in *. rewrite L1. reflexivity.
  Qed.

  Lemma renamed_any s mp o c d e : carried E s mp (FS o (TModel c)) (VDict d) (VDict e) -> renamed E s mp c d e.
  Proof.
    intros C. inversion C as [? ? ? N| | | | | | |? ? ? ? ? Hd He U F|? ? ? UF]; subst; [discriminate N| |destruct UF].
    constructor; assumption.
  Qed.

  Lemma leaf_members j ms v x y : (forall m, In m ms -> exists o' l, m = FS o' (TLeaf l)) ->
    union_resolve (fun m u => cv_convert (conv_at E j) m u x) ms v = union_resolve (fun m u => cv_convert (conv_at E j) m u y) ms v.
  Proof.
    induction ms as [|m ms IH]; intros H; [reflexivity|]. cbn [union_resolve].
    destruct (H m (or_introl eq_refl)) as (o & l & ->).
    assert (K : cv_convert (conv_at E j) (FS o (TLeaf l)) v x = cv_convert (conv_at E j) (FS o (TLeaf l)) v y) by (destruct j; reflexivity).
    rewrite K. destruct (cv_convert _ _ _ y) as [u|[]]; try reflexivity. apply IH. intros; apply H; now right.
  Qed.

  Lemma leaf_validate j m v x : (exists o' l, m = FS o' (TLeaf l)) -> cv_validate (conv_at E j) m v x = cv_validate (conv_at E j) m v (bare x).
  Proof. intros (o & l & ->). destruct j as [|[|j]]; reflexivity. Qed.

  Lemma conv_agrees j : agrees (cv_field (conv_at E j)) /\
    (forall x f v w, is_nil v = false -> runs x -> carried E (cx_strict x) (cx_mapping x) f v w ->
       cv_convert (conv_at E j) f v x = cv_convert (conv_at E j) f w (bare x)) /\
    (forall x f v w, is_nil v = false -> runs x -> cx_validate x = true -> carried E (cx_strict x) (cx_mapping x) f v w ->
       cv_validate (conv_at E j) f v x = cv_validate (conv_at E j) f w (bare x)).
  Proof.
    induction j as [|j (IHf & IHc & IHv)]; [split; [intros x f v w _ _; reflexivity|split; reflexivity]|]. split; [|split].
    - intros x f v w V C. cbn [conv_at conv_step cv_field]. unfold field_step, check_required.
      rewrite (carried_nil _ _ _ _ _ C). cbn [bare cx_partial cx_validate]. destruct (_ && _ && _); [reflexivity|].
      destruct (is_nil v) eqn:N; [|destruct (cx_validate x) eqn:Vx; auto]. destruct C; try reflexivity; discriminate N.
    - intros x f v w N V C. cbn [conv_at conv_step cv_convert]. unfold convert_step. remember (cx_mapping x) as mp0 eqn:M0.
      destruct C as [mp f v K|mp o l v|mp o ms v L|mp o g l l' F|mp o g l l' F|mp o g b F|mp o g ck d e F|mp o c d e Hd He U F|mp f v UF]; subst; cbn [fs_type].
      + congruence.
      + reflexivity.
      + now rewrite (leaf_members j ms v x (bare x) L).
      + cbn [list_convert list_elems]. now rewrite (list_agrees _ IHf x g l l' V F).
      + cbn [list_convert list_elems]. now rewrite (list_agrees _ IHf x g l l' V F).
      + cbn [list_convert list_elems]. rewrite (list_agrees _ IHf x g (map (fun c => VInt (Z.of_N c)) b) (map (fun c => VInt (Z.of_N c)) b) V); [reflexivity|].
        induction b; constructor; auto.
      + cbn [dict_convert]. now rewrite (dict_agrees _ IHf x g ck d e V F).
      + apply model_agrees; [exact IHf|exact V|]. constructor; assumption.
      + destruct f as [o t]. cbn [fs_type] in *.
        destruct t as [l|ms|c|p|g|g ck]; try (destruct UF; fail); try reflexivity;
          destruct v; try reflexivity; try (destruct UF; fail).
    - intros x f v w N V Vx C. destruct (V Vx) as [Kc Ko]. cbn [conv_at conv_step cv_validate]. unfold validate_step.
      cbn [bare cx_convert]. rewrite Kc. rewrite (IHc x f v w N V C).
      destruct f as [o [l|ms|c|p|g|g ck]]; cbn [fs_type fs_opts]; try reflexivity.
      inversion C as [? ? ? K| |? ? ? ? L| | | | | |? ? ? UF]; subst; [congruence| |destruct UF].
      rewrite (leaf_members j ms w x (bare x) L).
      destruct (union_resolve _ ms w) as [[m u]|ex] eqn:Q; cbn [rbind]; [|reflexivity].
      apply leaf_validate. apply L. clear - Q. revert Q. induction ms as [|m0 ms IH]; cbn [union_resolve]; [discriminate|].
      destruct (cv_convert _ m0 w _) as [u0|[]]; try discriminate; [intros [= <- _]; now left|]. intros Q. right. auto.
  Qed.
End M.

Lemma mapping_init E j c d e td w : (forall c, plain_fields (fields_of E c)) -> kw_validate w = false ->
  renamed E (kw_strict w) (kw_mapping w) c d e ->
  model_init E (conv_at E j) c (VDict d) (VDict td) w = model_init E (conv_at E j) c (VDict e) (VDict td) (unmapped w).
Proof.
  intros HP V R. rewrite !init_plain by exact V.
  assert (W : runs (kw_ctx w (VDict td))) by (intros K; cbn in K; congruence).
  destruct (loop_agrees E HP _ (proj1 (conv_agrees E HP j)) (cv_pre (conv_at E j)) (cv_pre (conv_at E j)) (kw_ctx w (VDict td)) c
    (VModel c (MD [] [] td None)) (VModel c (MD [] [] td None)) NoAlias NoAlias d e W ltac:(cbn; congruence) R) as (L & _).
  unfold fields_of in L. rewrite L. reflexivity.
Qed.
Lemma mapping_init_validate E j c d e w : (forall c, plain_fields (fields_of E c)) -> kw_validate w = true -> kw_convert w = true ->
  renamed E (kw_strict w) (kw_mapping w) c d e ->
  model_init E (conv_at E j) c (VDict d) (VDict []) w = model_init E (conv_at E j) c (VDict e) (VDict []) (unmapped w).
Proof.
  intros HP V Kc R. unfold model_init, model__convert.
  assert (D : forall d : list (key * pyval), (if truthy (VDict d) then py_dict E (VDict d) else Ok (md_converted (MD [] [] [] None))) = Ok d) by (intros [|]; reflexivity).
  rewrite !D. cbn [md_unsafe truthy unmapped kw_validate kw_convert kw_partial kw_init_values kw_apply_defaults kw_recursive]. rewrite V.
  assert (A : forall d : list (key * pyval), (if truthy (VDict d) then NoAlias else AliasConverted) = NoAlias \/
    (if truthy (VDict d) then NoAlias else AliasConverted) = AliasConverted /\ d = []) by (intros [|]; cbn; auto).
  assert (W : runs (kw_ctx w (VDict []))) by (intros _; split; [exact Kc|reflexivity]).
  destruct (validate_agrees E HP _ (cv_pre (conv_at E j)) (cv_pre (conv_at E j)) (kw_ctx w (VDict [])) c _ _ d e (proj1 (conv_agrees E HP j)) W V (A d) (A e) R) as (L1 & L2 & L3).
  cbn [truthy] in *. unfold md_empty in *. unfold unmapped, bare in *. cbn [kw_ctx cx_trusted cx_partial cx_strict cx_init_values cx_apply_defaults cx_convert cx_validate cx_oo cx_recursive] in *.
  rewrite V in *. unfold kw_ctx in *. cbn [kw_mapping kw_partial kw_strict kw_init_values kw_apply_defaults kw_convert kw_validate kw_recursive] in *. rewrite ?V in *.
  change (if nonempty (@nil (key * pyval)) then VDict [] else VDict []) with (VDict []). rewrite L2, L3, L1. reflexivity.
Qed.

Lemma mapping_import E j c m d e w : (forall c, plain_fields (fields_of E c)) -> kw_validate w = false -> md_unsafe m = [] ->
  d <> [] -> e <> [] -> renamed E (kw_strict w) (kw_mapping w) c d e ->
  model_import_data E (conv_at E j) c m (VDict d) w = model_import_data E (conv_at E j) c m (VDict e) (unmapped w).
Proof.
  intros HP V U Nd Ne R. destruct (py_dict E (VModel c m)) as [td|ex] eqn:T.
  - rewrite !(import_data_plain E _ c m _ td) by assumption.
    replace (if nonempty d then d else md_converted m) with d by (destruct d; [now destruct Nd|reflexivity]).
    replace (if nonempty e then e else md_converted m) with e by (destruct e; [now destruct Ne|reflexivity]).
    assert (W : runs (kw_ctx w (VDict td))) by (intros K; cbn in K; congruence).
    destruct (loop_agrees E HP _ (proj1 (conv_agrees E HP j)) (cv_pre (conv_at E j)) (cv_pre (conv_at E j)) (kw_ctx w (VDict td)) c
      (VModel c m) (VModel c m) NoAlias NoAlias d e W ltac:(cbn; congruence) R) as (L & _).
    unfold fields_of in L. rewrite L. reflexivity.
  - unfold model_import_data. rewrite T. reflexivity.
Qed.

Lemma unknown_iff fs mp y : negb (existsb (key_eqb y) (all_input_keys fs mp)) = true <-> ~ acceptable fs mp y.
Proof.
  rewrite negb_true_iff, <- not_true_iff_false, existsb_exists, <- all_input_keys_acceptable. split; intros N Q; apply N.
  - exists y. split; [exact Q|apply key_eqb_refl].
  - destruct Q as (z & Hz & Qz). apply key_eqb_eq in Qz. now subst.
Qed.

(** Every data has a renamed form. *)
Section Exists.
  Context (E : env) (strict : bool) (HE : mappable_env E).

  Lemma in_dkeys {A} y (v : A) d : In (y, v) d -> In y (dkeys d).
  Proof. intros Hi. unfold dkeys. apply in_map_iff. exists (y, v). auto. Qed.
  Lemma plain_carried mp f v : plain_object v -> mappable f -> carried E strict mp f v v.
  Proof.
    assert (Z : forall g mp z, mappable g -> carried E strict mp g (VInt z) (VInt z)).
    { intros [o t] mp0 z G. cbn in G. destruct t as [l|ms|c|p|g'|g' ck]; [apply ca_leaf|now apply ca_union|now apply ca_other|destruct G|now apply ca_other|now apply ca_other]. }
    intros P M. destruct f as [o t]. cbn in M. destruct t as [l|ms|c|p|g|g ck]; [apply ca_leaf|now apply ca_union| |destruct M| |].
    - apply ca_other. now destruct v.
    - destruct v; try (apply ca_other; exact I); try destruct P. apply ca_bytes. auto.
    - apply ca_other. now destruct v.
  Qed.
  Lemma default_carried mp f v : plain_object v \/ v = VUndef -> mappable f -> carried E strict mp f v v.
  Proof. intros [P| ->] M; [now apply plain_carried|]. now apply ca_nil. Qed.
  Lemma carried_undef mp f v w : carried E strict mp f v w -> is_undef w = is_undef v.
  Proof. now destruct 1. Qed.
  Lemma supplied_entry d n f mp v : supplied d n f mp = Some v -> exists y, In (y, v) d.
  Proof. unfold supplied. destruct (find _ _) as [y|]; [|discriminate]. intros D. exists y. now apply dget_In. Qed.

  Lemma fields_built mp d (fs : list (key * field)) : NoDup (dkeys fs) ->
    (forall n f v, In (n, f) fs -> supplied d n (fd_spec f) mp = Some v ->
       exists w, carried E strict (mapping_inside mp n) (fd_spec f) v w /\ is_undef w = false) ->
    exists es, (forall y, In y (dkeys es) -> In y (dkeys fs)) /\ (forall y v, In (y, v) es -> is_undef v = false) /\
      forall n f, In (n, f) fs ->
        (supplied d n (fd_spec f) mp = None /\ dget n es = None) \/
        exists v w, supplied d n (fd_spec f) mp = Some v /\ dget n es = Some w /\ carried E strict (mapping_inside mp n) (fd_spec f) v w.
  Proof.
    induction fs as [|[n f] fs IH]; intros ND H.
    - exists []. split; [intros y []|split; [intros y v []|intros n f []]].
    - inversion ND as [|? ? Nn ND']; subst. destruct IH as (es & K & U & F); [exact ND'|intros; eapply H; [right|]; eassumption|].
      assert (Ne : dget n es = None) by (apply dget_None_keys; intros Hn; apply Nn, K, Hn).
      destruct (supplied d n (fd_spec f) mp) as [v|] eqn:S.
      + destruct (H n f v (or_introl eq_refl) S) as (w & C & Uw). exists ((n, w) :: es). split; [|split].
        * intros y [<-|Hy]; [now left|right; auto].
        * intros y v0 [[= <- <-]|Hy]; eauto.
        * intros n0 f0 [[= <- <-]|Hi].
          -- right. exists v, w. cbn. rewrite key_eqb_refl. auto.
          -- cbn. destruct (key_eqb n0 n) eqn:Q; [apply key_eqb_eq in Q; subst; destruct Nn; eapply in_dkeys; exact Hi|]. auto.
      + exists es. split; [intros; right; auto|split; [exact U|]]. intros n0 f0 [[= <- <-]|Hi]; auto.
  Qed.

  Lemma carried_exists v : external v -> forall mp f, mappable f -> exists w, carried E strict mp f v w.
  Proof.
    induction 1 as [v P|l _ IH|l _ IH|d He IH]; intros mp f M.
    - exists v. now apply plain_carried.
    - destruct f as [o t]. cbn in M. destruct t as [l0|ms|c|p|g|g ck]; [eexists; apply ca_leaf|eexists; now apply ca_union|eexists; now apply ca_other|destruct M| |eexists; now apply ca_other].
      assert (X : exists l', Forall2 (carried E strict mp g) l l').
      { clear o. induction l as [|v l IHl]; [exists []; constructor|]. destruct (IH v (or_introl eq_refl) mp g M) as (w & C).
        destruct IHl as (l' & F); [intros; apply IH; [now right|assumption]|]. exists (w :: l'). now constructor. }
      destruct X as (l' & F). eexists. apply ca_list. exact F.
    - destruct f as [o t]. cbn in M. destruct t as [l0|ms|c|p|g|g ck]; [eexists; apply ca_leaf|eexists; now apply ca_union|eexists; now apply ca_other|destruct M| |eexists; now apply ca_other].
      assert (X : exists l', Forall2 (carried E strict mp g) l l').
      { clear o. induction l as [|v l IHl]; [exists []; constructor|]. destruct (IH v (or_introl eq_refl) mp g M) as (w & C).
        destruct IHl as (l' & F); [intros; apply IH; [now right|assumption]|]. exists (w :: l'). now constructor. }
      destruct X as (l' & F). eexists. apply ca_tuple. exact F.
    - destruct f as [o t]. cbn in M. destruct t as [l0|ms|c|p|g|g ck]; [eexists; apply ca_leaf|eexists; now apply ca_union| |destruct M|eexists; now apply ca_other|].
      + assert (Ud : forall y v, In (y, v) d -> is_undef v = false).
        { intros y v Hi. pose proof (He y v Hi) as Hx. inversion Hx as [? P| | |]; subst; try reflexivity. now destruct v. }
        destruct (fields_built mp d (fields_of E c)) as (es & K & U & F); [apply (mm_names E HE)| |].
        { intros n f v Hi S. destruct (supplied_entry _ _ _ _ _ S) as (y & Hy).
          destruct (IH y v Hy (mapping_inside mp n) (fd_spec f) (mm_types E HE c n f Hi)) as (w & C). exists w. split; [exact C|].
          rewrite (carried_undef _ _ _ _ C). eauto. }
        pose (b := fun y => negb (existsb (key_eqb y) (all_input_keys (fields_of E c) mp))).
        pose (b' := fun y => negb (existsb (key_eqb y) (all_input_keys (fields_of E c) no_mapping))).
        assert (B : forall mp y, negb (existsb (key_eqb y) (all_input_keys (fields_of E c) mp)) = true <-> ~ acceptable (fields_of E c) mp y).
        { intros. apply unknown_iff. }
        assert (AC : forall y, acceptable (fields_of E c) no_mapping y -> acceptable (fields_of E c) mp y).
        { intros y A. inversion A as [n f Hi|n f s Hi Hs T|n f s Hi Hs|]; subst; [eapply acc_name|eapply acc_sname|eapply acc_from|]; eauto.
          all: try (cbn in *; tauto). }
        set (rest := filter (fun p => b (fst p)) d).
        assert (RK : forall y, In y (dkeys rest) -> ~ acceptable (fields_of E c) mp y).
        { intros y Hy. unfold dkeys in Hy. apply in_map_iff in Hy as ([y0 v] & <- & Hy). apply filter_In in Hy as [_ Hb]. cbn in *. now apply B. }
        exists (VDict (es ++ rest)). apply ca_model.
        * intros y D. apply dget_In in D. pose proof (Ud _ _ D). discriminate.
        * intros y D. apply dget_In, in_app_or in D. destruct D as [D|D].
          -- pose proof (U _ _ D). discriminate.
          -- apply filter_In in D as [D _]. pose proof (Ud _ _ D). discriminate.
        * intros _. exists b, b'. split; [apply B|split; [apply B|]]. unfold dkeys. rewrite map_app, filter_app.
          replace (filter b' (map fst es)) with (@nil key).
          -- cbn [app]. unfold rest. clear - AC B. induction d as [|[y v] d IHd]; [reflexivity|]. cbn [map filter fst].
             destruct (b y) eqn:Q; [|exact IHd]. cbn [map filter fst].
             assert (Q' : b' y = true) by (apply B; intros A; apply (B mp y) in Q; auto). rewrite Q'. now f_equal.
          -- symmetry. assert (Z : forall l, (forall y, In y l -> b' y = false) -> filter b' l = []).
             { induction l as [|y l IHl]; intros Hl; [reflexivity|]. cbn. rewrite (Hl y (or_introl eq_refl)). apply IHl. intros; apply Hl; now right. }
             apply Z. intros y Hy. apply K in Hy. destruct (b' y) eqn:Q; [|reflexivity]. apply B in Q. destruct Q.
             apply in_map_iff in Hy as ([n f] & <- & Hi). cbn. eapply acc_name. exact Hi.
        * intros n f Hi.
          assert (Rn : dget n rest = None).
          { apply dget_None_keys. intros Hn. apply (RK n Hn). eapply acc_name. exact Hi. }
          assert (SE : supplied (es ++ rest) n (fd_spec f) no_mapping = dget n es).
          { unfold supplied. unfold accepted_names at 1. cbn [find]. unfold dmem at 1.
            assert (DA : dget n (es ++ rest) = dget n es).
            { clear - Rn. induction es as [|[y v] es IHe]; cbn; [exact Rn|]. destruct (key_eqb n y); auto. }
            rewrite DA. destruct (dget n es) as [w|] eqn:Dn; [exact DA|].
            destruct (find _ _) as [y|] eqn:Fy; [|reflexivity]. apply find_some in Fy as [Hy Dy].
            assert (Ay : In y (accepted_names n (fd_spec f) no_mapping)) by (right; exact Hy).
            unfold dmem in Dy. destruct (dget y (es ++ rest)) as [u|] eqn:Du; [|discriminate Dy]. apply dget_In, in_app_or in Du. destruct Du as [Du|Du].
            - assert (Hy' : In y (dkeys (fields_of E c))) by (apply K; apply in_dkeys with (1 := Du)).
              apply in_map_iff in Hy' as ([n' f'] & Q & Hi'). cbn in Q. subst n'.
              pose proof (mm_separate E HE c n f y f' Hi Hi' Ay) as ->. apply in_dkeys in Du. apply dget_None_keys in Dn. contradiction.
            - apply in_dkeys in Du. destruct (RK y Du). apply AC. eapply accepted_acceptable; eassumption. }
          destruct (F n f Hi) as [[S N]|(v & w & S & D & C)].
          -- left. split; [exact S|split; [now rewrite SE|]]. apply default_carried; [eapply (mm_defaults E HE)|eapply (mm_types E HE)]; exact Hi.
          -- right. exists v, w. rewrite SE. auto.
      + assert (X : exists e, Forall2 (fun p q => fst p = fst q /\ carried E strict mp g (snd p) (snd q)) d e).
        { clear He. induction d as [|[y v] d IHd]; [exists []; constructor|]. destruct (IH y v (or_introl eq_refl) mp g M) as (w & C).
          destruct IHd as (l' & F); [intros; eapply IH; [right; eassumption|assumption]|]. exists ((y, w) :: l'). now constructor. }
        destruct X as (e & F). eexists. apply ca_dict. exact F.
  Qed.

  Lemma renamed_exists mp c d : (forall y v, In (y, v) d -> external v) -> exists e, renamed E strict mp c d e.
  Proof.
    intros Hd. destruct (carried_exists (VDict d) (ex_dict d Hd) mp (FS (FO false false VUndef None [] [] None None) (TModel c)) I) as (w & C).
    inversion C as [? ? ? N| | | | | | |mp0 o0 c' d' e' A1 A2 A3 A4|mp0 f0 v0 UF]; subst; [discriminate N| |destruct UF]. exists e'. exact C.
  Qed.
End Exists.
