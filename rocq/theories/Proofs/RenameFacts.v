(** A program and a version of it with other field names behave the same. *)
From Coq Require Import Lia.
From Verif.Model Require Import Py Core Export Api.
From Verif.Spec Require Import CallSpec ImportSpec ValidateSpec PrimitiveSpec OrderSpec CompoundSpec RenameSpec.
From Verif.Proofs Require Import DictLemmas ImportLemmas ApiLemmas ImportApi ValidateLemmas.

Lemma F2_map {A B} (R S : A -> B -> Prop) (h : forall a b, R a b -> S a b) l m : Forall2 R l m -> Forall2 S l m.
Proof. induction 1; constructor; auto. Defined.

Section Rename.
  Context (E E2 : env) (rho : cid -> key -> key) (used : key -> bool) (X : renames E E2 rho used).
  Local Notation outside := (outside used).
  Local Notation layer := (layer E rho).
  Local Notation kin := (kin E rho used).
  Local Notation kin_data := (kin_data E rho used).
  Local Notation ren_field := (ren_field E rho used).
  Local Notation ren_entry := (ren_entry E rho used).

  (** ** Related values *)
  Lemma kin_up raw f v w : kin false f v w -> kin raw f v w.
  Proof.
    revert f v w. fix IH 4. intros f v w [g|g|o l u|o ms u|o g l m H|o g ck d e H|o c m n U1 U2 L1 L2|o c d e L|g u R O].
    - apply kin_none.
    - apply kin_undef.
    - apply kin_leaf.
    - apply kin_union.
    - apply kin_list. exact (F2_map _ _ (IH g) _ _ H).
    - apply kin_dict. refine (F2_map _ _ _ _ _ H). intros p q [A B]. exact (conj A (IH g _ _ B)).
    - apply kin_model; [exact U1|exact U2| |].
      + refine (F2_map _ _ _ _ _ L1). intros p q (A & B & C & f0 & I & K). exact (conj A (conj B (conj C (ex_intro _ f0 (conj I (IH _ _ _ K)))))).
      + refine (F2_map _ _ _ _ _ L2). intros p q (A & B & C & f0 & I & K). exact (conj A (conj B (conj C (ex_intro _ f0 (conj I (IH _ _ _ K)))))).
    - apply kin_part. refine (F2_map _ _ _ _ _ L). intros p q (A & B & C & f0 & I & K). exact (conj A (conj B (conj C (ex_intro _ f0 (conj I (IH _ _ _ K)))))).
    - discriminate R.
  Qed.
  Lemma kin_raw_up raw f v w : kin raw f v w -> kin true f v w.
  Proof.
    destruct raw; [auto|]. apply kin_up.
  Qed.
  Lemma outside_defined v : outside v -> is_undef v = false.
  Proof. intros [u P|l _|l _|d _]; try reflexivity. destruct u; try reflexivity. destruct P. Qed.
  Lemma kin_undef_iff raw f v w : kin raw f v w -> is_undef v = is_undef w.
  Proof. intros H. inversion H; subst; reflexivity. Qed.
  Lemma kin_nil raw f v w : kin raw f v w -> is_nil v = is_nil w.
  Proof. intros H. inversion H; subst; reflexivity. Qed.
  Lemma kin_leaf_eq raw o l v w : kin raw (FS o (TLeaf l)) v w -> v = w.
  Proof. intros H. inversion H; subst; reflexivity. Qed.
  Lemma kin_union_eq raw o ms v w : kin raw (FS o (TUnion ms)) v w -> v = w.
  Proof. intros H. inversion H; subst; reflexivity. Qed.

  (** ** Related layers *)
  Lemma rho_eqb c x y : key_eqb (rho c x) (rho c y) = key_eqb x y.
  Proof.
    destruct (key_eqb_spec x y) as [->|N]; [apply key_eqb_refl|]. apply key_eqb_neq. intros H. apply N. exact (rn_inj _ _ _ _ X _ _ _ H).
  Qed.
  Lemma layer_up raw c d e : layer (kin false) c d e -> layer (kin raw) c d e.
  Proof. intros L. refine (F2_map _ _ _ _ _ L). intros p q (A & B & C & f0 & I & K). split; [exact A|]. split; [exact B|]. split; [exact C|]. exists f0. split; [exact I|]. now apply kin_up. Qed.
  Lemma layer_nil R c : layer R c [] [].
  Proof. constructor. Qed.
  Lemma fields_unique c n f g : In (n, f) (fields_of E c) -> In (n, g) (fields_of E c) -> f = g.
  Proof. intros H K. pose proof (rn_names _ _ _ _ X c) as N. apply (In_dget _ _ _ N) in H, K. congruence. Qed.
  Lemma layer_get R c d e n f : layer R c d e -> In (n, f) (fields_of E c) -> both (R (fd_spec f)) (dget n d) (dget (rho c n) e).
  Proof.
    intros L I. induction L as [|[a v] [b w] d e (A & B & C & g & J & K) L IH]; [constructor|]. cbn [fst snd] in *. subst b. cbn [dget].
    rewrite rho_eqb. destruct (key_eqb n a) eqn:Q; [|exact IH]. apply key_eqb_eq in Q. subst a. rewrite (fields_unique _ _ _ _ I J). now constructor.
  Qed.
  Lemma layer_undef R c d e y : layer R c d e -> dget y d <> Some VUndef /\ dget y e <> Some VUndef.
  Proof.
    intros L. induction L as [|[a v] [b w] d e (A & B & C & _) L [IH1 IH2]]; [split; discriminate|]. cbn [fst snd dget] in *.
    split; [destruct (key_eqb y a)|destruct (key_eqb y b)]; try assumption; intros [= ->]; discriminate.
  Qed.
  Lemma layer_defined R c d e : layer R c d e -> defined_dict d /\ defined_dict e.
  Proof. intros L. split; intros y; apply (layer_undef _ _ _ _ y L). Qed.
  Lemma layer_dmem R c d e n : layer R c d e -> dmem (rho c n) e = dmem n d.
  Proof.
    intros L. unfold dmem. induction L as [|[a v] [b w] d e (A & _) L IH]; [reflexivity|]. cbn [fst snd dget] in *. subst b. rewrite rho_eqb.
    destruct (key_eqb n a); [reflexivity|exact IH].
  Qed.
  Lemma layer_dset R c d e n f v w : layer R c d e -> In (n, f) (fields_of E c) -> is_undef v = false -> is_undef w = false -> R (fd_spec f) v w ->
    layer R c (dset n v d) (dset (rho c n) w e).
  Proof.
    intros L I Uv Uw K.
    assert (P : fst (rho c n, w) = rho c (fst (n, v)) /\ is_undef (snd (n, v)) = false /\ is_undef (snd (rho c n, w)) = false /\
       exists g, In (fst (n, v), g) (fields_of E c) /\ R (fd_spec g) (snd (n, v)) (snd (rho c n, w))).
    { cbn. split; [reflexivity|]. split; [exact Uv|]. split; [exact Uw|]. exists f. auto. }
    induction L as [|[a v'] [b w'] d e (A & B & C & g & J & Kg) L IH]; cbn [dset].
    - constructor; [exact P|constructor].
    - cbn [fst snd] in *. subst b. rewrite rho_eqb. destruct (key_eqb n a) eqn:Q.
      + apply key_eqb_eq in Q. subst a. constructor; [exact P|exact L].
      + constructor; [|exact IH]. cbn [fst snd]. split; [reflexivity|]. split; [exact B|]. split; [exact C|]. exists g. auto.
  Qed.
  Lemma layer_ddel R c d e n : layer R c d e -> layer R c (ddel n d) (ddel (rho c n) e).
  Proof.
    intros L. induction L as [|[a v] [b w] d e H L IH]; [constructor|]. pose proof H as (A & _). cbn [fst] in A. subst b. cbn [ddel].
    rewrite rho_eqb. destruct (key_eqb n a); [exact L|]. constructor; [exact H|exact IH].
  Qed.
  Lemma layer_dupdate R c d e a b : layer R c d e -> layer R c a b -> layer R c (dupdate d a) (dupdate e b).
  Proof.
    intros L K. revert d e L. unfold dupdate. induction K as [|[n v] [n2 w] a b (A & B & C & f & I & Kv) K IH]; intros d e L; cbn [fold_left]; [exact L|].
    cbn [fst snd] in *. subst n2. apply IH. eapply layer_dset; eassumption.
  Qed.
  Lemma layer_keys R c d e y : layer R c d e -> In y (dkeys d) -> In y (dkeys (fields_of E c)).
  Proof.
    intros L. induction L as [|[a v] [b w] d e (A & B & C & g & J & _) L IH]; [intros []|]. cbn [dkeys map fst] in *.
    intros [<-|H]; [apply (in_map fst) in J; exact J|exact (IH H)].
  Qed.
  Lemma fields_pair c n f : In (n, f) (fields_of E c) -> exists f2, In (rho c n, f2) (fields_of E2 c) /\ ren_entry c n f (rho c n) f2.
  Proof.
    pose proof (rn_fields _ _ _ _ X c) as F. induction F as [|[a g] [b g2] l l2 H F IH]; [intros []|]. cbn [fst snd] in H. pose proof (re_name _ _ _ _ _ _ _ _ H) as ->.
    intros [Q|I].
    - injection Q as -> ->. exists g2. split; [now left|exact H].
    - destruct (IH I) as (f2 & J & R). exists f2. split; [now right|exact R].
  Qed.
  Lemma layer_keys2 R c d e y : layer R c d e -> In y (dkeys e) -> In y (dkeys (fields_of E2 c)).
  Proof.
    intros L. induction L as [|[a v] [b w] d e (A & B & C & g & J & _) L IH]; [intros []|]. cbn [dkeys map fst] in *. subst b.
    intros [<-|H]; [|exact (IH H)]. destruct (fields_pair _ _ _ J) as (f2 & J2 & _). apply (in_map fst) in J2. exact J2.
  Qed.
  Lemma names2 c : dkeys (fields_of E2 c) = map (rho c) (dkeys (fields_of E c)).
  Proof.
    pose proof (rn_fields _ _ _ _ X c) as F. unfold dkeys. induction F as [|[a g] [b g2] l l2 H F IH]; [reflexivity|]. cbn. f_equal; [|exact IH].
    exact (re_name _ _ _ _ _ _ _ _ H).
  Qed.
  Lemma nodup2 c : NoDup (dkeys (fields_of E2 c)).
  Proof.
    rewrite names2. pose proof (rn_names _ _ _ _ X c) as N. induction N as [|n l H N IH]; cbn; constructor; [|exact IH].
    intros K. apply in_map_iff in K as (m & Q & K). apply (rn_inj _ _ _ _ X) in Q. now subst.
  Qed.
  Lemma plain1 c : plain_fields (fields_of E c).
  Proof. intros n f I. destruct (fields_pair _ _ _ I) as (f2 & _ & R). destruct (re_plain _ _ _ _ _ _ _ _ R) as (A & B & _). auto. Qed.
  Lemma plain2 c : plain_fields (fields_of E2 c).
  Proof.
    pose proof (rn_fields _ _ _ _ X c) as F. intros n f I. induction F as [|[a g] [b g2] l l2 H F IH]; [destruct I|].
    destruct I as [Q|I]; [|exact (IH I)]. injection Q as -> ->. destruct (re_plain _ _ _ _ _ _ _ _ H) as (_ & _ & A & B). auto.
  Qed.
  Lemma plain_ns fs : plain_fields fs -> no_setters fs.
  Proof. intros H n f I. apply (H n f I). Qed.

  (** What an instance shows. *)
  Lemma chain_two (m : mdata pyval) y : md_unsafe m = [] -> chain_get m y = match dget y (md_converted m) with Some v => Some v | None => dget y (md_valid m) end.
  Proof. intros U. unfold chain_get. now rewrite U. Qed.
  Lemma chain_both raw c m n y f : kin_data raw c m n -> In (y, f) (fields_of E c) -> both (kin raw (fd_spec f)) (chain_get m y) (chain_get n (rho c y)).
  Proof.
    intros (U1 & U2 & A & B) I. rewrite !chain_two by assumption. destruct (layer_get _ _ _ _ _ _ A I); [|now constructor]. exact (layer_get _ _ _ _ _ _ B I).
  Qed.
  Lemma defined_both raw c m n : kin_data raw c m n -> defined_data m /\ defined_data n.
  Proof.
    intros (U1 & U2 & A & B). split; intros y; rewrite chain_two by assumption.
    - destruct (layer_undef _ _ _ _ y A) as [A1 _]. destruct (layer_undef _ _ _ _ y B) as [B1 _]. destruct (dget y (md_converted m)); assumption.
    - destruct (layer_undef _ _ _ _ y A) as [_ A1]. destruct (layer_undef _ _ _ _ y B) as [_ B1]. destruct (dget y (md_converted n)); assumption.
  Qed.
  Lemma items_layer raw c m n : kin_data raw c m n -> layer (kin raw) c (model_items E c m) (model_items E2 c n).
  Proof.
    intros K. pose proof (defined_both _ _ _ _ K) as [D1 D2]. unfold model_items, model_iter. rewrite !map_map.
    change (mc_fields (e_class E c)) with (fields_of E c). change (mc_fields (e_class E2 c)) with (fields_of E2 c).
    assert (Gen : forall l l2, Forall2 (fun p q => ren_entry c (fst p) (snd p) (fst q) (snd q)) l l2 -> (forall p, In p l -> In p (fields_of E c)) ->
      layer (kin raw) c
        (map (fun x => (fst x, match chain_get m (fst x) with Some v => v | None => VUndef end)) (filter (fun p => chain_mem m (fst p) && is_none_opt (fd_set (snd p))) l))
        (map (fun x => (fst x, match chain_get n (fst x) with Some v => v | None => VUndef end)) (filter (fun p => chain_mem n (fst p) && is_none_opt (fd_set (snd p))) l2)));
      [|exact (Gen _ _ (rn_fields _ _ _ _ X c) (fun p H => H))].
    intros l l2 F. induction F as [|[a g] [b g2] l l2 H F IH]; intros S; [constructor|]. cbn [filter fst snd].
    specialize (IH (fun p I => S p (or_intror I))). pose proof (S _ (or_introl eq_refl)) as Ia. pose proof (chain_both _ _ _ _ a g K Ia) as Ga.
    pose proof (re_name _ _ _ _ _ _ _ _ H) as Q. cbn in Q. subst b. destruct (re_plain _ _ _ _ _ _ _ _ H) as (_ & P & _ & P2). cbn in P, P2. rewrite P, P2. cbn [is_none_opt].
    rewrite !andb_true_r.
    replace (chain_mem m a) with (match chain_get m a with Some _ => true | None => false end) by reflexivity.
    replace (chain_mem n (rho c a)) with (match chain_get n (rho c a) with Some _ => true | None => false end) by reflexivity. pose proof (D1 a) as Da. pose proof (D2 (rho c a)) as Db.
    inversion Ga as [Qa Qb|v w Kv Qa Qb]; [exact IH|]. cbn [map fst]. constructor; [|exact IH]. cbn [fst snd]. rewrite <- Qa, <- Qb in *. split; [reflexivity|].
    split; [destruct v; try reflexivity; congruence|]. split; [destruct w; try reflexivity; congruence|]. exists g. auto.
  Qed.

  (** ** Outcomes *)
  Lemma kin_exn_caught R e e2 : kin_exn R e e2 -> caught_by_loop e2 = caught_by_loop e.
  Proof. destruct e, e2; cbn; try congruence; intuition congruence. Qed.
  Lemma kin_exn_node R e e2 : kin_exn R e e2 -> err_node e2 = err_node e.
  Proof. destruct e, e2; cbn; try congruence; intuition congruence. Qed.
  Lemma kin_exn_map (R S : list (key * pyval) -> list (key * pyval) -> Prop) e e2 : (forall d d2, R d d2 -> S d d2) -> kin_exn R e e2 -> kin_exn S e e2.
  Proof. intros H. destruct e, e2; cbn; auto. intros [A B]; auto. Qed.
  Lemma kin_exn_refl (R : list (key * pyval) -> list (key * pyval) -> Prop) e : (forall errs d, e = XData errs d -> R d d) -> kin_exn R e e.
  Proof. intros H. destruct e; cbn; eauto. Qed.

  (** Contexts that differ at most in what is trusted for the instance at hand. *)
  Definition rel_ctx (x x2 : ictx) : Prop :=
    cx_mapping x = no_mapping /\ cx_convert x = true /\ cx_oo x = true /\
    (cx_trusted x = VDict [] /\ cx_trusted x2 = VDict [] \/ cx_recursive x = false) /\
    x2 = Ctx (cx_trusted x2) (cx_mapping x) (cx_partial x) (cx_strict x) (cx_init_values x) (cx_apply_defaults x) (cx_convert x)
             (cx_validate x) (cx_oo x) (cx_recursive x).
  Definition at_field (f : fspec) (x x2 : ictx) : Prop :=
    rel_ctx x x2 /\ (is_compound f = true -> cx_trusted x = VDict [] /\ cx_trusted x2 = VDict []).
  Definition field_res (f : fspec) : res pyval -> res pyval -> Prop :=
    kin_res (kin false f) (fun d d2 => kin false f (VDict d) (VDict d2)).
  Definition goes (g g2 : fspec -> pyval -> ictx -> res pyval) : Prop := forall x x2 f f2 v w,
    at_field f x x2 -> ren_field f f2 -> kin true f v w -> field_res f (g f v x) (g2 f2 w x2).

  Lemma ren_compound f f2 : ren_field f f2 -> is_compound f2 = is_compound f.
  Proof. now intros []. Qed.
  Lemma ren_opts_of f f2 : ren_field f f2 -> ren_opts E rho used f (fs_opts f) (fs_opts f2).
  Proof. intros H; inversion H; subst; assumption. Qed.

  Lemma field_ctx_rel x x2 n f n2 f2 : rel_ctx x x2 -> ren_field f f2 -> at_field f (field_ctx E x n f) (field_ctx E2 x2 n2 f2).
  Proof.
    intros (M & Cv & Oo & T & Q) R. unfold field_ctx. rewrite (ren_compound _ _ R). destruct (is_compound f) eqn:Cf.
    - unfold branch, nested_map. rewrite Q. cbn [cx_mapping cx_partial cx_strict cx_init_values cx_apply_defaults cx_convert cx_validate cx_oo cx_recursive].
      rewrite M. cbn [map_models no_mapping].
      assert (N1 : nested_td E x n = VDict []).
      { unfold nested_td. destruct T as [[-> _]| ->]; [reflexivity|]. now rewrite andb_false_r. }
      assert (N2 : nested_td E2 (Ctx (cx_trusted x2) no_mapping (cx_partial x) (cx_strict x) (cx_init_values x) (cx_apply_defaults x) (cx_convert x)
             (cx_validate x) (cx_oo x) (cx_recursive x)) n2 = VDict []).
      { unfold nested_td. cbn. destruct T as [[_ ->]| ->]; [reflexivity|]. now rewrite andb_false_r. }
      rewrite N1, N2. split; [|auto]. unfold rel_ctx. cbn. repeat (split; [assumption||reflexivity|]). split; [auto|reflexivity].
    - split; [|congruence]. exact (conj M (conj Cv (conj Oo (conj T Q)))).
  Qed.

  (** ** What the loop reads *)
  Definition feeds (c : cid) (d e : list (key * pyval)) : Prop :=
    defined_dict d /\ defined_dict e /\
    (forall n f f2, In (n, f) (fields_of E c) -> In (rho c n, f2) (fields_of E2 c) -> ren_entry c n f (rho c n) f2 ->
       both (kin true (fd_spec f)) (supplied d n (fd_spec f) no_mapping) (supplied e (rho c n) (fd_spec f2) no_mapping)) /\
    rogue_list (fields_of E2 c) no_mapping e = rogue_list (fields_of E c) no_mapping d.

  Lemma supplied_name fs d n f : separate_names fs no_mapping -> In (n, f) fs -> (forall y, In y (dkeys d) -> In y (dkeys fs)) ->
    supplied d n (fd_spec f) no_mapping = dget n d.
  Proof.
    intros S Hi Hd. unfold supplied. destruct (find _ _) as [y|] eqn:F.
    - apply find_some in F as [F M]. apply dmem_In, Hd in M. apply in_map_iff in M as ([y' f'] & <- & M). cbn [fst] in *.
      now rewrite (S n f y' f' Hi M F).
    - symmetry. apply dget_None_keys. intros K. apply dmem_In in K. unfold accepted_names in F. cbn [find] in F. rewrite K in F. discriminate.
  Qed.
  Lemma no_rogues fs (d : list (key * pyval)) : (forall y, In y (dkeys d) -> In y (dkeys fs)) -> rogue_list fs no_mapping d = [].
  Proof.
    intros H. destruct (rogue_list fs no_mapping d) as [|y l] eqn:Q; [reflexivity|]. assert (I : In y (rogue_list fs no_mapping d)) by (rewrite Q; now left).
    apply rogue_list_In in I as [I N]. exfalso. apply N. apply H in I. apply in_map_iff in I as ([n f] & <- & I). eapply acc_name. exact I.
  Qed.
  Lemma feeds_layer raw c d e : layer (kin raw) c d e -> feeds c d e.
  Proof.
    intros L. destruct (layer_defined _ _ _ _ L) as [D1 D2]. split; [exact D1|]. split; [exact D2|]. destruct (rn_separate _ _ _ _ X c) as [S1 S2]. split.
    - intros n f f2 I I2 _. rewrite (supplied_name _ d n f S1 I), (supplied_name _ e _ f2 S2 I2).
      + destruct (layer_get _ _ _ _ _ _ L I); constructor. eapply kin_raw_up. eassumption.
      + intros y. apply (layer_keys2 _ _ _ _ _ L).
      + intros y. apply (layer_keys _ _ _ _ _ L).
    - rewrite !no_rogues; [reflexivity| |]; intros y; [apply (layer_keys _ _ _ _ _ L)|apply (layer_keys2 _ _ _ _ _ L)].
  Qed.

  Lemma find_used (p : key -> bool) l : (forall y, p y = true -> used y = true) -> find p l = find p (filter used l).
  Proof.
    intros H. induction l as [|a l IH]; cbn; [reflexivity|]. destruct (p a) eqn:Q.
    - rewrite (H a Q). cbn. now rewrite Q.
    - rewrite IH. destruct (used a); cbn; [now rewrite Q|reflexivity].
  Qed.
  Lemma outside_entries d : outside (VDict d) -> forall y v, In (y, v) d -> used y = true /\ outside v.
  Proof. intros H y v I. inversion H as [? P| | |? K]; subst; [destruct P|exact (K y v I)]. Qed.
  Lemma outside_dict_defined d : outside (VDict d) -> defined_dict d.
  Proof. intros H y Hy. apply dget_In in Hy. apply (outside_entries _ H) in Hy as [_ Hy]. apply outside_defined in Hy. discriminate. Qed.
  Lemma feeds_outside c d : outside (VDict d) -> feeds c d d.
  Proof.
    intros H. pose proof (outside_dict_defined _ H) as D. split; [exact D|]. split; [exact D|].
    assert (U : forall y, dmem y d = true -> used y = true).
    { intros y Hy. apply dmem_In in Hy. apply in_map_iff in Hy as ([y' v] & <- & Hy). apply (outside_entries _ H y' v Hy). }
    split.
    - intros n f f2 _ _ R. assert (Q : supplied d (rho c n) (fd_spec f2) no_mapping = supplied d n (fd_spec f) no_mapping).
      { unfold supplied. rewrite (find_used _ (accepted_names (rho c n) _ _) U), (find_used _ (accepted_names n _ _) U).
        now rewrite (re_keys _ _ _ _ _ _ _ _ R). }
      rewrite Q. destruct (supplied d n (fd_spec f) no_mapping) as [v|] eqn:Sv; constructor. apply kin_raw; [reflexivity|].
      unfold supplied in Sv. destruct (find _ _) as [y|]; [|discriminate]. apply dget_In in Sv. apply (outside_entries _ H y v Sv).
    - unfold rogue_list. apply filter_ext_in. intros y Hy. f_equal.
      assert (Uy : used y = true) by (apply U; now apply dmem_In). pose proof (rn_known _ _ _ _ X c y Uy) as K. rewrite <- !all_input_keys_acceptable, <- !kmem_In in K.
      destruct (kmem y (all_input_keys (fields_of E c) no_mapping)), (kmem y (all_input_keys (fields_of E2 c) no_mapping)); try reflexivity; destruct K; intuition congruence.
  Qed.

  (** ** The loop *)
  Inductive out_rel (f : fspec) : outcome -> outcome -> Prop :=
  | or_keep : out_rel f Keep Keep
  | or_store v w : kin false f v w -> is_undef v = false -> is_undef w = false -> out_rel f (Store v) (Store w)
  | or_fail e e2 : kin_exn (fun d d2 => kin false f (VDict d) (VDict d2)) e e2 -> out_rel f (Fail e) (Fail e2).
  Definition state_rel (raw : bool) (c : cid) (s s2 : lstate) : Prop := layer (kin raw) c (fst s) (fst s2) /\ snd s2 = snd s.

  Lemma sname_rel c n f n2 f2 : ren_entry c n f n2 f2 -> sname_of n2 (fd_spec f2) = sname_of n (fd_spec f).
  Proof. intros R. exact (re_public _ _ _ _ _ _ _ _ R). Qed.

  Lemma apply_rel raw c x x2 n f f2 o o2 s s2 : rel_ctx x x2 -> In (n, f) (fields_of E c) -> ren_entry c n f (rho c n) f2 ->
    out_rel (fd_spec f) o o2 -> state_rel raw c s s2 ->
    kin_res (state_rel raw c) (fun _ _ => False) (apply_outcome x n (fd_spec f) o s) (apply_outcome x2 (rho c n) (fd_spec f2) o2 s2).
  Proof.
    intros Cx I R O [L Er]. destruct s as [data errs], s2 as [data2 errs2]. cbn [fst snd] in *. subst errs2. unfold apply_outcome.
    destruct O as [|v w K Uv Uw|e e2 K].
    - constructor. now split.
    - constructor. split; [|reflexivity]. cbn [fst]. eapply layer_dset; try eassumption. now apply kin_up.
    - rewrite (kin_exn_caught _ _ _ K). destruct (caught_by_loop e) eqn:Ce.
      + constructor. split; cbn [fst snd]; [|now rewrite (sname_rel _ _ _ _ _ R), (kin_exn_node _ _ _ K)].
        destruct Cx as (_ & _ & _ & _ & Qx). assert (Ad : cx_apply_defaults x2 = cx_apply_defaults x) by (rewrite Qx; reflexivity).
        pose proof (ren_opts_of _ _ (re_type _ _ _ _ _ _ _ _ R)) as (_ & _ & _ & _ & Df & Dk & _).
        assert (Dflt : layer (kin raw) c
          match (match cx_apply_defaults x, fo_default (fs_opts (fd_spec f)) with true, VUndef => None | true, dv => Some dv | false, _ => None end) with Some v => dset n v data | None => data end
          match (match cx_apply_defaults x2, fo_default (fs_opts (fd_spec f2)) with true, VUndef => None | true, dv => Some dv | false, _ => None end) with Some v => dset (rho c n) v data2 | None => data2 end).
        { rewrite Ad, Df. destruct (cx_apply_defaults x); [|exact L]. destruct Dk as [->|Dk]; [exact L|].
          destruct (fo_default (fs_opts (fd_spec f))) eqn:Qd; try exact L; (eapply layer_dset; [exact L|exact I|reflexivity|reflexivity|now apply kin_up]). }
        unfold fallback. destruct e, e2; cbn in K; try discriminate K; try (injection K as <-); try (injection K as <- <-); try exact Dflt; try discriminate Ce.
        destruct K as [-> K]. eapply layer_dset; [exact L|exact I|reflexivity|reflexivity|now apply kin_up].
      + constructor. destruct e, e2; cbn in K |- *; try assumption. discriminate Ce.
  Qed.

  Section Loop.
    Context (fc fc2 : fspec -> pyval -> ictx -> res pyval) (G : goes fc fc2) (pre pre2 : fspec -> pyval -> res pyval) (x x2 : ictx) (Cx : rel_ctx x x2).
    Context (raw : bool) (c : cid) (td td2 : list (key * pyval)) (Ltd : layer (kin raw) c td td2).

    Lemma candidate_rel f f2 s s2 : ren_field f f2 -> both (kin true f) s s2 -> kin true f (candidate x f s) (candidate x2 f2 s2).
    Proof.
      intros R [|v w K]; cbn; [|exact K]. destruct Cx as (_ & _ & _ & _ & Qx).
      replace (cx_apply_defaults x2) with (cx_apply_defaults x) by (rewrite Qx; reflexivity). replace (cx_init_values x2) with (cx_init_values x) by (rewrite Qx; reflexivity).
      pose proof (ren_opts_of _ _ R) as (_ & _ & _ & _ & Df & Dk & _). rewrite Df.
      assert (N : kin true f (if cx_init_values x then VNone else VUndef) (if cx_init_values x then VNone else VUndef)) by (destruct (cx_init_values x); constructor).
      destruct (cx_apply_defaults x); [|exact N]. destruct Dk as [->|Dk]; [exact N|]. destruct (fo_default (fs_opts f)); try exact N; now apply kin_up.
    Qed.
    Lemma outcome_rel d e n f f2 : feeds c d e -> In (n, f) (fields_of E c) -> In (rho c n, f2) (fields_of E2 c) -> ren_entry c n f (rho c n) f2 ->
      out_rel (fd_spec f) (field_outcome E fc x d td n (fd_spec f)) (field_outcome E2 fc2 x2 e td2 (rho c n) (fd_spec f2)).
    Proof.
      intros (_ & _ & F & _) I I2 R. specialize (F n f f2 I I2 R). unfold field_outcome. pose proof (re_type _ _ _ _ _ _ _ _ R) as Rf.
      pose proof Cx as (M & _ & _ & _ & Qx). replace (cx_mapping x2) with no_mapping by (rewrite Qx; auto). rewrite M.
      assert (Go : forall s s2, both (kin true (fd_spec f)) s s2 -> out_rel (fd_spec f)
         match fc (fd_spec f) (candidate x (fd_spec f) s) (field_ctx E x n (fd_spec f)) with Ok VUndef => Keep | Ok w => Store w | Raise er => Fail er end
         match fc2 (fd_spec f2) (candidate x2 (fd_spec f2) s2) (field_ctx E2 x2 (rho c n) (fd_spec f2)) with Ok VUndef => Keep | Ok w => Store w | Raise er => Fail er end).
      { intros s s2 B. pose proof (G _ _ _ _ _ _ (field_ctx_rel x x2 n (fd_spec f) (rho c n) (fd_spec f2) Cx Rf) Rf (candidate_rel _ _ _ _ Rf B)) as K.
        inversion K as [a b Kab Qa Qb|er er2 Ke Qa Qb].
        - pose proof (kin_undef_iff _ _ _ _ Kab) as U. destruct (is_undef a) eqn:Ua.
          + destruct a; try discriminate. destruct b; try discriminate. constructor.
          + replace (match a with VUndef => Keep | w => Store w end) with (Store a) by (destruct a; try reflexivity; discriminate).
            replace (match b with VUndef => Keep | w => Store w end) with (Store b) by (destruct b; try reflexivity; discriminate).
            constructor; auto.
        - now constructor. }
      pose proof (layer_get _ _ _ _ _ _ Ltd I) as T. destruct F as [|v w K].
      - destruct T; [apply Go; constructor|constructor].
      - apply Go. now constructor.
    Qed.
    Lemma run_rel d e fs fs2 s s2 : feeds c d e -> Forall2 (fun p q => ren_entry c (fst p) (snd p) (fst q) (snd q)) fs fs2 ->
      (forall p, In p fs -> In p (fields_of E c)) -> (forall p, In p fs2 -> In p (fields_of E2 c)) -> state_rel raw c s s2 ->
      kin_res (state_rel raw c) (fun _ _ => False) (run_outcomes E fc x d td fs s) (run_outcomes E2 fc2 x2 e td2 fs2 s2).
    Proof.
      intros F R. revert s s2. induction R as [|[n f] [n2 f2] fs fs2 H R IH]; intros s s2 S1 S2 St; cbn [run_outcomes]; [now constructor|].
      pose proof (re_name _ _ _ _ _ _ _ _ H) as Q. cbn [fst snd] in *. subst n2.
      pose proof (S1 _ (or_introl eq_refl)) as I. pose proof (S2 _ (or_introl eq_refl)) as I2.
      destruct (apply_rel raw c x x2 n f f2 _ _ s s2 Cx I H (outcome_rel d e n f f2 F I I2 H) St) as [a b Kab|er er2 Ke]; cbn [rbind]; [|now constructor].
      apply IH; auto; intros p Hp; [apply S1|apply S2]; now right.
    Qed.
    Definition data_res : res (list (key * pyval)) -> res (list (key * pyval)) -> Prop := kin_res (layer (kin raw) c) (layer (kin raw) c).
    Lemma loop_rel mut mut2 a a2 d d' e e' :
      effective_input E x (fields_of E c) mut d d' -> effective_input E2 x2 (fields_of E2 c) mut2 e e' ->
      trusted_dict E x td -> trusted_dict E2 x2 td2 -> feeds c d' e' ->
      data_res (lo_res (import_loop E fc pre x (fields_of E c) mut a (VDict d))) (lo_res (import_loop E2 fc2 pre2 x2 (fields_of E2 c) mut2 a2 (VDict e))).
    Proof.
      intros Ef1 Ef2 T1 T2 F. pose proof F as (D1 & D2 & _ & Rg).
      destruct (import_loop_dict E fc pre x _ mut a d d' td Ef1 D1 (rn_names _ _ _ _ X c) T1) as [_ ->].
      destruct (import_loop_dict E2 fc2 pre2 x2 _ mut2 a2 e e' td2 Ef2 D2 (nodup2 c) T2) as [_ ->].
      rewrite !active_no_setters by (apply plain_ns; first [apply plain1|apply plain2]). unfold finish_import.
      assert (Eb : errs_before x2 (fields_of E2 c) e' [] = errs_before x (fields_of E c) d' []).
      { unfold errs_before, rogue_errors. destruct Cx as (M & _ & _ & _ & Qx). replace (cx_strict x2) with (cx_strict x) by (rewrite Qx; reflexivity).
        replace (cx_mapping x2) with no_mapping by (rewrite Qx; auto). rewrite M, Rg. reflexivity. }
      rewrite Eb.
      destruct (run_rel d' e' (fields_of E c) (fields_of E2 c) (td, errs_before x (fields_of E c) d' []) (td2, errs_before x (fields_of E c) d' []) F (rn_fields _ _ _ _ X c) (fun p H => H) (fun p H => H)
        (conj Ltd eq_refl)) as [[da er] [da2 er2] [L Q]|er er2 K]; cbn [rbind fst snd] in *; [|constructor; destruct er, er2; cbn in K |- *; auto; destruct K as [_ []]].
      subst er2. rewrite !copy_settable_none by (apply plain_ns; first [apply plain1|apply plain2]).
      assert (V : forall (b : bool) (l : list (key * pyval)), (if b then l else l) = l) by now intros []. rewrite !V.
      destruct er as [|p er]; constructor; [exact L|]. cbn. now split.
    Qed.
  End Loop.

  (** ** Model level validators *)
  Lemma kin_res_none {A} (S : A -> A -> Prop) (R : list (key * pyval) -> list (key * pyval) -> Prop) r r2 : kin_res S (fun _ _ => False) r r2 -> kin_res S R r r2.
  Proof. intros [a b H|e e2 H]; constructor; [exact H|]. refine (kin_exn_map _ _ _ _ _ H). intros d d2 []. Qed.
  Lemma caught_mv e e2 : e2 = e -> mv_caught e2 = mv_caught e.
  Proof. now intros ->. Qed.
  Definition vml_rel (c : cid) (s s2 : list (key * pyval) * list (key * errnode) * list key) : Prop :=
    layer (kin false) c (fst (fst s)) (fst (fst s2)) /\ snd (fst s2) = snd (fst s) /\ snd s2 = map (rho c) (snd s).
  Lemma vml_go raw c m m2 fs fs2 : kin_data raw c m m2 -> Forall2 (fun p q => ren_entry c (fst p) (snd p) (fst q) (snd q)) fs fs2 ->
    (forall p, In p fs -> In p (fields_of E c)) -> forall data data2 errs bad, layer (kin false) c data data2 ->
    kin_res (vml_rel c) (fun _ _ => False)
      (validate_model_loop (mc_validators (e_class E c)) (VModel c m) fs data errs bad)
      (validate_model_loop (mc_validators (e_class E2 c)) (VModel c m2) fs2 data2 errs (map (rho c) bad)).
  Proof.
    intros Km F. induction F as [|[n f] [n2 f2] fs fs2 H F IH]; intros S data data2 errs bad L; cbn [validate_model_loop].
    { constructor. repeat split; [exact L]. }
    specialize (IH (fun p I => S p (or_intror I))). pose proof (S _ (or_introl eq_refl)) as I. pose proof (re_name _ _ _ _ _ _ _ _ H) as Q. cbn [fst snd] in *. subst n2.
    pose proof (layer_get _ _ _ _ _ _ L I) as G. pose proof (layer_undef _ _ _ _ n L) as [Un _]. pose proof (layer_undef _ _ _ _ (rho c n) L) as [_ Un2].
    pose proof (rn_checks _ _ _ _ X c n f I) as C. destruct G as [|v w Kv]; [apply IH, L|].
    destruct (dget n (mc_validators (e_class E c))) as [vf|], (dget (rho c n) (mc_validators (e_class E2 c))) as [vf2|]; try (destruct C; fail); [|apply IH, L].
    replace (is_undef v) with false by (destruct v; try reflexivity; congruence). replace (is_undef w) with false by (destruct w; try reflexivity; congruence).
    destruct (C raw m m2 data data2 v w Km L Kv) as [L' Qe]. destruct (vf (VModel c m) data v) as [d1 oe], (vf2 (VModel c m2) data2 w) as [d2 oe2]. cbn [fst snd] in *. subst oe2.
    destruct oe as [e|]; [|apply IH, L']. destruct (mv_caught e) as [nd|] eqn:Mv.
    - rewrite (sname_rel _ _ _ _ _ H). specialize (IH d1 d2 (dset (sname_of n (fd_spec f)) nd errs) (bad ++ [n]) L'). rewrite map_app in IH. exact IH.
    - constructor. apply kin_exn_refl. intros er d ->. discriminate Mv.
  Qed.
  Lemma pop_go c bad : forall d e, layer (kin false) c d e -> kin_res (layer (kin false) c) (fun _ _ => False) (pop_all bad d) (pop_all (map (rho c) bad) e).
  Proof.
    induction bad as [|n bad IH]; intros d e L; cbn [pop_all map]; [now constructor|]. rewrite (layer_dmem _ _ _ _ n L). destruct (dmem n d).
    - apply IH. now apply layer_ddel.
    - constructor. reflexivity.
  Qed.
  Lemma vm_go raw c m m2 data data2 : kin_data raw c m m2 -> layer (kin false) c data data2 ->
    kin_res (fun s s2 => layer (kin false) c (fst s) (fst s2) /\ snd s2 = snd s) (fun _ _ => False)
      (validate_model (mc_validators (e_class E c)) (VModel c m) (fields_of E c) data)
      (validate_model (mc_validators (e_class E2 c)) (VModel c m2) (fields_of E2 c) data2).
  Proof.
    intros Km L. unfold validate_model. pose proof (vml_go raw c m m2 _ _ Km (rn_fields _ _ _ _ X c) (fun p H => H) data data2 [] [] L) as G. cbn [map] in G.
    destruct G as [[[d e] bad] [[d2 e2] bad2] (G1 & G2 & G3)|e e2 K]; cbn [rbind fst snd] in *; [|now constructor]. subst e2 bad2.
    destruct (pop_go c bad d d2 G1) as [a b Kab|er er2 K]; cbn [rbind]; [|now constructor]. constructor. now split.
  Qed.

  (** ** validate and import of an instance *)
  Lemma loop_mut E0 fc pre x c m a d td : NoDup (dkeys (fields_of E0 c)) -> plain_fields (fields_of E0 c) -> defined_data m -> trusted_dict E0 x td -> a <> AliasSelf ->
    lo_mut (import_loop E0 fc pre x (fields_of E0 c) (VModel c m) a (VDict d)) =
    VModel c (if cx_validate x then match a with AliasConverted => md_set_converted m (dupdate d (model_items E0 c m)) | _ => m end else m).
  Proof.
    intros N P D T A. unfold import_loop. rewrite T. cbn [is_none negb andb]. destruct (cx_validate x); [|reflexivity].
    unfold mutate. rewrite mutate_fields_none by now apply plain_ns. rewrite (model_items_dict E0 c m N P D). now destruct a.
  Qed.
  Lemma effective E0 x c m d : NoDup (dkeys (fields_of E0 c)) -> plain_fields (fields_of E0 c) -> defined_data m ->
    effective_input E0 x (fields_of E0 c) (VModel c m) d (if cx_validate x then dupdate d (model_items E0 c m) else d).
  Proof.
    intros N P D. destruct (cx_validate x) eqn:V; [|now apply eff_convert]. apply eff_validate; [exact V|now apply plain_ns|]. now apply model_items_dict.
  Qed.

  Section Run.
    Context (fc fc2 : fspec -> pyval -> ictx -> res pyval) (G : goes fc fc2) (pre pre2 : fspec -> pyval -> res pyval) (x x2 : ictx) (Cx : rel_ctx x x2).
    Lemma same_validate : cx_validate x2 = cx_validate x.
    Proof using Cx. destruct Cx as (_ & _ & _ & _ & Qx). rewrite Qx. reflexivity. Qed.
    Lemma mut_rel b c m n a d e td td2 : kin_data b c m n -> trusted_dict E x td -> trusted_dict E2 x2 td2 -> a <> AliasSelf ->
      (a = AliasConverted -> layer (kin b) c d e) -> exists m' n',
      lo_mut (import_loop E fc pre x (fields_of E c) (VModel c m) a (VDict d)) = VModel c m' /\
      lo_mut (import_loop E2 fc2 pre2 x2 (fields_of E2 c) (VModel c n) a (VDict e)) = VModel c n' /\ kin_data b c m' n' /\
      md_valid m' = md_valid m /\ md_valid n' = md_valid n.
    Proof.
      intros K T1 T2 A L. pose proof (defined_both _ _ _ _ K) as [D1 D2].
      rewrite (loop_mut E fc pre x c m a d td (rn_names _ _ _ _ X c) (plain1 c) D1 T1 A).
      rewrite (loop_mut E2 fc2 pre2 x2 c n a e td2 (nodup2 c) (plain2 c) D2 T2 A). rewrite same_validate. do 2 eexists. split; [reflexivity|]. split; [reflexivity|].
      destruct (cx_validate x); [|auto]. destruct a; auto. split; [|auto]. destruct K as (U1 & U2 & K1 & K2) eqn:QK. split; [exact U1|]. split; [exact U2|].
      split; [|exact K2]. cbn [md_converted md_set_converted]. apply layer_dupdate; [now apply L|]. apply items_layer. exact K.
    Qed.
    Lemma loop_go b c m n a a2 d e td td2 : kin_data b c m n -> trusted_dict E x td -> trusted_dict E2 x2 td2 -> forall raw, layer (kin raw) c td td2 ->
      feeds c (if cx_validate x then dupdate d (model_items E c m) else d) (if cx_validate x then dupdate e (model_items E2 c n) else e) ->
      data_res raw c (lo_res (import_loop E fc pre x (fields_of E c) (VModel c m) a (VDict d)))
                     (lo_res (import_loop E2 fc2 pre2 x2 (fields_of E2 c) (VModel c n) a2 (VDict e))).
    Proof.
      intros K T1 T2 raw L F. pose proof (defined_both _ _ _ _ K) as [D1 D2]. rewrite <- same_validate in F at 2.
      eapply (loop_rel fc fc2 G pre pre2 x x2 Cx raw c td td2 L); try eassumption.
      - apply effective; [apply (rn_names _ _ _ _ X)|apply plain1|exact D1].
      - apply effective; [apply nodup2|apply plain2|exact D2].
    Qed.
    (** With the model level validators. *)
    Lemma validate_go b c m n a d e : cx_validate x = true -> cx_trusted x = VDict [] -> cx_trusted x2 = VDict [] -> kin_data b c m n -> a <> AliasSelf ->
      (a = AliasConverted -> layer (kin b) c d e) -> feeds c (dupdate d (model_items E c m)) (dupdate e (model_items E2 c n)) ->
      exists m' n',
      lo_mut (validate_fn E fc pre x (e_class E c) (VModel c m) a (VDict d)) = VModel c m' /\
      lo_mut (validate_fn E2 fc2 pre2 x2 (e_class E2 c) (VModel c n) a (VDict e)) = VModel c n' /\ kin_data b c m' n' /\
      md_valid m' = md_valid m /\ md_valid n' = md_valid n /\
      data_res false c (lo_res (validate_fn E fc pre x (e_class E c) (VModel c m) a (VDict d)))
                       (lo_res (validate_fn E2 fc2 pre2 x2 (e_class E2 c) (VModel c n) a (VDict e))).
    Proof.
      intros V Q1 Q2 K A L F. assert (T1 : trusted_dict E x []) by (unfold trusted_dict; now rewrite Q1). assert (T2 : trusted_dict E2 x2 []) by (unfold trusted_dict; now rewrite Q2).
      destruct (mut_rel b c m n a d e [] [] K T1 T2 A L) as (m' & n' & M1 & M2 & Km & Vm & Vn). exists m', n'. unfold validate_fn. cbn [lo_mut lo_res].
      change (mc_fields (e_class E c)) with (fields_of E c). change (mc_fields (e_class E2 c)) with (fields_of E2 c). rewrite M1, M2.
      split; [reflexivity|]. split; [reflexivity|]. split; [exact Km|]. split; [exact Vm|]. split; [exact Vn|].
      pose proof (loop_go b c m n a a d e [] [] K T1 T2 false (layer_nil _ c)) as R. rewrite V in R. specialize (R F).
      assert (Fin : forall errs da da2, layer (kin false) c da da2 -> data_res false c
        (rbind (validate_model (mc_validators (e_class E c)) (VModel c m') (fields_of E c) da) (fun '(d, e) => match dupdate errs e with [] => Ok d | errs' => Raise (XData errs' d) end))
        (rbind (validate_model (mc_validators (e_class E2 c)) (VModel c n') (fields_of E2 c) da2) (fun '(d, e) => match dupdate errs e with [] => Ok d | errs' => Raise (XData errs' d) end))).
      { intros errs da da2 Ld. destruct (vm_go b c m' n' da da2 Km Ld) as [[d1 e1] [d2 e2] [H1 H2]|er er2 H]; cbn [rbind fst snd] in *.
        - subst e2. destruct (dupdate errs e1); constructor; [exact H1|]. cbn. now split.
        - constructor. refine (kin_exn_map _ _ _ _ _ H). intros ? ? []. }
      destruct R as [da da2 Ld|er er2 H].
      - now apply Fin.
      - destruct er, er2; cbn in H; try discriminate H; try (constructor; exact H). destruct H as [-> H]. now apply Fin.
    Qed.
  End Run.

  (** ** Instances made from data *)
  Lemma kin_empty b c : kin_data b c md_empty md_empty.
  Proof. split; [reflexivity|]. split; [reflexivity|]. split; constructor. Qed.
  Lemma empty_items_nil E0 c : model_items E0 c md_empty = [].
  Proof. unfold model_items, model_iter. replace (filter _ _) with (@nil (key * field)); [reflexivity|]. symmetry. induction (mc_fields (e_class E0 c)); cbn; auto. Qed.
  Lemma at_compound f x x2 : at_field f x x2 -> is_compound f = true -> x2 = x /\ cx_trusted x = VDict [].
  Proof.
    intros [(_ & _ & _ & _ & Q) T] C. destruct (T C) as [T1 T2]. split; [|exact T1]. rewrite Q, T2. destruct x; cbn in *. now rewrite T1.
  Qed.
  Definition model_res (c : cid) : res pyval -> res pyval -> Prop :=
    kin_res (fun v w => exists m n, v = VModel c m /\ w = VModel c n /\ kin_data false c m n) (layer (kin false) c).

  Section New.
    Context (fc fc2 : fspec -> pyval -> ictx -> res pyval) (G : goes fc fc2) (pre pre2 : fspec -> pyval -> res pyval) (x : ictx) (Cx : rel_ctx x x) (Tx : cx_trusted x = VDict []).
    Lemma new_go c v w d e : (if truthy v then py_dict E v else Ok []) = Ok d -> (if truthy w then py_dict E2 w else Ok []) = Ok e ->
      truthy w = truthy v -> feeds c d e -> model_res c (model_new E fc pre c v x) (model_new E2 fc2 pre2 c w x).
    Proof.
      intros Hd He Tw F. unfold model_new. rewrite Hd, He, Tw. cbn [rbind]. set (a := if truthy v then NoAlias else AliasConverted).
      assert (A : a <> AliasSelf) by (unfold a; destruct (truthy v); discriminate).
      assert (L : a = AliasConverted -> layer (kin false) c d e).
      { unfold a. rewrite Tw in He. destruct (truthy v); [discriminate|]. intros _. injection Hd as <-. injection He as <-. constructor. }
      assert (T1 : trusted_dict E x []) by (unfold trusted_dict; now rewrite Tx). assert (T2 : trusted_dict E2 x []) by (unfold trusted_dict; now rewrite Tx).
      assert (Fin : forall m' n' r r2, kin_data false c m' n' -> data_res false c r r2 ->
        model_res c (rbind r (fun data => Ok (set_converted (VModel c m') data))) (rbind r2 (fun data => Ok (set_converted (VModel c n') data)))).
      { intros m' n' r r2 (U1 & U2 & _ & Kv) [da da2 Ld|er er2 H]; cbn [rbind]; constructor; [|exact H]. cbn [set_converted]. do 2 eexists.
        split; [reflexivity|]. split; [reflexivity|]. split; [exact U1|]. split; [exact U2|]. split; [exact Ld|exact Kv]. }
      destruct (cx_validate x) eqn:V.
      - destruct (validate_go fc fc2 G pre pre2 x x Cx false c md_empty md_empty a d e V Tx Tx (kin_empty false c) A L) as (m' & n' & M1 & M2 & Km & _ & _ & R).
        { rewrite !empty_items_nil. exact F. }
        rewrite M1, M2. now apply Fin.
      - destruct (mut_rel fc fc2 pre pre2 x x Cx false c md_empty md_empty a d e [] [] (kin_empty false c) T1 T2 A L) as (m' & n' & M1 & M2 & Km & _ & _).
        pose proof (loop_go fc fc2 G pre pre2 x x Cx false c md_empty md_empty a a d e [] [] (kin_empty false c) T1 T2 false (layer_nil _ c)) as R. rewrite V in R. specialize (R F).
        change (mc_fields (e_class E c)) with (fields_of E c). change (mc_fields (e_class E2 c)) with (fields_of E2 c). rewrite M1, M2. now apply Fin.
    Qed.
    Lemma layer_truthy R c d e : layer R c d e -> nonempty e = nonempty d.
    Proof. now intros []. Qed.
    Lemma new_dict raw c d e : layer (kin raw) c d e -> model_res c (model_new E fc pre c (VDict d) x) (model_new E2 fc2 pre2 c (VDict e) x).
    Proof.
      intros L. apply (new_go c (VDict d) (VDict e) d e); [now destruct d|now destruct e|exact (layer_truthy _ _ _ _ L)|now apply (feeds_layer raw)].
    Qed.
    Lemma new_outside c d : outside (VDict d) -> model_res c (model_new E fc pre c (VDict d) x) (model_new E2 fc2 pre2 c (VDict d) x).
    Proof. intros H. apply (new_go c (VDict d) (VDict d) d d); [now destruct d|now destruct d|reflexivity|now apply feeds_outside]. Qed.
    Lemma items_read E0 c m : NoDup (dkeys (fields_of E0 c)) -> plain_fields (fields_of E0 c) -> defined_data m ->
      (if truthy (VModel c m) then py_dict E0 (VModel c m) else Ok []) = Ok (model_items E0 c m).
    Proof.
      intros N P D. destruct (truthy (VModel c m)) eqn:Q; [now apply model_items_dict|].
      f_equal. cbn [truthy] in Q. destruct m as [a b e h]. cbn in Q. destruct a; [|discriminate]. destruct b; [|discriminate]. destruct e; [|discriminate].
      unfold model_items, model_iter. replace (filter _ _) with (@nil (key * field)); [reflexivity|].
      symmetry. induction (mc_fields (e_class E0 c)); cbn; auto.
    Qed.
    Lemma new_instance raw c m n : kin_data raw c m n -> model_res c (model_new E fc pre c (VModel c m) x) (model_new E2 fc2 pre2 c (VModel c n) x).
    Proof.
      intros K. pose proof (defined_both _ _ _ _ K) as [D1 D2].
      apply (new_go c _ _ (model_items E c m) (model_items E2 c n)).
      - apply items_read; [apply (rn_names _ _ _ _ X)|apply plain1|exact D1].
      - apply items_read; [apply nodup2|apply plain2|exact D2].
      - destruct K as (U1 & U2 & K1 & K2). cbn [truthy]. now rewrite U1, U2, (layer_truthy _ _ _ _ K1), (layer_truthy _ _ _ _ K2).
      - apply (feeds_layer raw). now apply items_layer.
    Qed.
  End New.

  (** ** All types *)
  Lemma res_same f r : (forall v, r = Ok v -> kin false f v v) -> (forall errs d, r = Raise (XData errs d) -> kin false f (VDict d) (VDict d)) -> field_res f r r.
  Proof. intros H K. destruct r as [v|e]; constructor; [now apply H|]. apply kin_exn_refl. intros errs d ->. now apply (K errs). Qed.
  Lemma leaf_res o l r : field_res (FS o (TLeaf l)) r r.
  Proof. apply res_same; intros; apply kin_leaf. Qed.
  Lemma union_res o ms r : field_res (FS o (TUnion ms)) r r.
  Proof. apply res_same; intros; apply kin_union. Qed.
  Lemma model_field_res o c r r2 : model_res c r r2 -> field_res (FS o (TModel c)) r r2.
  Proof.
    intros [v w (m & n & -> & -> & U1 & U2 & K1 & K2)|e e2 H]; constructor; [now apply kin_model|].
    refine (kin_exn_map _ _ _ _ _ H). intros d d2 L. now apply kin_part.
  Qed.

  Lemma run_validators_go f vs vs2 v w : Forall2 (fun g g2 => forall v w, kin false f v w -> g2 w = g v /\ forall errs d, g v <> Some (XData errs d)) vs vs2 ->
    kin false f v w -> forall acc, run_validators vs2 w acc = run_validators vs v acc /\ forall errs d, run_validators vs v acc <> Raise (XData errs d).
  Proof.
    intros F K. induction F as [|g g2 vs vs2 H F IH]; intros acc; cbn [run_validators]; [split; [reflexivity|discriminate]|].
    destruct (H v w K) as [-> N]. destruct (g v) as [[]|]; try (split; [reflexivity|discriminate]); try apply IH.
    - destruct stop; [split; [reflexivity|discriminate]|apply IH].
    - split; [reflexivity|]. intros er d [= -> ->]. now apply (N er d).
  Qed.
  Lemma validators_go f f2 v w : ren_field f f2 -> kin false f v w ->
    field_res f (validators_result (fo_validators (fs_opts f)) v) (validators_result (fo_validators (fs_opts f2)) w).
  Proof.
    intros R K. destruct (ren_opts_of _ _ R) as (_ & _ & _ & _ & _ & _ & F). unfold validators_result. destruct (run_validators_go f _ _ v w F K []) as [-> N].
    destruct (run_validators _ v []) as [[|m l]|e]; [constructor; exact K|constructor; reflexivity|]. constructor. apply kin_exn_refl. intros errs d ->. now destruct (N errs d).
  Qed.
  Lemma required_go f f2 v w x x2 : ren_field f f2 -> rel_ctx x x2 -> kin true f v w -> check_required f2 w x2 = check_required f v x.
  Proof.
    intros R (_ & _ & _ & _ & Q) K. destruct (ren_opts_of _ _ R) as (N & Rq & _). unfold check_required. rewrite N, Rq, (kin_nil _ _ _ _ K), Q. reflexivity.
  Qed.

  Section Step.
    Context (r r2 : conv) (Gf : goes (cv_field r) (cv_field r2)) (Gc : goes (cv_convert r) (cv_convert r2)) (Gv : goes (cv_validate r) (cv_validate r2)).
    Hypothesis Lc : forall o l v x x2, rel_ctx x x2 -> cv_convert r2 (FS o (TLeaf l)) v x2 = cv_convert r (FS o (TLeaf l)) v x.
    Hypothesis Lv : forall o l v x x2, rel_ctx x x2 -> cv_validate r2 (FS o (TLeaf l)) v x2 = cv_validate r (FS o (TLeaf l)) v x.

    Lemma field_go : goes (field_step r) (field_step r2).
    Proof using X Gc Gv.
      intros x x2 f f2 v w A R K. pose proof A as [Cx _]. unfold field_step. rewrite (required_go _ _ _ _ _ _ R Cx K).
      destruct (check_required f v x) as [e|] eqn:C.
      { constructor. unfold check_required in C. destruct (_ && _); [injection C as <-|discriminate]. reflexivity. }
      rewrite <- (kin_nil _ _ _ _ K). destruct (is_nil v) eqn:N.
      { constructor. destruct v; try discriminate; inversion K; subst; try constructor; match goal with H : outside VUndef |- _ => apply outside_defined in H; discriminate end. }
      rewrite (same_validate _ _ Cx). destruct (cx_validate x); [now apply Gv|now apply Gc].
    Qed.

    Lemma union_go x x2 ms v : rel_ctx x x2 -> (forall m, In m ms -> exists o' l, m = FS o' (TLeaf l)) ->
      union_resolve (fun m u => cv_convert r2 m u x2) ms v = union_resolve (fun m u => cv_convert r m u x) ms v /\
      forall m u, union_resolve (fun m u => cv_convert r m u x) ms v = Ok (m, u) -> exists o' l, m = FS o' (TLeaf l).
    Proof using X Lc.
      intros Cx. induction ms as [|m ms IH]; intros H; cbn [union_resolve]; [split; [reflexivity|discriminate]|].
      destruct (H m (or_introl eq_refl)) as (o' & l & ->). rewrite (Lc _ _ _ _ _ Cx). specialize (IH (fun m I => H m (or_intror I))).
      destruct (cv_convert r (FS o' (TLeaf l)) v x) as [u|[]]; try (split; [reflexivity|discriminate]); [|exact IH].
      split; [reflexivity|]. intros m0 u0 [= <- <-]. eauto.
    Qed.

    Lemma elems_go g l m x : rel_ctx x x -> cx_trusted x = VDict [] -> forall g2, ren_field g g2 -> Forall2 (kin true g) l m -> forall i data data2 errs,
      Forall2 (kin false g) data data2 ->
      kin_res (fun s s2 => Forall2 (kin false g) (fst s) (fst s2) /\ snd s2 = snd s) (fun _ _ => False)
        (list_loop (cv_field r) g x i l data errs) (list_loop (cv_field r2) g2 x i m data2 errs).
    Proof using X Gf.
      intros Cx Tx g2 R F. induction F as [|v w l m K F IH]; intros i data data2 errs D; cbn [list_loop]; [constructor; now split|].
      destruct (Gf x x g g2 v w (conj Cx (fun _ => conj Tx Tx)) R K) as [a b Kab|e e2 He].
      - apply IH. apply Forall2_app; [exact D|]. constructor; [exact Kab|constructor].
      - unfold is_base_error. rewrite (kin_exn_caught _ _ _ He), (kin_exn_node _ _ _ He). destruct (caught_by_loop e) eqn:C; [now apply IH|].
        constructor. destruct e, e2; cbn in He |- *; try assumption. discriminate C.
    Qed.
    Lemma entries_go g ck (d e : list (key * pyval)) x : rel_ctx x x -> cx_trusted x = VDict [] -> forall g2, ren_field g g2 ->
      Forall2 (fun p q => fst p = fst q /\ kin true g (snd p) (snd q)) d e -> forall data data2 errs,
      Forall2 (fun p q => fst p = fst q /\ kin false g (snd p) (snd q)) data data2 ->
      kin_res (fun s s2 => Forall2 (fun p q => fst p = fst q /\ kin false g (snd p) (snd q)) (fst s) (fst s2) /\ snd s2 = snd s) (fun _ _ => False)
        (dict_loop (cv_field r) g ck x d data errs) (dict_loop (cv_field r2) g2 ck x e data2 errs).
    Proof using X Gf.
      intros Cx Tx g2 R F.
      assert (Ds : forall y a b data data2, kin false g a b -> Forall2 (fun p q : key * pyval => fst p = fst q /\ kin false g (snd p) (snd q)) data data2 ->
        Forall2 (fun p q : key * pyval => fst p = fst q /\ kin false g (snd p) (snd q)) (dset y a data) (dset y b data2)).
      { intros y a b data data2 Kab D. induction D as [|[z v] [z' w] data data2 [A B] D IHD]; cbn [dset]; [constructor; [split; auto|constructor]|].
        cbn [fst snd] in *. subst z'. destruct (key_eqb y z); constructor; auto. }
      induction F as [|[y v] [y' w] d e [A K] F IH]; intros data data2 errs D; cbn [dict_loop]; [constructor; now split|]. cbn [fst snd] in *. subst y'.
      destruct (Gf x x g g2 v w (conj Cx (fun _ => conj Tx Tx)) R K) as [a b Kab|er er2 He]; cbn [rbind].
      - destruct (ck y) as [y'|er] eqn:Cy; cbn [rbind]; [apply IH; now apply Ds|]. unfold is_base_error. destruct (caught_by_loop er) eqn:C; [now apply IH|].
        constructor. apply kin_exn_refl. intros errs0 d0 ->. discriminate C.
      - unfold is_base_error. rewrite (kin_exn_caught _ _ _ He), (kin_exn_node _ _ _ He). destruct (caught_by_loop er) eqn:C; [now apply IH|].
        constructor. destruct er, er2; cbn in He |- *; try assumption. discriminate C.
    Qed.

    Lemma outside_forall l : Forall outside l -> forall g, Forall2 (kin true g) l l.
    Proof. intros H g. induction H; constructor; auto. now apply kin_raw. Qed.
    Lemma list_go o g g2 v w x : rel_ctx x x -> cx_trusted x = VDict [] -> ren_field g g2 -> kin true (FS o (TList g)) v w ->
      field_res (FS o (TList g)) (list_convert E (cv_field r) g v x) (list_convert E2 (cv_field r2) g2 w x).
    Proof using X Gf.
      intros Cx Tx R K.
      assert (Fin : forall l m, Forall2 (kin true g) l m -> field_res (FS o (TList g))
        (rbind (list_loop (cv_field r) g x 0 l [] []) (fun '(data, errs) => match errs with [] => Ok (VList data) | _ => Raise (XCompound errs) end))
        (rbind (list_loop (cv_field r2) g2 x 0 m [] []) (fun '(data, errs) => match errs with [] => Ok (VList data) | _ => Raise (XCompound errs) end))).
      { intros l m F. destruct (elems_go g l m x Cx Tx g2 R F 0%Z [] [] [] (Forall2_nil _)) as [[da er] [da2 er2] [H1 H2]|e e2 H]; cbn [rbind fst snd] in *.
        - subst er2. destruct er; constructor; [now apply kin_list|reflexivity].
        - constructor. refine (kin_exn_map _ _ _ _ _ H). intros ? ? []. }
      unfold list_convert. inversion K as [| | | |? ? l m F| | | |? u _ O]; subst; cbn [list_elems]; try (constructor; reflexivity); [now apply Fin|].
      destruct O as [u P|l H|l H|d H]; cbn [list_elems]; try (constructor; reflexivity); try (apply Fin, outside_forall; assumption).
      match goal with Q : plain_object ?z |- _ => destruct z end; cbn [list_elems] in *; try (constructor; reflexivity); try (destruct P; fail). apply Fin.
      apply outside_forall. clear. induction s; constructor; auto. apply os_atom. exact I.
    Qed.
    Lemma dict_go o g g2 ck v w x : rel_ctx x x -> cx_trusted x = VDict [] -> ren_field g g2 -> kin true (FS o (TDict g ck)) v w ->
      field_res (FS o (TDict g ck)) (dict_convert (cv_field r) g ck v x) (dict_convert (cv_field r2) g2 ck w x).
    Proof using X Gf.
      intros Cx Tx R K.
      assert (Fin : forall d e, Forall2 (fun p q => fst p = fst q /\ kin true g (snd p) (snd q)) d e -> field_res (FS o (TDict g ck))
        (dict_convert (cv_field r) g ck (VDict d) x) (dict_convert (cv_field r2) g2 ck (VDict e) x)).
      { intros d e F. unfold dict_convert. destruct (entries_go g ck d e x Cx Tx g2 R F [] [] [] (Forall2_nil _)) as [[da er] [da2 er2] [H1 H2]|e1 e2 H]; cbn [rbind fst snd] in *.
        - subst er2. destruct er; constructor; [now apply kin_dict|reflexivity].
        - constructor. refine (kin_exn_map _ _ _ _ _ H). intros ? ? []. }
      inversion K as [| | | | |? ? ? d e F| | |? u _ O]; subst; try (constructor; reflexivity); [now apply Fin|].
      destruct O as [u P|l H|l H|d H]; try (constructor; reflexivity).
      - match goal with Q : plain_object ?z |- _ => destruct z end; try (constructor; reflexivity). destruct P.
      - apply Fin. assert (H' : forall y v, In (y, v) d -> outside v) by (intros y v I; apply (H y v I)). clear -H'.
        induction d as [|[y v] d IH]; constructor; [|apply IH; intros; eapply H'; right; eassumption]. split; [reflexivity|]. apply kin_raw; [reflexivity|]. apply (H' y). now left.
    Qed.
    Lemma model_go o c v w x : rel_ctx x x -> cx_trusted x = VDict [] -> kin true (FS o (TModel c)) v w ->
      field_res (FS o (TModel c)) (model_convert E (cv_field r) (cv_pre r) c v x) (model_convert E2 (cv_field r2) (cv_pre r2) c w x).
    Proof using X Gf.
      intros Cx Tx K. apply model_field_res. pose proof Cx as (_ & Cv & Oo & _). unfold model_convert. rewrite Cv, Oo. cbn [andb]. rewrite ?(rn_classes _ _ _ _ X).
      inversion K as [| | | | | |? ? m n U1 U2 K1 K2|? ? d e L|? u _ O]; subst; try (constructor; reflexivity).
      - rewrite (rn_classes _ _ _ _ X). destruct (e_issub E c c); [|constructor; reflexivity].
        apply (new_instance _ _ Gf _ _ x Cx Tx true). exact (conj U1 (conj U2 (conj K1 K2))).
      - now apply (new_dict _ _ Gf _ _ x Cx Tx true).
      - destruct O as [u P|l H|l H|d H]; try (constructor; reflexivity).
        + match goal with Q : plain_object ?z |- _ => destruct z end; try (constructor; reflexivity); destruct P.
        + apply (new_outside _ _ Gf _ _ x Cx Tx). now apply os_dict.
    Qed.
    Lemma convert_go : goes (convert_step E r) (convert_step E2 r2).
    Proof using X Gf Lc.
      intros x x2 f f2 v w A R K. pose proof A as [Cx _]. destruct R as [o o2 l Ro|o o2 ms Ro M|o o2 c Ro|o o2 g g2 Ro R|o o2 g g2 ck Ro R]; unfold convert_step; cbn [fs_type].
      - apply kin_leaf_eq in K. subst w. apply leaf_res.
      - apply kin_union_eq in K. subst w. destruct (union_go x x2 ms v Cx M) as [-> _]. apply union_res.
      - destruct (at_compound _ _ _ A eq_refl) as [-> Tx]. now apply model_go.
      - destruct (at_compound _ _ _ A eq_refl) as [-> Tx]. now apply list_go.
      - destruct (at_compound _ _ _ A eq_refl) as [-> Tx]. now apply dict_go.
    Qed.
    Lemma validate_step_go : goes (validate_step r) (validate_step r2).
    Proof using X Gc Lc Lv.
      intros x x2 f f2 v w A R K. pose proof A as [Cx _]. pose proof (validators_go f f2) as Val.
      assert (Cv2 : cx_convert x2 = true) by (destruct Cx as (_ & Cv & _ & _ & Q); rewrite Q; exact Cv). pose proof Cx as (_ & Cv & _).
      assert (Fin : field_res f (rbind (cv_convert r f v x) (validators_result (fo_validators (fs_opts f)))) (rbind (cv_convert r2 f2 w x2) (validators_result (fo_validators (fs_opts f2))))).
      { destruct (Gc x x2 f f2 v w A R K) as [a b Kab|e e2 H]; cbn [rbind]; [now apply Val|now constructor]. }
      unfold validate_step. rewrite Cv, Cv2.
      destruct R as [o o2 l Ro|o o2 ms Ro M|o o2 c Ro|o o2 g g2 Ro R|o o2 g g2 ck Ro R]; cbn [fs_type]; try exact Fin.
      apply kin_union_eq in K. subst w. destruct (union_go x x2 ms v Cx M) as [-> U]. destruct (union_resolve _ ms v) as [[m u]|e]; cbn [rbind].
      - destruct (U m u eq_refl) as (o' & l & ->). rewrite (Lv _ _ _ _ _ Cx). apply union_res.
      - apply (union_res o ms (Raise e)).
    Qed.
    (** Assignment. *)
    Definition pre_rel (f : fspec) (v : pyval) : res pyval -> res pyval -> Prop :=
      kin_res (fun a b => kin true f a b /\ (is_undef v = false -> is_undef a = false)) (fun d d2 => kin false f (VDict d) (VDict d2)).
    Lemma pre_go f f2 v w : ren_field f f2 -> kin true f v w -> pre_rel f v (pre_step E r f v) (pre_step E2 r2 f2 w).
    Proof using X Gf.
      intros R K. unfold pre_step, pre_rel. destruct R as [o o2 l Ro|o o2 ms Ro M|o o2 c Ro|o o2 g g2 Ro R|o o2 g g2 ck Ro R]; cbn [fs_type]; try (constructor; split; [exact K|auto]).
      assert (Cx : rel_ctx default_ctx default_ctx) by (unfold rel_ctx; cbn; auto 7).
      assert (Fin : forall q q2, model_res c q q2 -> pre_rel (FS o (TModel c)) v q q2).
      { intros q q2 [a b (m & n & -> & -> & U1 & U2 & K1 & K2)|e e2 H]; constructor.
        - split; [|auto]. apply kin_up. now apply kin_model.
        - refine (kin_exn_map _ _ _ _ _ H). intros d d2 L. now apply kin_part. }
      inversion K as [| | | | | |? ? m n U1 U2 K1 K2|? ? d e L|? u _ O]; subst; try (constructor; first [reflexivity|split; [exact K|auto]]).
      - apply Fin. now apply (new_dict _ _ Gf _ _ default_ctx Cx eq_refl true).
      - destruct O as [u P|l H|l H|d H]; try (constructor; reflexivity).
        + match goal with Q : plain_object ?z |- _ => destruct z end; try (constructor; first [reflexivity|split; [exact K|auto]]); destruct P.
        + apply Fin. apply (new_outside _ _ Gf _ _ default_ctx Cx eq_refl). now apply os_dict.
    Qed.
  End Step.

  Record follows (r r2 : conv) : Prop := {
    fo_f : goes (cv_field r) (cv_field r2);
    fo_c : goes (cv_convert r) (cv_convert r2);
    fo_v : goes (cv_validate r) (cv_validate r2);
    fo_p : forall f f2 v w, ren_field f f2 -> kin true f v w -> pre_rel f v (cv_pre r f v) (cv_pre r2 f2 w);
    fo_lc : forall o l v x x2, rel_ctx x x2 -> cv_convert r2 (FS o (TLeaf l)) v x2 = cv_convert r (FS o (TLeaf l)) v x;
    fo_lv : forall o l v x x2, rel_ctx x x2 -> cv_validate r2 (FS o (TLeaf l)) v x2 = cv_validate r (FS o (TLeaf l)) v x }.
  Lemma conv_follows n : follows (conv_at E n) (conv_at E2 n).
  Proof.
    induction n as [|n [F C V P Lc Lv]]; cbn [conv_at].
    - constructor; cbn; try reflexivity; intros; constructor; reflexivity.
    - constructor; cbn [conv_step cv_field cv_convert cv_validate cv_pre].
      + now apply field_go.
      + now apply convert_go.
      + now apply validate_step_go.
      + now apply pre_go.
      + reflexivity.
      + intros o l v x x2 Cx. unfold validate_step. cbn [fs_type]. assert (Q : cx_convert x2 = cx_convert x) by (destruct Cx as (_ & _ & _ & _ & Q); rewrite Q; reflexivity).
        rewrite Q. destruct Cx as (M & Cv & Rest). rewrite Cv. rewrite (Lc o l v x x2); [reflexivity|]. exact (conj M (conj Cv Rest)).
  Qed.

  (** ** Instances *)
  Lemma data_res_up raw c r r2 : data_res false c r r2 -> data_res raw c r r2.
  Proof. intros [a b H|e e2 H]; constructor; [now apply layer_up|]. refine (kin_exn_map _ _ _ _ _ H). intros d d2. apply layer_up. Qed.

  Lemma convert_rel j b raw c m n v v2 td td2 w d e :
    kw_mapping w = no_mapping -> kw_convert w = true -> kin_data b c m n -> layer (kin raw) c td td2 ->
    (td = [] /\ td2 = [] \/ kw_recursive w = false /\ kw_validate w = false) -> truthy v2 = truthy v ->
    (if truthy v then py_dict E v else Ok (md_converted m)) = Ok d -> (if truthy v2 then py_dict E2 v2 else Ok (md_converted n)) = Ok e ->
    feeds c (if kw_validate w then dupdate d (model_items E c m) else d) (if kw_validate w then dupdate e (model_items E2 c n) else e) ->
    exists m' n',
      fst (model__convert E (conv_at E j) c m v (VDict td) w) = m' /\ fst (model__convert E2 (conv_at E2 j) c n v2 (VDict td2) w) = n' /\
      kin_data b c m' n' /\ md_valid m' = md_valid m /\ md_valid n' = md_valid n /\
      data_res raw c (snd (model__convert E (conv_at E j) c m v (VDict td) w)) (snd (model__convert E2 (conv_at E2 j) c n v2 (VDict td2) w)).
  Proof.
    intros M Cv K Lt Tt Tv Hd He F. pose proof (conv_follows j) as [Gf _ _ _ _ _]. unfold model__convert. rewrite Hd, He, Tv. pose proof K as (U1 & U2 & Kc & _). rewrite U1, U2.
    assert (Q : forall l : list (key * pyval), (if truthy (VDict l) then VDict l else VDict []) = VDict l) by now intros [].
    cbv beta zeta iota. rewrite !Q. set (x := kw_ctx w (VDict td)). set (x2 := kw_ctx w (VDict td2)).
    assert (Cx : rel_ctx x x2).
    { unfold rel_ctx, x, x2, kw_ctx. cbn. rewrite M, Cv. repeat (split; [reflexivity|]). split; [|reflexivity]. destruct Tt as [[-> ->]|[-> _]]; auto. }
    assert (T1 : trusted_dict E x td) by (unfold trusted_dict, x, kw_ctx; cbn [cx_trusted]; now destruct td).
    assert (T2 : trusted_dict E2 x2 td2) by (unfold trusted_dict, x2, kw_ctx; cbn [cx_trusted]; now destruct td2).
    set (a := if truthy v then NoAlias else AliasConverted). assert (A : a <> AliasSelf) by (unfold a; destruct (truthy v); discriminate).
    assert (L : a = AliasConverted -> layer (kin b) c d e).
    { unfold a. rewrite Tv in He. destruct (truthy v); [discriminate|]. intros _. injection Hd as <-. injection He as <-. exact Kc. }
    destruct (kw_validate w) eqn:V.
    - destruct Tt as [[-> ->]|[_ Tt]]; [|discriminate].
      destruct (validate_go _ _ Gf (cv_pre (conv_at E j)) (cv_pre (conv_at E2 j)) x x2 Cx b c m n a d e V eq_refl eq_refl K A L F) as (m' & n' & M1 & M2 & Km & V1 & V2 & R).
      cbn [fst snd]. rewrite M1, M2. exists m', n'. repeat (split; [reflexivity|]). split; [exact Km|]. split; [exact V1|]. split; [exact V2|]. now apply data_res_up.
    - destruct (mut_rel (cv_field (conv_at E j)) (cv_field (conv_at E2 j)) (cv_pre (conv_at E j)) (cv_pre (conv_at E2 j)) x x2 Cx b c m n a d e td td2 K T1 T2 A L) as (m' & n' & M1 & M2 & Km & V1 & V2).
      pose proof (loop_go _ _ Gf (cv_pre (conv_at E j)) (cv_pre (conv_at E2 j)) x x2 Cx b c m n a a d e td td2 K T1 T2 raw Lt) as R. unfold x in R at 1 2. cbn [cx_validate kw_ctx] in R. rewrite V in R. specialize (R F).
      change (mc_fields (e_class E c)) with (fields_of E c). change (mc_fields (e_class E2 c)) with (fields_of E2 c). cbn [fst snd]. rewrite M1, M2. exists m', n'.
      repeat (split; [reflexivity|]). split; [exact Km|]. split; [exact V1|]. split; [exact V2|exact R].
  Qed.

  Lemma validate_rel j b c m n w : kw_mapping w = no_mapping -> kw_convert w = true -> kin_data b c m n ->
    let r := model_validate E (conv_at E j) c m w in let r2 := model_validate E2 (conv_at E2 j) c n w in
    kin_data b c (fst r) (fst r2) /\ kin_opt (layer (kin false) c) (snd r) (snd r2) /\
    (snd r = None -> kw_partial w = false \/ md_converted m <> [] -> kin_data false c (fst r) (fst r2)).
  Proof.
    intros M Cv K r r2.
    assert (Body : let r := (let '(m1, oe) := model_validate_body E (conv_at E j) c m w in (md_set_converted m1 [], oe)) in
                   let r2 := (let '(m1, oe) := model_validate_body E2 (conv_at E2 j) c n w in (md_set_converted m1 [], oe)) in
      kin_data b c (fst r) (fst r2) /\ kin_opt (layer (kin false) c) (snd r) (snd r2) /\ (snd r = None -> kin_data false c (fst r) (fst r2))).
    { cbv zeta. unfold model_validate_body. set (wv := KW _ _ _ _ _ _ true _). pose proof K as (U1 & U2 & K1 & K2).
      destruct (convert_rel j b false c m n VNone VNone [] [] wv (md_converted m) (md_converted n) M Cv K (layer_nil _ c) (or_introl (conj eq_refl eq_refl)) eq_refl eq_refl eq_refl)
        as (m' & n' & M1 & M2 & (W1 & W2 & W3 & W4) & V1 & V2 & R).
      { cbn [kw_validate wv]. apply (feeds_layer b). apply layer_dupdate; [exact K1|]. now apply items_layer. }
      destruct (model__convert E (conv_at E j) c m VNone (VDict []) wv) as [m1 rs], (model__convert E2 (conv_at E2 j) c n VNone (VDict []) wv) as [n1 rs2]. cbn [fst snd] in *. subst m1 n1.
      destruct R as [da da2 Ld|er er2 He].
      - cbn [fst snd]. split; [|split; [exact I|intros _]]; (split; [exact W1|]; split; [exact W2|]; split; [constructor|]); cbn [md_valid md_set_converted md_set_valid]; [now apply layer_up|exact Ld].
      - destruct er, er2; cbn in He; try discriminate He; try (cbn [fst snd]; split; [|split; [exact He|discriminate]]; split; [exact W1|]; split; [exact W2|]; split; [constructor|exact W4]).
        destruct He as [-> He]. cbn [fst snd]. split; [|split; [cbn; now split|discriminate]]. split; [exact W1|]. split; [exact W2|]. split; [constructor|].
        cbn [md_valid md_set_converted md_set_valid]. apply layer_dupdate; [exact W4|now apply layer_up]. }
    cbv zeta in Body. unfold r, r2, model_validate. pose proof K as (U1 & U2 & K1 & K2).
    destruct (md_converted m) as [|p l] eqn:Qm; inversion K1; subst; [destruct (kw_partial w) eqn:P|].
    - cbn [fst snd]. split; [exact K|]. split; [exact I|]. intros _ [Hq|Hq]; [discriminate|congruence].
    - destruct Body as (B1 & B2 & B3). split; [exact B1|]. split; [exact B2|]. intros Hq _. exact (B3 Hq).
    - destruct Body as (B1 & B2 & B3). split; [exact B1|]. split; [exact B2|]. intros Hq _. exact (B3 Hq).
  Qed.

  Lemma init_rel j c v v2 w d e : kw_mapping w = no_mapping -> kw_convert w = true -> truthy v2 = truthy v ->
    (if truthy v then py_dict E v else Ok []) = Ok d -> (if truthy v2 then py_dict E2 v2 else Ok []) = Ok e -> feeds c d e ->
    kin_res (kin_data false c) (layer (kin false) c) (model_init E (conv_at E j) c v (VDict []) w) (model_init E2 (conv_at E2 j) c v2 (VDict []) w).
  Proof.
    intros M Cv Tv Hd He F. unfold model_init.
    destruct (convert_rel j false false c md_empty md_empty v v2 [] [] w d e M Cv (kin_empty false c) (layer_nil _ c) (or_introl (conj eq_refl eq_refl)) Tv Hd He)
      as (m' & n' & M1 & M2 & (W1 & W2 & W3 & W4) & V1 & V2 & R).
    { rewrite !empty_items_nil. now destruct (kw_validate w). }
    unfold md_empty in *. destruct (model__convert E (conv_at E j) c (MD [] [] [] None) v (VDict []) w) as [m1 rs], (model__convert E2 (conv_at E2 j) c (MD [] [] [] None) v2 (VDict []) w) as [n1 rs2].
    cbn [fst snd] in *. subst m1 n1. destruct R as [da da2 Ld|er er2 He']; [|now constructor].
    assert (K2 : kin_data false c (md_set_converted m' da) (md_set_converted n' da2)) by (split; [exact W1|]; split; [exact W2|]; split; [exact Ld|exact W4]).
    destruct (kw_validate w); [|constructor; exact K2]. set (w' := KW _ _ _ _ _ _ _ _).
    destruct (validate_rel j false c _ _ w' eq_refl Cv K2) as (B1 & B2 & _).
    destruct (model_validate E (conv_at E j) c (md_set_converted m' da) w') as [m3 oe], (model_validate E2 (conv_at E2 j) c (md_set_converted n' da2) w') as [n3 oe2]. cbn [fst snd] in *.
    destruct oe as [er|], oe2 as [er2|]; cbn in B2; try destruct B2; constructor; assumption.
  Qed.
  Lemma init_outside j c d w : kw_mapping w = no_mapping -> kw_convert w = true -> outside (VDict d) ->
    kin_res (kin_data false c) (layer (kin false) c) (model_init E (conv_at E j) c (VDict d) (VDict []) w) (model_init E2 (conv_at E2 j) c (VDict d) (VDict []) w).
  Proof. intros M Cv H. apply (init_rel j c _ _ w d d M Cv eq_refl); [now destruct d|now destruct d|now apply feeds_outside]. Qed.
  Lemma init_copy j raw c m n w : kw_mapping w = no_mapping -> kw_convert w = true -> kin_data raw c m n ->
    kin_res (kin_data false c) (layer (kin false) c) (model_init E (conv_at E j) c (VModel c m) (VDict []) w) (model_init E2 (conv_at E2 j) c (VModel c n) (VDict []) w).
  Proof.
    intros M Cv K. pose proof (defined_both _ _ _ _ K) as [D1 D2]. apply (init_rel j c _ _ w (model_items E c m) (model_items E2 c n) M Cv).
    - destruct K as (U1 & U2 & K1 & K2). cbn [truthy]. now rewrite U1, U2, (layer_truthy _ _ _ _ K1), (layer_truthy _ _ _ _ K2).
    - apply items_read; [apply (rn_names _ _ _ _ X)|apply plain1|exact D1].
    - apply items_read; [apply nodup2|apply plain2|exact D2].
    - apply (feeds_layer raw). now apply items_layer.
  Qed.
  Lemma import_rel j b c m n d w : kw_mapping w = no_mapping -> kw_convert w = true -> kw_validate w = false -> kw_recursive w = false ->
    kin_data b c m n -> outside (VDict d) ->
    let r := model_import_data E (conv_at E j) c m (VDict d) w in let r2 := model_import_data E2 (conv_at E2 j) c n (VDict d) w in
    kin_data b c (fst r) (fst r2) /\ kin_opt (layer (kin b) c) (snd r) (snd r2).
  Proof.
    intros M Cv V Rc K O. cbv zeta. pose proof (defined_both _ _ _ _ K) as [D1 D2]. unfold model_import_data.
    rewrite (model_items_dict E c m (rn_names _ _ _ _ X c) (plain1 c) D1), (model_items_dict E2 c n (nodup2 c) (plain2 c) D2). pose proof K as (U1 & U2 & K1 & K2).
    assert (Lt : layer (kin b) c (model_items E c m) (model_items E2 c n)) by now apply items_layer.
    set (d1 := if truthy (VDict d) then d else md_converted m). set (e1 := if truthy (VDict d) then d else md_converted n).
    destruct (convert_rel j b b c m n (VDict d) (VDict d) (model_items E c m) (model_items E2 c n) w d1 e1 M Cv K Lt (or_intror (conj Rc V)) eq_refl)
      as (m' & n' & M1 & M2 & (W1 & W2 & W3 & W4) & V1 & V2 & R).
    { unfold d1. now destruct d. } { unfold e1. now destruct d. }
    { rewrite V. unfold d1, e1. destruct (truthy (VDict d)); [now apply feeds_outside|now apply (feeds_layer b)]. }
    destruct (model__convert E (conv_at E j) c m (VDict d) (VDict (model_items E c m)) w) as [m1 rs], (model__convert E2 (conv_at E2 j) c n (VDict d) (VDict (model_items E2 c n)) w) as [n1 rs2].
    cbn [fst snd] in *. subst m1 n1. destruct R as [da da2 Ld|er er2 He']; cbn [fst snd].
    - rewrite V. cbn [fst snd]. split; [|exact I]. split; [exact W1|]. split; [exact W2|]. split; [|exact W4]. cbn [md_converted md_set_converted]. now apply layer_dupdate.
    - split; [exact (conj W1 (conj W2 (conj W3 W4)))|exact He'].
  Qed.
  Lemma set_rel j c m n y f v w : kin_data true c m n -> In (y, f) (fields_of E c) -> kin true (fd_spec f) v w -> is_undef v = false ->
    let r := model_setitem E (conv_at E j) c m y v in let r2 := model_setitem E2 (conv_at E2 j) c n (rho c y) w in
    kin_data true c (fst r) (fst r2) /\ kin_opt (fun d e => kin false (fd_spec f) (VDict d) (VDict e)) (snd r) (snd r2).
  Proof.
    intros K I Kv U. cbv zeta. unfold model_setitem. destruct (fields_pair _ _ _ I) as (f2 & I2 & R).
    change (mc_fields (e_class E c)) with (fields_of E c). change (mc_fields (e_class E2 c)) with (fields_of E2 c).
    rewrite (In_dget _ _ _ (rn_names _ _ _ _ X c) I), (In_dget _ _ _ (nodup2 c) I2). destruct (re_plain _ _ _ _ _ _ _ _ R) as (G1 & _ & G2 & _). rewrite G1, G2.
    destruct (fo_p _ _ (conv_follows j) _ _ v w (re_type _ _ _ _ _ _ _ _ R) Kv) as [a b [Kab Ua]|er er2 He]; cbn [fst snd].
    - split; [|exact Logic.I]. destruct K as (U1 & U2 & K1 & K2). split; [exact U1|]. split; [exact U2|]. split; [|exact K2]. cbn [md_converted md_set_converted].
      specialize (Ua U). eapply layer_dset; try eassumption. rewrite <- (kin_undef_iff _ _ _ _ Kab). exact Ua.
    - split; [exact K|exact He].
  Qed.
  Lemma get_rel raw c m n y f : kin_data raw c m n -> In (y, f) (fields_of E c) ->
    kin_res (kin raw (fd_spec f)) (fun _ _ => False) (model_getitem E c m y) (model_getitem E2 c n (rho c y)).
  Proof.
    intros K I. unfold model_getitem. destruct (fields_pair _ _ _ I) as (f2 & I2 & R).
    change (mc_fields (e_class E c)) with (fields_of E c). change (mc_fields (e_class E2 c)) with (fields_of E2 c).
    rewrite (In_dget _ _ _ (rn_names _ _ _ _ X c) I), (In_dget _ _ _ (nodup2 c) I2). unfold field_get. destruct (re_plain _ _ _ _ _ _ _ _ R) as (G1 & _ & G2 & _). rewrite G1, G2.
    destruct (chain_both _ _ _ _ _ _ K I) as [|v w Kv]; [constructor; reflexivity|]. rewrite <- (kin_undef_iff _ _ _ _ Kv). destruct (is_undef v); constructor; [reflexivity|exact Kv].
  Qed.

  (** ** Export *)
  Section Export.
    Context (x : ectx) (Rx : ren_export E rho used x).
    Definition filt_rel (c : cid) (o o2 : option rolefn) : Prop :=
      match o, o2 with None, None => True | Some g, Some g2 => ren_role E rho used c g g2 | _, _ => False end.
    Lemma filter_rel c : (exists o o2, export_filter (e_class E c) x = Ok o /\ export_filter (e_class E2 c) x = Ok o2 /\ filt_rel c o o2) \/
      (exists e, export_filter (e_class E c) x = Raise e /\ export_filter (e_class E2 c) x = Raise e).
    Proof using X Rx.
      assert (Df : filt_rel c (dget (k "default") (mc_roles (e_class E c))) (dget (k "default") (mc_roles (e_class E2 c)))) by apply (rn_roles _ _ _ _ X).
      unfold export_filter. destruct (ec_role x) as [|n|g] eqn:Q.
      - left. eauto 6.
      - pose proof (rn_roles _ _ _ _ X c n) as H. destruct (dget n (mc_roles (e_class E c))), (dget n (mc_roles (e_class E2 c))); try destruct H; try (left; eauto 6; fail).
        destruct (key_true n && ec_raise x); [right; eauto|left; eauto 6].
      - left. do 2 eexists. split; [reflexivity|]. split; [reflexivity|]. exact (Rx g Q c).
    Qed.
    Lemma level_rel f f2 : ren_field f f2 -> get_export_level E2 f2 x = get_export_level E f x.
    Proof using X.
      intros R. destruct (ren_opts_of _ _ R) as (_ & _ & Lv & Ow & _). unfold get_export_level. rewrite Lv, Ow. destruct (fo_owner (fs_opts f)); [|reflexivity]. now rewrite (rn_level _ _ _ _ X).
    Qed.

    Section Under.
      Context (fe fe2 : fspec -> pyval -> ectx -> res pyval).
      Hypothesis H : forall f f2 v w, ren_field f f2 -> kin false f v w -> fe2 f2 w x = fe f v x.
      Hypothesis Hl : forall o l v, fe2 (FS o (TLeaf l)) v x = fe (FS o (TLeaf l)) v x.
      Definition shows (c : cid) (obj obj2 : pyval) : Prop := forall n f, In (n, f) (fields_of E c) -> kin false (fd_spec f) (atom_value E obj n) (atom_value E2 obj2 (rho c n)).
      Lemma export_fields_rel c obj obj2 g g2 : shows c obj obj2 -> filt_rel c g g2 -> forall fs fs2, Forall2 (fun p q => ren_entry c (fst p) (snd p) (fst q) (snd q)) fs fs2 ->
        (forall p, In p fs -> In p (fields_of E c)) -> forall data, export_fields E2 fe2 x g2 obj2 fs2 data = export_fields E fe x g obj fs data.
      Proof using X H.
        intros Sh Fl fs fs2 F. induction F as [|[n f] [n2 f2] fs fs2 R F IH]; intros S data; [reflexivity|]. cbn [export_fields].
        pose proof (S _ (or_introl eq_refl)) as I. pose proof (re_name _ _ _ _ _ _ _ _ R) as Q. cbn [fst snd] in *. subst n2.
        assert (Q : export_field E2 fe2 x g2 obj2 (rho c n) f2 = export_field E fe x g obj n f); [|rewrite Q; destruct (export_field E fe x g obj n f); cbn [rbind]; [apply IH; intros p Hp; apply S; now right|reflexivity]].
        unfold export_field. pose proof (Sh n f I) as K. pose proof (re_type _ _ _ _ _ _ _ _ R) as Rf.
        assert (Qg : match g2 with Some g0 => g0 (rho c n) (atom_value E2 obj2 (rho c n)) | None => false end = match g with Some g0 => g0 n (atom_value E obj n) | None => false end).
        { unfold filt_rel in Fl. destruct g, g2; try destruct Fl; try reflexivity. now apply (Fl n f). }
        rewrite Qg. destruct (match g with Some g0 => g0 n (atom_value E obj n) | None => false end); [reflexivity|]. rewrite (level_rel _ _ Rf), (sname_rel _ _ _ _ _ R), (ren_compound _ _ Rf).
        destruct (Z.eqb _ DROP); [reflexivity|]. rewrite <- (kin_nil _ _ _ _ K), (H _ _ _ _ Rf K).
        destruct (is_nil (atom_value E obj n)) eqn:N; [|reflexivity].
        assert (Qv : atom_value E2 obj2 (rho c n) = atom_value E obj n) by (destruct (atom_value E obj n); try discriminate; inversion K; reflexivity). now rewrite Qv.
      Qed.
      Lemma export_loop_rel c obj obj2 : shows c obj obj2 -> export_loop E2 fe2 x c obj2 = export_loop E fe x c obj.
      Proof using X Rx H.
        intros Sh. unfold export_loop. destruct (filter_rel c) as [(o & o2 & -> & -> & Fl)|(e & -> & ->)]; cbn [rbind]; [|reflexivity].
        apply (export_fields_rel c obj obj2 o o2 Sh Fl _ _ (rn_fields _ _ _ _ X c)). auto.
      Qed.
      Lemma shows_model c m n : kin_data false c m n -> shows c (VModel c m) (VModel c n).
      Proof using X.
        intros K y f I. unfold atom_value. cbn [py_getitem]. destruct (get_rel false c m n y f K I); [assumption|constructor].
      Qed.
      Lemma shows_part c d e : layer (kin false) c d e -> shows c (VDict d) (VDict e).
      Proof using X. intros L y f I. rewrite !atom_value_dict. destruct (layer_get _ _ _ _ _ _ L I); [constructor|assumption]. Qed.
      Lemma export_step_rel f f2 v w : ren_field f f2 -> kin false f v w -> export_step E2 fe2 f2 w x = export_step E fe f v x.
      Proof using X Rx H Hl.
        intros R K. unfold export_step. destruct R as [o o2 l Ro|o o2 ms Ro M|o o2 c Ro|o o2 g g2 Ro R|o o2 g g2 ck Ro R]; cbn [fs_type].
        - apply kin_leaf_eq in K. now subst w.
        - apply kin_union_eq in K. subst w.
          assert (U : union_resolve (export_convert E2 fe2 x) ms v = union_resolve (export_convert E fe x) ms v /\
                      forall m u, union_resolve (export_convert E fe x) ms v = Ok (m, u) -> exists o' l, m = FS o' (TLeaf l)).
          { clear -M. induction ms as [|m ms IH]; cbn [union_resolve]; [split; [reflexivity|discriminate]|]. destruct (M m (or_introl eq_refl)) as (o' & l & ->). cbn [export_convert].
            specialize (IH (fun m I => M m (or_intror I))). destruct (lf_native l v) as [u|[]]; try (split; [reflexivity|discriminate]); [|exact IH]. split; [reflexivity|]. intros m0 u0 [= <- <-]. eauto. }
          destruct U as [-> U]. destruct (union_resolve _ ms v) as [[m u]|e]; cbn [rbind]; [|reflexivity]. destruct (U m u eq_refl) as (o' & l & ->). apply Hl.
        - unfold model_export.
          assert (Nil : forall z, shows c z z \/ True) by auto.
          inversion K as [| | | | | |? ? m n U1 U2 K1 K2|? ? d e L|? ? Z]; subst; try discriminate Z.
          + rewrite (export_loop_rel c VNone VNone); [reflexivity|]. intros n f _. constructor.
          + rewrite (export_loop_rel c VUndef VUndef); [reflexivity|]. intros n f _. constructor.
          + rewrite (export_loop_rel c (VModel c m) (VModel c n)); [reflexivity|]. apply shows_model. exact (conj U1 (conj U2 (conj K1 K2))).
          + rewrite (export_loop_rel c (VDict d) (VDict e)); [reflexivity|]. now apply shows_part.
        - unfold list_export. rewrite (level_rel _ _ R). destruct (Z.eqb _ DROP); [reflexivity|].
          inversion K as [| | | |? ? l m F| | | |? ? Z]; subst; try discriminate Z; try reflexivity. cbn [py_iter rbind]. f_equal.
          clear -F R H Rx X. generalize (@nil pyval). induction F as [|v w l m K F IH]; intros data; cbn [list_export_loop]; [reflexivity|]. rewrite (H _ _ _ _ R K).
          destruct (fe g v x); cbn [rbind]; [|reflexivity]. unfold skip_elem. rewrite (ren_compound _ _ R). apply IH.
        - unfold dict_export. rewrite (level_rel _ _ R). destruct (Z.eqb _ DROP); [reflexivity|].
          inversion K as [| | | | |? ? ? d e F| | |? ? Z]; subst; try discriminate Z; try reflexivity. cbn [py_item_pairs rbind]. f_equal.
          clear -F R H Rx X. generalize (@nil (key * pyval)). induction F as [|[y v] [y' w] d e [A K] F IH]; intros data; cbn [dict_export_loop]; [reflexivity|]. cbn [fst snd] in *. subst y'.
          rewrite (H _ _ _ _ R K). destruct (fe g v x); cbn [rbind]; [|reflexivity]. unfold skip_elem. rewrite (ren_compound _ _ R). apply IH.
      Qed.
    End Under.
    Lemma export_rel n : forall f f2 v w, ren_field f f2 -> kin false f v w -> export_at E2 n f2 w x = export_at E n f v x.
    Proof using X Rx.
      induction n as [|n IH]; intros f f2 v w R K; cbn [export_at]; [reflexivity|]. apply export_step_rel; try assumption. intros o l u. destruct n; reflexivity.
    Qed.
    Lemma export_top n c m m2 : kin_data false c m m2 -> model_export_top E2 (export_at E2 n) c m2 x = model_export_top E (export_at E n) c m x.
    Proof using X Rx. intros K. apply export_loop_rel; [apply export_rel|]. now apply shows_model. Qed.
  End Export.

  Lemma in_and_out x : ren_export E rho used x -> forall j n c d w, kw_mapping w = no_mapping -> kw_convert w = true -> outside (VDict d) ->
    kin_res eq (fun p q => layer (kin false) c p q \/ q = p)
      (rbind (model_init E (conv_at E j) c (VDict d) (VDict []) w) (fun m => model_export_top E (export_at E n) c m x))
      (rbind (model_init E2 (conv_at E2 j) c (VDict d) (VDict []) w) (fun m => model_export_top E2 (export_at E2 n) c m x)).
  Proof.
    intros Rx j n c d w M Cv O. destruct (init_outside j c d w M Cv O) as [m m2 K|e e2 He]; cbn [rbind]; [|constructor; refine (kin_exn_map _ _ _ _ _ He); now left].
    rewrite (export_top x Rx n c m m2 K). destruct (model_export_top E (export_at E n) c m x) as [r|e] eqn:Q; [now constructor|].
    constructor. apply kin_exn_refl. now right.
  Qed.
End Rename.
