(** What a later version of a program accepts, an earlier version with fewer fields accepts as well, as long as it does not
    refuse the keys of the new fields. *)
From Coq Require Import Lia.
From Verif.Model Require Import Py Core Export Api.
From Verif.Spec Require Import CallSpec ImportSpec ValidateSpec PrimitiveSpec OrderSpec EvolveSpec ForwardSpec CompoundSpec.
From Verif.Proofs Require Import DictLemmas ImportLemmas ApiLemmas ImportApi ValidateLemmas CompoundLemmas Idem EvolveFacts.

Section Forward.
  Context (E E2 : env) (X : adds E E2).
  Local Notation new_field := (new_field E E2).
  Local Notation sent := (sent E E2).
  Local Notation part := (part E E2).
  Local Notation trim := (trim E E2).
  Local Notation trim_data := (trim_data E E2).
  Local Notation lenient_field := (lenient_field E E2).

  Lemma sent_up b v : sent true v -> sent b v.
  Proof.
    revert v. fix IH 2. intros v [u P|l H|l H|d H].
    - now apply st_atom.
    - apply st_list. exact (F_map _ _ IH _ H).
    - apply st_tuple. exact (F_map _ _ IH _ H).
    - apply st_dict. intros y u Hy. destruct (H y u Hy) as [G N]. split; [exact (IH u G)|]. intros _. exact (N eq_refl).
  Qed.
  Lemma trim_up b f v w : trim true f v w -> trim b f v w.
  Proof.
    revert f v w. fix IH 4. intros f v w [g u H|g|o l u|o ms u|o g l m H|o g ck d e H|o c b' m n U1 U2 L1 L2].
    - apply tr_sent. now apply sent_up.
    - apply tr_undef.
    - apply tr_leaf.
    - apply tr_union.
    - apply tr_list. exact (F2_map _ _ (IH g) _ _ H).
    - apply tr_dict. refine (F2_map _ _ _ _ _ H). intros p q [A B]. exact (conj A (IH g _ _ B)).
    - now apply tr_model.
  Qed.
  Lemma trim_none b f : trim b f VNone VNone.
  Proof. apply tr_sent, st_atom. exact I. Qed.
  Lemma trim_nil b f v w : trim b f v w -> is_nil v = is_nil w.
  Proof. intros H. inversion H; subst; reflexivity. Qed.
  Lemma trim_undef_iff b f v w : trim b f v w -> is_undef v = is_undef w.
  Proof. intros H. inversion H; subst; reflexivity. Qed.
  Lemma trim_leaf_eq b o l v w : trim b (FS o (TLeaf l)) v w -> v = w.
  Proof. intros H. inversion H; subst; reflexivity. Qed.
  Lemma trim_union_eq b o ms v w : trim b (FS o (TUnion ms)) v w -> v = w.
  Proof. intros H. inversion H; subst; reflexivity. Qed.

  (** ** One run of the loop *)
  Definition supplies (b : bool) (c : cid) (d e : list (key * pyval)) : Prop :=
    (forall n f, In (n, f) (fields_of E c) ->
       both (trim b (fd_spec f)) (supplied d n (fd_spec f) no_mapping) (supplied e n (fd_spec f) no_mapping)) /\
    (b = true -> forall y, In y (dkeys e) -> acceptable (fields_of E c) no_mapping y).

  Section Loop.
    Context (fc fc2 : fspec -> pyval -> ictx -> res pyval) (pre pre2 : fspec -> pyval -> res pyval) (x : ictx).
    Hypothesis Px : plain_ctx x.
    Hypothesis Hfc : forall f v w u, lenient_field f -> trim (cx_strict x) f v w -> fc2 f v x = Ok u ->
      exists u', fc f w x = Ok u' /\ trim true f u u'.

    Lemma candidate_trim f s t : lenient_opts E E2 f -> both (trim (cx_strict x) f) s t ->
      trim (cx_strict x) f (candidate x f s) (candidate x f t).
    Proof.
      intros [_ D] [|v w K]; cbn; [|exact K].
      assert (N : trim (cx_strict x) f (if cx_init_values x then VNone else VUndef) (if cx_init_values x then VNone else VUndef)).
      { destruct (cx_init_values x); [apply trim_none|apply tr_undef]. }
      destruct (cx_apply_defaults x); [|exact N]. destruct D as [->|D]; [exact N|].
      destruct (fo_default (fs_opts f)) eqn:F; try exact N; apply trim_up; exact D.
    Qed.
    Lemma lenient_opts_of f : lenient_field f -> lenient_opts E E2 f.
    Proof. intros H; inversion H; assumption. Qed.

    Lemma kept_outcome c n f d e : In (n, f) (fields_of E c) -> supplies (cx_strict x) c d e ->
      (forall er, field_outcome E2 fc2 x d [] n (fd_spec f) <> Fail er) ->
      (field_outcome E2 fc2 x d [] n (fd_spec f) = Keep /\ field_outcome E fc x e [] n (fd_spec f) = Keep) \/
      exists v w, field_outcome E2 fc2 x d [] n (fd_spec f) = Store v /\ field_outcome E fc x e [] n (fd_spec f) = Store w /\
        is_undef v = false /\ trim true (fd_spec f) v w.
    Proof.
      intros Hi (F1 & _) Nf. rewrite !outcome_plain in * by exact Px.
      pose proof (ad_fields _ _ X c n f Hi) as T. pose proof (lenient_opts_of _ T) as TO.
      pose proof (candidate_trim _ _ _ TO (F1 n f Hi)) as K.
      destruct (fc2 (fd_spec f) _ x) as [u|er] eqn:R; [|now destruct (Nf er)].
      destruct (Hfc _ _ _ _ T K R) as (u' & R' & Ku). rewrite R'. pose proof (trim_undef_iff _ _ _ _ Ku) as Un.
      destruct (is_undef u) eqn:Uu.
      - left. destruct u; try discriminate. destruct u'; try discriminate. auto.
      - right. exists u, u'. destruct u; try discriminate; destruct u'; try discriminate; auto.
    Qed.

    Lemma loop_len c mut mut2 a a2 d d' e e' data :
      effective_input E2 x (fields_of E2 c) mut2 d d' -> effective_input E x (fields_of E c) mut e e' ->
      defined_dict d' -> defined_dict e' -> supplies (cx_strict x) c d' e' ->
      lo_res (import_loop E2 fc2 pre2 x (fields_of E2 c) mut2 a2 (VDict d)) = Ok data ->
      exists data2, lo_res (import_loop E fc pre x (fields_of E c) mut a (VDict e)) = Ok data2 /\ part (trim true) c data data2.
    Proof.
      intros Ef2 Ef1 D2 D1 F R. destruct (ad_names _ _ X c) as [N1 N2].
      pose proof (trusted_plain E x Px) as T1. pose proof (trusted_plain E2 x Px) as T2.
      assert (H2 : forall n f, In (n, f) (fields_of E2 c) -> handled x f) by (intros n f H; right; unfold has_setter; now rewrite (proj2 (ad_plain _ _ X c n f H))).
      assert (H1 : forall n f, In (n, f) (fields_of E c) -> handled x f) by (intros n f H; exact (H2 n f (ad_kept _ _ X _ _ _ H))).
      pose proof (fun y => success_no_errors E2 fc2 pre2 x _ mut2 a2 d d' [] Ef2 D2 N2 T2 data y R) as NE.
      assert (Old : forall n f er, In (n, f) (fields_of E c) -> field_outcome E2 fc2 x d' [] n (fd_spec f) <> Fail er).
      { intros n f er H Hf. apply (ad_kept _ _ X) in H. apply (NE (public_name n f)). right. exists n, f, er. repeat split; try assumption. now apply (H2 n). }
      assert (Fine : forall n f er, In (n, f) (fields_of E c) -> field_outcome E fc x e' [] n (fd_spec f) <> Fail er).
      { intros n f er H Hf. destruct (kept_outcome c n f d' e' H F (fun er => Old n f er H)) as [[_ K]|(v & w & _ & K & _)]; congruence. }
      destruct (no_errors_success E fc pre x _ mut a e e' [] Ef1 D1 N1 T1) as [data2 R2].
      { intros n f er H _ Hf. destruct (Fine n f er H Hf). }
      { intros y [[S [Ry Ra]]|(n & f & er & H & _ & Hf & _)]; [|exact (Fine n f er H Hf)].
        destruct Px as (_ & M & _). rewrite M in Ra. apply Ra. destruct F as (_ & F). now apply F. }
      exists data2. split; [exact R2|].
      assert (G2 : forall n f, In (n, f) (fields_of E2 c) -> dget n data = value_after x (fd_spec f) (field_outcome E2 fc2 x d' [] n (fd_spec f)) None).
      { intros n f H. exact (data_field E2 fc2 pre2 x _ mut2 a2 d d' [] Ef2 D2 N2 T2 data [] n f (or_introl R) H (H2 n f H)). }
      assert (G1 : forall n f, In (n, f) (fields_of E c) -> dget n data2 = value_after x (fd_spec f) (field_outcome E fc x e' [] n (fd_spec f)) None).
      { intros n f H. exact (data_field E fc pre x _ mut a e e' [] Ef1 D1 N1 T1 data2 [] n f (or_introl R2) H (H1 n f H)). }
      assert (O2 : forall y, ~ In y (dkeys (fields_of E2 c)) -> dget y data = None).
      { intros y H. exact (data_other E2 fc2 pre2 x _ mut2 a2 d d' [] Ef2 D2 N2 T2 data [] y (or_introl R) H). }
      assert (O1 : forall y, ~ In y (dkeys (fields_of E c)) -> dget y data2 = None).
      { intros y H. exact (data_other E fc pre x _ mut a e e' [] Ef1 D1 N1 T1 data2 [] y (or_introl R2) H). }
      assert (Old2 : forall n f, In (n, f) (fields_of E c) -> (dget n data = None /\ dget n data2 = None) \/
        exists v w, dget n data = Some v /\ dget n data2 = Some w /\ is_undef v = false /\ trim true (fd_spec f) v w).
      { intros n f H. rewrite (G1 n f H), (G2 n f (ad_kept _ _ X _ _ _ H)).
        destruct (kept_outcome c n f d' e' H F (fun er => Old n f er H)) as [[-> ->]|(v & w & -> & -> & U & K)]; cbn; [auto|right; eauto 6]. }
      split; [eapply result_NoDup; [exact Ef2|exact D2|exact N2|exact T2|constructor|exact (@or_introl _ (lo_res _ = Raise (XData [] data)) R)]|].
      split; [eapply result_NoDup; [exact Ef1|exact D1|exact N1|exact T1|constructor|exact (@or_introl _ (lo_res _ = Raise (XData [] data2)) R2)]|].
      split.
      { intros y Hy. destruct (dget y (fields_of E2 c)) as [f|] eqn:G.
        - apply dget_In in G. rewrite (G2 y f G) in Hy. rewrite outcome_plain in Hy by exact Px.
          destruct (fc2 (fd_spec f) _ x) as [[]|er] eqn:Q; cbn in Hy; try discriminate. exfalso.
          assert (Hf : field_outcome E2 fc2 x d' [] y (fd_spec f) = Fail er) by (rewrite outcome_plain by exact Px; now rewrite Q).
          apply (NE (public_name y f)). right. exists y, f, er. repeat split; try assumption. now apply (H2 y).
        - apply dget_None_keys in G. rewrite (O2 y G) in Hy. discriminate. }
      split.
      { intros y Hy. destruct (dget y (fields_of E c)) as [f|] eqn:G.
        - apply dget_In in G. rewrite (G1 y f G) in Hy. rewrite outcome_plain in Hy by exact Px.
          destruct (fc (fd_spec f) _ x) as [[]|er] eqn:Q; cbn in Hy; try discriminate. exfalso. apply (Fine y f er G). rewrite outcome_plain by exact Px. now rewrite Q.
        - apply dget_None_keys in G. rewrite (O1 y G) in Hy. discriminate. }
      split; [|split; assumption].
      intros n f H. destruct (Old2 n f H) as [[-> ->]|(v & w & -> & -> & _ & K)]; [constructor|now constructor].
    Qed.
  End Loop.

  (** ** Reading dictionaries and instances *)
  Lemma acceptable_down c y : ~ later_key E E2 y -> acceptable (fields_of E2 c) no_mapping y -> acceptable (fields_of E c) no_mapping y.
  Proof.
    intros N A. apply all_input_keys_acceptable.
    destruct (kmem y (all_input_keys (fields_of E c) no_mapping)) eqn:M; [now apply kmem_In|]. apply kmem_nIn in M.
    rewrite all_input_keys_acceptable in M. exfalso. apply N. exists c. auto.
  Qed.
  Lemma supplies_sent b c d : sent b (VDict d) -> (b = true -> forall y, In y (dkeys d) -> acceptable (fields_of E2 c) no_mapping y) ->
    supplies b c d d.
  Proof.
    intros G S. assert (V : forall y v, In (y, v) d -> sent b v /\ (b = true -> ~ later_key E E2 y)).
    { inversion G as [? P| | |? H]; subst; [destruct P|exact H]. }
    split.
    - intros n f H. apply both_refl. intros v Hv. apply supplied_In in Hv as (y & _ & Hy). apply tr_sent. now apply (V y).
    - intros B y Hy. specialize (S B y Hy). apply in_map_iff in Hy as ([y' v] & <- & Hy). destruct (V y' v Hy) as [_ N].
      exact (acceptable_down c _ (N B) S).
  Qed.
  Lemma separate_kept c : separate_names (fields_of E c) no_mapping.
  Proof. intros n f n' f' H H'. eapply (ad_separate _ _ X c); eapply (ad_kept _ _ X); eassumption. Qed.
  Lemma keys_in E0 c (e : list (key * pyval)) : (forall y, ~ In y (dkeys (fields_of E0 c)) -> dget y e = None) ->
    forall y, In y (dkeys e) -> In y (dkeys (fields_of E0 c)).
  Proof.
    intros H y Hy. destruct (dget y (fields_of E0 c)) eqn:G; [apply dget_keys; congruence|]. apply dget_None_keys in G.
    apply H in G. apply dget_None_keys in G. contradiction.
  Qed.
  Lemma supplies_part b c d e : part (trim true) c d e -> supplies b c d e.
  Proof.
    intros (N1 & N2 & D1 & D2 & L1 & L2 & L3). pose proof (keys_in _ _ _ L2) as Hd. pose proof (keys_in _ _ _ L3) as He. split.
    - intros n f H. rewrite (supplied_name _ e n f (separate_kept c) H He), (supplied_name _ d n f (ad_separate _ _ X c) (ad_kept _ _ X _ _ _ H) Hd).
      destruct (L1 n f H); constructor. now apply trim_up.
    - intros _ y Hy. apply He in Hy. apply in_map_iff in Hy as ([n f] & <- & Hy). eapply acc_name. exact Hy.
  Qed.
  Lemma plain_kept c : plain_fields (fields_of E c).
  Proof. intros n f H. exact (ad_plain _ _ X c n f (ad_kept _ _ X _ _ _ H)). Qed.
  Lemma part_chain R c a b a' b' d e : part R c a a' -> part R c b b' ->
    (forall y, dget y d = match dget y a with Some v => Some v | None => dget y b end) ->
    (forall y, dget y e = match dget y a' with Some v => Some v | None => dget y b' end) ->
    NoDup (dkeys d) -> NoDup (dkeys e) -> part R c d e.
  Proof.
    intros (_ & _ & A1 & A2 & A3 & A4 & A5) (_ & _ & B1 & B2 & B3 & B4 & B5) Gd Ge Nd Ne.
    split; [exact Nd|]. split; [exact Ne|].
    split; [intros y; rewrite Gd; destruct (dget y a) eqn:Q; [rewrite <- Q; apply A1|apply B1]|].
    split; [intros y; rewrite Ge; destruct (dget y a') eqn:Q; [rewrite <- Q; apply A2|apply B2]|].
    split; [intros n f H; rewrite Gd, Ge; destruct (A3 n f H); [apply (B3 n f H)|now constructor]|].
    split.
    - intros y H. rewrite Gd, (A4 y H). now apply B4.
    - intros y H. rewrite Ge, (A5 y H). now apply B5.
  Qed.
  Lemma defined_trim c m n : trim_data c m n -> defined_data m /\ defined_data n.
  Proof.
    intros (U1 & U2 & (_ & _ & A1 & A2 & _) & (_ & _ & B1 & B2 & _)). split; intros y; unfold chain_get; rewrite ?U1, ?U2; cbn [dget].
    - destruct (dget y (md_converted m)) eqn:Q; [rewrite <- Q; apply A1|apply B1].
    - destruct (dget y (md_converted n)) eqn:Q; [rewrite <- Q; apply A2|apply B2].
  Qed.
  Lemma items_trim c m n : trim_data c m n -> part (trim true) c (model_items E2 c m) (model_items E c n).
  Proof.
    intros K. pose proof K as (U1 & U2 & LA & LB). destruct (ad_names _ _ X c) as [N1 N2].
    pose proof (model_items_get E2 c m) as G2. pose proof (model_items_get E c n) as G1.
    apply (part_chain _ c (md_converted m) (md_valid m) (md_converted n) (md_valid n)); try assumption.
    - intros y. rewrite (G2 y N2 (ad_plain _ _ X c)), chain_kin by assumption. destruct (dmem y _) eqn:M; [reflexivity|]. apply dmem_nIn in M.
      destruct LA as (_ & _ & _ & _ & _ & LA & _). destruct LB as (_ & _ & _ & _ & _ & LB & _). now rewrite (LA y M), (LB y M).
    - intros y. rewrite (G1 y N1 (plain_kept c)), chain_kin by assumption. destruct (dmem y _) eqn:M; [reflexivity|]. apply dmem_nIn in M.
      destruct LA as (_ & _ & _ & _ & _ & _ & LA). destruct LB as (_ & _ & _ & _ & _ & _ & LB). now rewrite (LA y M), (LB y M).
    - now apply model_items_NoDup.
    - now apply model_items_NoDup.
  Qed.

  (** ** Model level validators *)
  Lemma objects_len c m n data data2 : trim_data c m n -> part (trim true) c data data2 ->
    (forall x f e, In (x, f) (fields_of E2 c) -> ~ objects (mc_validators (e_class E2 c)) (VModel c m) data x e) ->
    forall x f e, In (x, f) (fields_of E c) -> ~ objects (mc_validators (e_class E c)) (VModel c n) data2 x e.
  Proof.
    intros K L H x f e Hi (v & vf & G & Nu & Gv & R). destruct (ad_checks _ _ X c) as (_ & _ & C1).
    destruct (C1 x f Hi) as [Q T]. pose proof Gv as Gv2. rewrite <- Q in Gv2. pose proof L as (_ & _ & D1 & _ & L1 & _). pose proof (L1 x f Hi) as B. rewrite G in B.
    inversion B as [|u w Kv Eu Ew]; subst. specialize (T vf Gv m n data data2 u v K L Kv).
    destruct (snd (vf (VModel c m) data u)) as [e'|] eqn:S; [|rewrite (T eq_refl) in R; discriminate].
    apply (H x f e' (ad_kept _ _ X _ _ _ Hi)). exists u, vf. repeat split; auto. intros ->. now apply (D1 x).
  Qed.

  Lemma tidy_kept : tidy_env E.
  Proof. constructor; intros c; [apply (ad_names _ _ X c)|apply plain_kept|apply (ad_checks _ _ X c)]. Qed.
  Lemma tidy_later : tidy_env E2.
  Proof. constructor; intros c; [apply (ad_names _ _ X c)|apply (ad_plain _ _ X)|apply (ad_checks _ _ X c)]. Qed.
  Lemma part_nil R c : part R c [] [].
  Proof.
    split; [constructor|]. split; [constructor|]. split; [intros y; discriminate|]. split; [intros y; discriminate|].
    split; [intros n f _; constructor|]. split; reflexivity.
  Qed.

  (** ** All types *)
  Section Step.
    Context (x : ictx) (Px : plain_ctx x).
    Definition passes (g2 g : fspec -> pyval -> ictx -> res pyval) : Prop := forall f v w u,
      lenient_field f -> trim (cx_strict x) f v w -> g2 f v x = Ok u -> exists u', g f w x = Ok u' /\ trim true f u u'.
    Record len (r2 r : conv) : Prop := {
      l_field : passes (cv_field r2) (cv_field r);
      l_convert : passes (cv_convert r2) (cv_convert r);
      l_validate : passes (cv_validate r2) (cv_validate r);
      l_cleaf : leaf_goes x (cv_convert r2) (cv_convert r);
      l_vleaf : leaf_goes x (cv_validate r2) (cv_validate r) }.

    Section Under.
      Context (r2 r : conv) (T : len r2 r).
      Lemma new_len c v w d e u : (if truthy v then py_dict E2 v else Ok []) = Ok d -> (if truthy w then py_dict E w else Ok []) = Ok e ->
        defined_dict d -> defined_dict e -> supplies (cx_strict x) c d e ->
        model_new E2 (cv_field r2) (cv_pre r2) c v x = Ok u ->
        exists data data2, u = VModel c (MD [] data [] None) /\
          model_new E (cv_field r) (cv_pre r) c w x = Ok (VModel c (MD [] data2 [] None)) /\ part (trim true) c data data2.
      Proof.
        intros Hv Hw Dd De F H. apply (new_inv E2 tidy_later _ _ x Px c v d Hv) in H as (data & R & -> & Fi).
        destruct (loop_len (cv_field r) (cv_field r2) (cv_pre r) (cv_pre r2) x Px (l_field _ _ T) c (VModel c md_empty) (VModel c md_empty)
          (new_alias w) (new_alias v) d d e e data (new_eff E2 tidy_later x c d) (new_eff E tidy_kept x c e) Dd De F R) as (data2 & R2 & L).
        exists data, data2. split; [reflexivity|]. split; [|exact L].
        apply (new_make E tidy_kept _ _ x Px c w e Hw data2 R2). intros V. apply vm_ok; [|apply (ti_readonly E tidy_kept)].
        pose proof L as (N1 & _). apply Fi in V. apply (vm_inv E2 c _ _ tidy_later N1) in V as [_ V].
        eapply (objects_len c md_empty md_empty data data2); [|exact L|exact V].
        split; [reflexivity|]. split; [reflexivity|]. split; apply part_nil.
      Qed.

      Lemma sent_defined b v : sent b v -> v <> VUndef.
      Proof. intros H ->. inversion H as [? P| | |]; destruct P. Qed.
      Lemma sent_entries b d : sent b (VDict d) -> forall y v, In (y, v) d -> sent b v.
      Proof. intros H y v Hy. inversion H as [? P| | |? K]; subst; [destruct P|now apply (K y v)]. Qed.
      Lemma sent_dict_defined b d : sent b (VDict d) -> defined_dict d.
      Proof. intros H y Hy. apply dget_In in Hy. exact (sent_defined b VUndef (sent_entries b d H y VUndef Hy) eq_refl). Qed.
      Lemma new_sent c d u : sent (cx_strict x) (VDict d) -> model_new E2 (cv_field r2) (cv_pre r2) c (VDict d) x = Ok u ->
        exists data data2, u = VModel c (MD [] data [] None) /\
          model_new E (cv_field r) (cv_pre r) c (VDict d) x = Ok (VModel c (MD [] data2 [] None)) /\ part (trim true) c data data2.
      Proof.
        intros G H. pose proof (sent_dict_defined _ _ G) as D.
        apply (new_len c (VDict d) (VDict d) d d u); try apply dict_read; try assumption. apply supplies_sent; [exact G|].
        intros S y Hy. apply (new_inv E2 tidy_later _ _ x Px c (VDict d) d (dict_read _ _)) in H as (data & R & _).
        apply all_input_keys_acceptable.
        destruct (kmem y (all_input_keys (fields_of E2 c) no_mapping)) eqn:A; [now apply kmem_In|]. apply kmem_nIn in A. rewrite all_input_keys_acceptable in A. exfalso.
        pose proof (success_no_errors E2 (cv_field r2) (cv_pre r2) x (fields_of E2 c) (VModel c md_empty) _ d d [] (new_eff E2 tidy_later x c d) D
          (ti_nodup E2 tidy_later c) (trusted_plain E2 x Px) data y R) as NE.
        apply NE. left. destruct Px as (_ & M & _). split; [exact S|]. split; [exact Hy|]. now rewrite M.
      Qed.
      Lemma new_trimmed c m n u : trim_data c m n -> model_new E2 (cv_field r2) (cv_pre r2) c (VModel c m) x = Ok u ->
        exists data data2, u = VModel c (MD [] data [] None) /\
          model_new E (cv_field r) (cv_pre r) c (VModel c n) x = Ok (VModel c (MD [] data2 [] None)) /\ part (trim true) c data data2.
      Proof.
        intros K H. destruct (defined_trim c m n K) as [D1 D2]. pose proof (items_trim c m n K) as L. pose proof L as (_ & _ & I1 & I2 & _).
        apply (new_len c (VModel c m) (VModel c n) (model_items E2 c m) (model_items E c n) u); try assumption.
        - apply items_read; [exact tidy_later|exact D1].
        - apply items_read; [exact tidy_kept|exact D2].
        - now apply supplies_part.
      Qed.

      Lemma convert_len : passes (convert_step E2 r2) (convert_step E r).
      Proof.
        intros f v w u Tf K. unfold convert_step. destruct Tf as [o l TO|o ms TO Ms|o c TO|o g TO Tg|o g ck TO Tg]; cbn [fs_type].
        - apply trim_leaf_eq in K as <-. intros H. exists u. split; [exact H|apply tr_leaf].
        - apply trim_union_eq in K as <-. intros H.
          assert (U : forall p, union_resolve (fun m u => cv_convert r2 m u x) ms v = Ok p -> union_resolve (fun m u => cv_convert r m u x) ms v = Ok p).
          { clear H TO. induction ms as [|m ms IH]; cbn; [discriminate|]. intros p. destruct (Ms m (or_introl eq_refl)) as (o' & l & ->).
            destruct (l_cleaf _ _ T o' l v) as [-> | ->]; [discriminate|].
            destruct (cv_convert r2 _ v x) as [a|[]]; auto; try discriminate. apply IH. intros; apply Ms; now right. }
          destruct (union_resolve _ ms v) as [p|] eqn:R; [|discriminate]. rewrite (U p eq_refl). destruct p as [m a]. cbn in *. injection H as <-.
          exists a. split; [reflexivity|apply tr_union].
        - unfold model_convert. destruct Px as (_ & _ & Hc & Ho). rewrite Hc, Ho. cbn [andb]. intros H.
          inversion K as [f0 v0 G| | | | | |o0 c0 b m n U1 U2 L1 L2]; subst; try discriminate.
          + destruct w; try discriminate; [|inversion G as [? P| | |]; destruct P].
            apply new_sent in H as (data & data2 & -> & -> & L); [|exact G]. eexists. split; [reflexivity|].
            apply tr_model; try reflexivity; [exact L|apply part_nil].
          + rewrite (ad_classes _ _ X) in H. destruct (e_issub E b c); [|discriminate].
            apply (new_trimmed b m n) in H as (data & data2 & -> & -> & L); [|exact (conj U1 (conj U2 (conj L1 L2)))]. eexists. split; [reflexivity|].
            apply tr_model; try reflexivity; [exact L|apply part_nil].
        - intros H. apply list_convert_ok in H as (l & ws & El & -> & C).
          assert (exists l2, list_elems E w = Some l2 /\ Forall2 (trim (cx_strict x) g) l l2) as (l2 & El2 & F).
          { inversion K as [f0 v0 G| | | |o0 g0 l0 m0 F| |]; subst; try discriminate; [|injection El as ->; cbn; eauto].
            destruct w; try discriminate; cbn in El |- *; injection El as <-; eexists; (split; [reflexivity|]).
            - clear. induction s as [|a s IH]; constructor; auto. apply tr_sent, st_atom. exact I.
            - inversion G as [? P|? P| |]; [destruct P|]. subst. clear -P. induction P; constructor; auto. now apply tr_sent.
            - inversion G as [? P| |? P|]; [destruct P|]. subst. clear -P. induction P; constructor; auto. now apply tr_sent.
            - inversion G as [? P| | |]; destruct P. }
          assert (exists ws2, all_convert (cv_field r) g x l2 ws2 /\ Forall2 (trim true g) ws ws2) as (ws2 & C2 & F2).
          { clear El El2 K TO. revert ws C. induction F as [|a b l l2 Kab F IH]; intros ws C; inversion C as [|? ? ? ws0 C1 C2]; subst.
            - exists []. split; constructor.
            - destruct (l_field _ _ T g a b _ Tg Kab C1) as (b' & B1 & B2). destruct (IH _ C2) as (ws2 & B3 & B4). exists (b' :: ws2). split; constructor; assumption. }
          exists (VList ws2). split; [apply list_convert_ok; eauto|now apply tr_list].
        - intros H. apply dict_convert_ok in H as (d & ps & -> & -> & C).
          assert (exists e, w = VDict e /\ Forall2 (fun p q => fst p = fst q /\ trim (cx_strict x) g (snd p) (snd q)) d e) as (e & -> & F).
          { inversion K as [f0 v0 G| | | | |o0 g0 ck0 d0 e0 F|]; subst; [|eauto]. exists d. split; [reflexivity|].
            pose proof (sent_entries _ _ G) as Ge. clear -Ge. induction d as [|[y v] d IH]; constructor; [split; [reflexivity|]|].
            - apply tr_sent. apply (Ge y). now left.
            - apply IH. intros y' v' Hy. apply (Ge y'). now right. }
          assert (exists qs, Forall2 (entry_converts (cv_field r) g ck x) e qs /\ Forall2 (fun p q => fst p = fst q /\ trim true g (snd p) (snd q)) ps qs) as (qs & C2 & F2).
          { clear K TO. revert ps C. induction F as [|a b d e [Ka Kb] F IH]; intros ps C; inversion C as [|? ? ? ps0 [C1 C1'] C2]; subst.
            - exists []. split; constructor.
            - destruct (l_field _ _ T g _ _ _ Tg Kb C1) as (b' & B1 & B2). destruct (IH _ C2) as (qs & B3 & B4).
              exists ((fst y, b') :: qs). split; constructor; try assumption; split; cbn; try assumption; try reflexivity. now rewrite <- Ka. }
          exists (VDict (dupdate [] qs)). split; [apply dict_convert_ok; eauto|]. apply tr_dict.
          assert (Z : forall a b, Forall2 (fun p q : key * pyval => fst p = fst q /\ trim true g (snd p) (snd q)) a b ->
            Forall2 (fun p q => fst p = fst q /\ trim true g (snd p) (snd q)) (dupdate a ps) (dupdate b qs)).
          { clear C C2 K. induction F2 as [|p q ps qs [P1 P2] F2 IH]; intros a b Hab; [exact Hab|].
            destruct p as [y v], q as [y' v']. cbn in P1, P2. subst y'. cbn [dupdate fold_left fst snd]. apply IH.
            clear -Hab P2. induction Hab as [|[y1 v1] [y2 v2] a b [Q1 Q2] Hab IH]; cbn [dset]; [now repeat constructor|].
            cbn in Q1, Q2. subst y2. destruct (key_eqb y y1); constructor; auto. }
          apply Z. constructor.
      Qed.
      Lemma validators_len f u u' : lenient_opts E E2 f -> trim true f u u' -> validators_result (fo_validators (fs_opts f)) u = Ok u ->
        validators_result (fo_validators (fs_opts f)) u' = Ok u'.
      Proof.
        intros [TV _] K H. apply validators_success in H as [_ H]. apply validators_success. split; [reflexivity|].
        intros g Hg. rewrite Forall_forall in TV. exact (TV g Hg u u' K (H g Hg)).
      Qed.
      Lemma validate_len : passes (validate_step r2) (validate_step r).
      Proof.
        intros f v w u Tf K. unfold validate_step. destruct Px as (_ & _ & Hc & _). rewrite Hc.
        assert (G : rbind (cv_convert r2 f v x) (validators_result (fo_validators (fs_opts f))) = Ok u ->
          exists u', rbind (cv_convert r f w x) (validators_result (fo_validators (fs_opts f))) = Ok u' /\ trim true f u u').
        { destruct (cv_convert r2 f v x) as [a|] eqn:C; cbn [rbind]; [|discriminate]. intros H.
          destruct (l_convert _ _ T f v w a Tf K C) as (a' & -> & Ka). pose proof H as H'. apply validators_success in H' as [-> _].
          exists a'. split; [|exact Ka]. cbn [rbind]. apply (validators_len f a a'); [now apply lenient_opts_of|exact Ka|exact H]. }
        destruct f as [o [l|ms|c|p|g|g ck]]; cbn [fs_type] in *; try exact G.
        clear G. apply trim_union_eq in K as <-. intros H.
        assert (Ms : forall m, In m ms -> exists o' l, m = FS o' (TLeaf l)) by (inversion Tf; assumption).
        assert (U : forall p, union_resolve (fun m u => cv_convert r2 m u x) ms v = Ok p ->
          union_resolve (fun m u => cv_convert r m u x) ms v = Ok p /\ In (fst p) ms).
        { clear H Tf. induction ms as [|m ms IH]; cbn; [discriminate|]. intros p. destruct (Ms m (or_introl eq_refl)) as (o' & l & ->).
          destruct (l_cleaf _ _ T o' l v) as [-> | ->]; [discriminate|].
          destruct (cv_convert r2 _ v x) as [a|[]]; try discriminate; [intros [= <-]; cbn; auto|].
          intros R. apply IH in R as [R1 R2]; [auto|]. intros; apply Ms; now right. }
        destruct (union_resolve _ ms v) as [p|] eqn:R; [|discriminate]. destruct (U p eq_refl) as [-> I]. destruct p as [m a]. cbn in *.
        destruct (Ms m I) as (o' & l & ->). destruct (l_vleaf _ _ T o' l v) as [Q|Q]; rewrite Q in *; [discriminate|].
        exists u. split; [exact H|apply tr_union].
      Qed.
      Lemma field_len : passes (field_step r2) (field_step r).
      Proof.
        intros f v w u Tf K. unfold field_step. rewrite <- (trim_nil _ _ _ _ K).
        assert (check_required f w x = check_required f v x) as -> by (unfold check_required; now rewrite (trim_nil _ _ _ _ K)).
        destruct (check_required f v x); [discriminate|]. destruct (is_nil v) eqn:Nv.
        - intros [= <-]. exists w. split; [reflexivity|]. pose proof (trim_nil _ _ _ _ K) as Nw. rewrite Nv in Nw.
          pose proof (trim_undef_iff _ _ _ _ K) as Un.
          destruct v; try discriminate Nv; destruct w; try discriminate; [apply trim_none|apply tr_undef].
        - destruct (cx_validate x); [now apply (l_validate _ _ T)|now apply (l_convert _ _ T)].
      Qed.
    End Under.

    Lemma len_at n : len (conv_at E2 n) (conv_at E n).
    Proof.
      induction n as [|n IH].
      - constructor; try (intros f v w u _ _ H; discriminate H); intros o l v; now left.
      - constructor.
        + exact (field_len _ _ IH).
        + exact (convert_len _ _ IH).
        + exact (validate_len _ _ IH).
        + intros o l v. right. reflexivity.
        + intros o l v. cbn [conv_at conv_step cv_validate]. unfold validate_step. cbn [fs_type is_compound].
          destruct (l_cleaf _ _ IH o l v) as [Q|Q]; cbn [conv_at] in *; rewrite Q; [|now right]. destruct Px as (_ & _ & Hc & _). rewrite Hc. now left.
    Qed.
  End Step.

  (** ** Model(...) and validate() *)
  Lemma trim_vbase c m n : trim_data c m n -> trim_data c (vbase m) (vbase n).
  Proof. intros (U1 & U2 & A & B). split; [reflexivity|]. split; [reflexivity|]. split; assumption. Qed.
  Lemma vinput_trim c m n : trim_data c m n -> part (trim true) c (vinput E2 c m) (vinput E c n).
  Proof.
    intros K. pose proof K as (U1 & U2 & A & B). pose proof (items_trim _ _ _ (trim_vbase _ _ _ K)) as I.
    pose proof A as (A1 & A2 & _). pose proof I as (I1 & I2 & _). unfold vinput. rewrite U1, U2.
    refine (part_chain _ c _ _ _ _ _ _ I A _ _ _ _).
    - intros y. rewrite dget_dupdate by assumption. now rewrite dupdate_nil_l.
    - intros y. rewrite dget_dupdate by assumption. now rewrite dupdate_nil_l.
    - apply NoDup_dupdate. rewrite dupdate_nil_l; assumption.
    - apply NoDup_dupdate. rewrite dupdate_nil_l; assumption.
  Qed.
  Lemma trim_layers c m n : trim_data c m n -> defined_layers m /\ defined_layers n /\ NoDup (dkeys (md_converted m)) /\ NoDup (dkeys (md_converted n)).
  Proof.
    intros (U1 & U2 & (A1 & A2 & A3 & A4 & _) & (B1 & B2 & B3 & B4 & _)). unfold defined_layers. rewrite U1, U2.
    repeat split; try assumption; intros y; discriminate.
  Qed.
  Lemma trim_nonempty c m n : trim_data c m n -> md_converted n <> [] -> md_converted m <> [].
  Proof.
    intros (_ & _ & A & _) N Q. destruct (md_converted n) as [|[y v] d] eqn:Qn; [congruence|].
    destruct A as (_ & _ & _ & _ & A & _ & L3). pose proof (keys_in _ _ _ L3 y (or_introl eq_refl)) as Hy. apply in_map_iff in Hy as ([n0 f] & <- & Hy). cbn [fst] in *.
    specialize (A n0 f Hy). rewrite Q in A. cbn [dget] in A. rewrite key_eqb_refl in A. inversion A.
  Qed.

  Lemma validate_lenient j c m n w m1 : ordinary w -> trim_data c m n ->
    model_validate E2 (conv_at E2 j) c m w = (m1, None) ->
    exists n1, model_validate E (conv_at E j) c n w = (n1, None) /\
      (md_converted n <> [] \/ md_converted m = [] \/ kw_partial w = false -> trim_data c m1 n1).
  Proof.
    intros [Wm Wc] K H. assert (D : (md_converted n <> [] \/ kw_partial w = false) \/ (md_converted n = [] /\ kw_partial w = true)).
    { destruct (kw_partial w); [|auto]. destruct (md_converted n) as [|p l]; [|left; left; discriminate]. right. auto. }
    destruct D as [Hrun|(Q1 & Q2)].
    2:{ exists n. split; [unfold model_validate; now rewrite Q1, Q2|]. intros [Z|[Z|Z]]; [congruence| |congruence].
        unfold model_validate in H. rewrite Z, Q2 in H. injection H as <-. exact K. }
    assert (Hrun2 : md_converted m <> [] \/ kw_partial w = false).
    { destruct Hrun as [Hr|Hr]; [left; now apply (trim_nonempty c m n)|now right]. }
    destruct (trim_layers c m n K) as (D1 & D2 & N1 & N2). pose proof K as (U1 & U2 & LA & LB).
    pose proof (ti_nodup E2 tidy_later c) as F1. pose proof (ti_nodup E tidy_kept c) as F2.
    pose proof (ti_plain E2 tidy_later c) as P1. pose proof (ti_plain E tidy_kept c) as P2.
    pose proof (ti_readonly E2 tidy_later c) as O1. pose proof (ti_readonly E tidy_kept c) as O2.
    apply (validate_ok E2 _ c m w F1 P1 D1 N1 Hrun2 O1) in H as (data & -> & L & Ob).
    assert (Vx : vctx n w = vctx m w) by (unfold vctx, vkw; now rewrite U1, U2).
    assert (Px : plain_ctx (vctx m w)).
    { unfold vctx, vkw, call_ctx, plain_ctx. rewrite U1, Wm, Wc. cbn. auto. }
    pose proof (vinput_trim c m n K) as V.
    destruct (loop_len (cv_field (conv_at E j)) (cv_field (conv_at E2 j)) (cv_pre (conv_at E j)) (cv_pre (conv_at E2 j)) (vctx m w) Px
      (l_field _ _ _ (len_at _ Px j)) c (VModel c (vbase n)) (VModel c (vbase m))
      (match md_unsafe n with [] => AliasConverted | _ => NoAlias end) (match md_unsafe m with [] => AliasConverted | _ => NoAlias end)
      (dupdate (md_unsafe m) (md_converted m)) (vinput E2 c m) (dupdate (md_unsafe n) (md_converted n)) (vinput E c n) data
      (veff E2 c m w F1 P1 D1)) as (data2 & L2 & Ly).
    { rewrite <- Vx. exact (veff E c n w F2 P2 D2). }
    { apply V. }
    { apply V. }
    { now apply supplies_part. }
    { exact L. }
    exists (MD [] [] data2 (hidden_after n)). split.
    - rewrite (validate_eq E _ c n w F2 P2 D2 N2 Hrun). unfold vres. rewrite <- Vx in L2. rewrite L2. unfold vfinish.
      rewrite vm_ok; [reflexivity| |exact O2].
      eapply (objects_len c); [|exact Ly|]. 2:{ unfold vmut in Ob. rewrite U1 in Ob. exact Ob. }
      rewrite U2. split; [reflexivity|]. split; [reflexivity|]. split; [exact V|exact LB].
    - intros _. split; [reflexivity|]. split; [reflexivity|]. split; [apply part_nil|exact Ly].
  Qed.

  Lemma init_len j c w data data2 m v2 d2 : ordinary w -> part (trim true) c data data2 ->
    (if kw_validate w then model_validate E2 (conv_at E2 j) c (MD [] data [] None) (KW no_mapping (kw_partial w) false (kw_init_values w) (kw_apply_defaults w) (kw_convert w) true (kw_recursive w)) = (m, None)
      else m = MD [] data [] None) ->
    (if truthy v2 then py_dict E v2 else Ok []) = Ok d2 ->
    model_new E (cv_field (conv_at E j)) (cv_pre (conv_at E j)) c v2 (kw_ctx w (VDict [])) = Ok (VModel c (MD [] data2 [] None)) ->
    exists m2, model_init E (conv_at E j) c v2 (VDict []) w = Ok m2 /\
      ((kw_validate w = true -> kw_partial w = true -> exists y u, chain_get m2 y = Some u) -> trim_data c m m2).
  Proof.
    intros Wo L H Hd2 H2. assert (K : trim_data c (MD [] data [] None) (MD [] data2 [] None)).
    { split; [reflexivity|]. split; [reflexivity|]. split; [exact L|apply part_nil]. }
    destruct (kw_validate w) eqn:V.
    - set (w' := KW _ _ _ _ _ _ _ _) in H.
      destruct (validate_lenient j c (MD [] data [] None) (MD [] data2 [] None) w' m) as (m2 & V2 & K2).
      + split; [reflexivity|exact (proj2 Wo)].
      + exact K.
      + exact H.
      + exists m2. split; [apply (init_new E tidy_kept _ c v2 w d2 Wo Hd2); exists data2; split; [exact H2|]; rewrite V; exact V2|].
        intros Ne. apply K2. cbn [md_converted w' kw_partial]. destruct (kw_partial w) eqn:P; [left|auto]. intros ->.
        unfold model_validate in V2. cbn [md_converted w' kw_partial] in V2. injection V2 as <-.
        destruct (Ne eq_refl eq_refl) as (y & u & G). discriminate.
    - subst m. exists (MD [] data2 [] None). split; [|auto]. apply (init_new E tidy_kept _ c v2 w d2 Wo Hd2). exists data2. split; [exact H2|]. now rewrite V.
  Qed.
  Lemma init_lenient j c d w m : ordinary w -> sent (kw_strict w) (VDict d) ->
    model_init E2 (conv_at E2 j) c (VDict d) (VDict []) w = Ok m ->
    exists m2, model_init E (conv_at E j) c (VDict d) (VDict []) w = Ok m2 /\
      ((kw_validate w = true -> kw_partial w = true -> exists y u, chain_get m2 y = Some u) -> trim_data c m m2).
  Proof.
    intros Wo G H. apply (init_new E2 tidy_later _ c _ w d Wo (dict_read E2 d)) in H as (data & H1 & H2).
    apply (new_sent _ (ordinary_ctx w Wo) _ _ (len_at _ (ordinary_ctx w Wo) j) c d) in H1 as (data1 & data2 & [= <-] & H3 & L); [|exact G].
    exact (init_len j c w data data2 m _ d Wo L H2 (dict_read E d) H3).
  Qed.
  Lemma copy_lenient j c p q w m : ordinary w -> trim_data c p q ->
    model_init E2 (conv_at E2 j) c (VModel c p) (VDict []) w = Ok m ->
    exists m2, model_init E (conv_at E j) c (VModel c q) (VDict []) w = Ok m2 /\
      ((kw_validate w = true -> kw_partial w = true -> exists y u, chain_get m2 y = Some u) -> trim_data c m m2).
  Proof.
    intros Wo K H. destruct (defined_trim c p q K) as [D1 D2].
    apply (init_new E2 tidy_later _ c _ w _ Wo (items_read E2 c p tidy_later D1)) in H as (data & H1 & H2).
    apply (new_trimmed _ (ordinary_ctx w Wo) _ _ (len_at _ (ordinary_ctx w Wo) j) c p q) in H1 as (data1 & data2 & [= <-] & H3 & L); [|exact K].
    exact (init_len j c w data data2 m _ _ Wo L H2 (items_read E c q tidy_kept D2) H3).
  Qed.

  Lemma trim_reads c m n y f : trim_data c m n -> In (y, f) (fields_of E c) -> both (trim true (fd_spec f)) (chain_get m y) (chain_get n y).
  Proof.
    intros (U1 & U2 & A & B) H. rewrite !chain_kin by assumption. destruct A as (_ & _ & _ & _ & A & _). destruct B as (_ & _ & _ & _ & B & _).
    destruct (A y f H); [apply (B y f H)|now constructor].
  Qed.
  Lemma trim_reads_same c m n y f : trim_data c m n -> In (y, f) (fields_of E c) ->
    match fs_type (fd_spec f) with TLeaf _ | TUnion _ => chain_get n y = chain_get m y | _ => True end.
  Proof.
    intros K H. pose proof (trim_reads c m n y f K H) as R. destruct (fd_spec f) as [o [l|ms|c'|p|g|g ck]]; cbn [fs_type]; try exact I.
    - destruct R as [|a b R]; [reflexivity|]. now apply trim_leaf_eq in R as <-.
    - destruct R as [|a b R]; [reflexivity|]. now apply trim_union_eq in R as <-.
  Qed.
  Lemma trim_other c m n y : trim_data c m n -> ~ In y (dkeys (fields_of E c)) -> chain_get n y = None.
  Proof.
    intros (U1 & U2 & A & B) H. rewrite chain_kin by assumption. destruct A as (_ & _ & _ & _ & _ & _ & A). destruct B as (_ & _ & _ & _ & _ & _ & B).
    rewrite (A y H). exact (B y H).
  Qed.
End Forward.
