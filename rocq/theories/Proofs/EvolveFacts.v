(** What an earlier version of a program accepts, a later version with further optional fields accepts as well. *)
From Coq Require Import Lia.
From Verif.Model Require Import Py Core Export Api.
From Verif.Spec Require Import CallSpec ImportSpec ValidateSpec PrimitiveSpec OrderSpec EvolveSpec CompoundSpec.
From Verif.Proofs Require Import DictLemmas ImportLemmas ApiLemmas ImportApi ValidateLemmas CompoundLemmas Idem.

Lemma F2_map {A B} (R S : A -> B -> Prop) (h : forall a b, R a b -> S a b) l m : Forall2 R l m -> Forall2 S l m.
Proof. induction 1; constructor; auto. Defined.
Lemma F_map {A} (R S : A -> Prop) (h : forall a, R a -> S a) l : Forall R l -> Forall S l.
Proof. induction 1; constructor; auto. Defined.

Lemma field_ctx_plain E x n f : plain_ctx x -> field_ctx E x n f = x.
Proof.
  intros (T & M & C & O). unfold field_ctx. destruct (is_compound f); [|reflexivity].
  unfold branch, nested_td, nested_map. rewrite T, M. cbn. destruct x; cbn in *; subst; reflexivity.
Qed.
Lemma trusted_plain E x : plain_ctx x -> trusted_dict E x [].
Proof. intros (T & _). unfold trusted_dict. now rewrite T. Qed.

Section Evolve.
  Context (E E2 : env) (X : extends E E2).
  Local Notation new_field := (new_field E E2).
  Local Notation given := (given E E2).
  Local Notation layer := (layer E E2).
  Local Notation kin := (kin E E2).
  Local Notation kin_data := (kin_data E E2).
  Local Notation tolerant_field := (tolerant_field E E2).

  Lemma given_up b v : given false v -> given b v.
  Proof.
    revert v. fix IH 2. intros v [u P|l H|l H|d H].
    - now apply gv_atom.
    - apply gv_list. exact (F_map _ _ IH _ H).
    - apply gv_tuple. exact (F_map _ _ IH _ H).
    - apply gv_dict. intros y u Hy. destruct (H y u Hy) as [G N]. split; [exact (IH u G)|]. destruct N as [N|N]; [discriminate|right; exact N].
  Qed.
  Lemma kin_up b f v w : kin false f v w -> kin b f v w.
  Proof.
    revert f v w. fix IH 4. intros f v w [g u H|g|o l u|o ms u|o g l m H|o g ck d e H|o c b' m n U1 U2 L1 L2].
    - apply kin_given. now apply given_up.
    - apply kin_undef.
    - apply kin_leaf.
    - apply kin_union.
    - apply kin_list. exact (F2_map _ _ (IH g) _ _ H).
    - apply kin_dict. refine (F2_map _ _ _ _ _ H). intros p q [A B]. exact (conj A (IH g _ _ B)).
    - now apply kin_model.
  Qed.
  Lemma kin_none b f : kin b f VNone VNone.
  Proof. apply kin_given, gv_atom. exact I. Qed.
  Lemma kin_nil b f v w : kin b f v w -> is_nil v = is_nil w.
  Proof. intros H. inversion H; subst; reflexivity. Qed.
  Lemma kin_undef_iff b f v w : kin b f v w -> is_undef v = is_undef w.
  Proof. intros H. inversion H; subst; reflexivity. Qed.
  Lemma kin_leaf_eq b o l v w : kin b (FS o (TLeaf l)) v w -> v = w.
  Proof. intros H. inversion H; subst; reflexivity. Qed.
  Lemma kin_union_eq b o ms v w : kin b (FS o (TUnion ms)) v w -> v = w.
  Proof. intros H. inversion H; subst; reflexivity. Qed.

  Lemma takes_defined f v : takes_as_is f v -> is_undef v = false.
  Proof. intros [->|[N _]]; [reflexivity|]. now destruct v. Qed.

  (** ** One run of the loop *)
  Definition feeds (b : bool) (c : cid) (d e : list (key * pyval)) : Prop :=
    (forall n f, In (n, f) (fields_of E c) ->
       both (kin b (fd_spec f)) (supplied d n (fd_spec f) no_mapping) (supplied e n (fd_spec f) no_mapping)) /\
    (forall n f, new_field c n f -> supplied e n (fd_spec f) no_mapping = None \/
       exists w, supplied e n (fd_spec f) no_mapping = Some w /\ takes_as_is (fd_spec f) w) /\
    (b = true -> forall y, In y (dkeys e) -> acceptable (fields_of E2 c) no_mapping y).

  Lemma field_cases c n f : In (n, f) (fields_of E2 c) -> In (n, f) (fields_of E c) \/ new_field c n f.
  Proof.
    intros H. destruct (dget n (fields_of E c)) as [g|] eqn:G.
    - left. apply dget_In in G. pose proof (ex_kept _ _ X _ _ _ G) as K.
      destruct (ex_names _ _ X c) as [_ N2]. apply (In_dget _ _ _ N2) in K, H. congruence.
    - right. split; [exact H|]. now apply dget_None_keys.
  Qed.

  Section Loop.
    Context (fc fc2 : fspec -> pyval -> ictx -> res pyval) (pre pre2 : fspec -> pyval -> res pyval) (x : ictx).
    Hypothesis Px : plain_ctx x.
    Hypothesis Hfc : forall f v w u, tolerant_field f -> kin (cx_strict x) f v w -> fc f v x = Ok u ->
      exists u', fc2 f w x = Ok u' /\ kin false f u u'.
    Hypothesis Hnew : forall f v, fo_required (fs_opts f) = false -> v = VUndef \/ takes_as_is f v -> fc2 f v x = Ok v.

    Lemma candidate_kin f s t : tolerant_opts E E2 f -> both (kin (cx_strict x) f) s t ->
      kin (cx_strict x) f (candidate x f s) (candidate x f t).
    Proof.
      intros [_ D] [|v w K]; cbn; [|exact K].
      assert (N : kin (cx_strict x) f (if cx_init_values x then VNone else VUndef) (if cx_init_values x then VNone else VUndef)).
      { destruct (cx_init_values x); [apply kin_none|apply kin_undef]. }
      destruct (cx_apply_defaults x); [|exact N]. destruct D as [->|D]; [exact N|].
      destruct (fo_default (fs_opts f)) eqn:F; try exact N; apply kin_up; exact D.
    Qed.
    Lemma tolerant_opts_of f : tolerant_field f -> tolerant_opts E E2 f.
    Proof. intros H; inversion H; assumption. Qed.

    Lemma outcome_plain E0 g d n f : field_outcome E0 g x d [] n f =
      match g f (candidate x f (supplied d n f no_mapping)) x with Ok VUndef => Keep | Ok w => Store w | Raise e => Fail e end.
    Proof.
      unfold field_outcome. rewrite field_ctx_plain by assumption. destruct Px as (_ & -> & _).
      destruct (supplied d n f no_mapping); reflexivity.
    Qed.
    Lemma old_outcome c n f d e : In (n, f) (fields_of E c) -> feeds (cx_strict x) c d e ->
      (forall er, field_outcome E fc x d [] n (fd_spec f) <> Fail er) ->
      (field_outcome E fc x d [] n (fd_spec f) = Keep /\ field_outcome E2 fc2 x e [] n (fd_spec f) = Keep) \/
      exists v w, field_outcome E fc x d [] n (fd_spec f) = Store v /\ field_outcome E2 fc2 x e [] n (fd_spec f) = Store w /\
        is_undef v = false /\ kin false (fd_spec f) v w.
    Proof.
      intros Hi (F1 & _ & _) Nf. rewrite !outcome_plain in *.
      pose proof (ex_fields _ _ X c n f Hi) as T. pose proof (tolerant_opts_of _ T) as TO.
      pose proof (candidate_kin _ _ _ TO (F1 n f Hi)) as K.
      destruct (fc (fd_spec f) _ x) as [u|er] eqn:R; [|now destruct (Nf er)].
      destruct (Hfc _ _ _ _ T K R) as (u' & R' & Ku). rewrite R'. pose proof (kin_undef_iff _ _ _ _ Ku) as Un.
      destruct (is_undef u) eqn:Uu.
      - left. destruct u; try discriminate. destruct u'; try discriminate. auto.
      - right. exists u, u'. destruct u; try discriminate; destruct u'; try discriminate; auto.
    Qed.
    Lemma new_outcome c n f d e : new_field c n f -> feeds (cx_strict x) c d e ->
      field_outcome E2 fc2 x e [] n (fd_spec f) = Keep \/
      exists w, field_outcome E2 fc2 x e [] n (fd_spec f) = Store w /\ takes_as_is (fd_spec f) w.
    Proof.
      intros Hn (_ & F2 & _). rewrite outcome_plain. destruct (ex_new _ _ X c n f Hn) as [Rq D].
      assert (G : forall v, v = VUndef \/ takes_as_is (fd_spec f) v ->
        match fc2 (fd_spec f) v x with Ok VUndef => Keep | Ok w => Store w | Raise er => Fail er end = Keep \/
        exists w, match fc2 (fd_spec f) v x with Ok VUndef => Keep | Ok w => Store w | Raise er => Fail er end = Store w /\ takes_as_is (fd_spec f) w).
      { intros v Hv. rewrite (Hnew _ v Rq Hv). destruct Hv as [->|Hv]; [left; reflexivity|right]. exists v. split; [|exact Hv].
        apply takes_defined in Hv. now destruct v. }
      destruct (F2 n f Hn) as [->|(w & -> & T)]; apply G; cbn [candidate]; [|right; exact T].
      assert (N : (if cx_init_values x then VNone else VUndef) = VUndef \/ takes_as_is (fd_spec f) (if cx_init_values x then VNone else VUndef)).
      { destruct (cx_init_values x); [right; left; reflexivity|left; reflexivity]. }
      destruct (cx_apply_defaults x); [|exact N]. destruct D as [->|D]; [exact N|].
      destruct (fo_default (fs_opts (fd_spec f))); try exact N; right; exact D.
    Qed.

    Lemma loop_tol c mut mut2 a a2 d d' e e' data :
      effective_input E x (fields_of E c) mut d d' -> effective_input E2 x (fields_of E2 c) mut2 e e' ->
      defined_dict d' -> defined_dict e' -> feeds (cx_strict x) c d' e' ->
      lo_res (import_loop E fc pre x (fields_of E c) mut a (VDict d)) = Ok data ->
      exists data2, lo_res (import_loop E2 fc2 pre2 x (fields_of E2 c) mut2 a2 (VDict e)) = Ok data2 /\ layer (kin false) c data data2.
    Proof.
      intros Ef1 Ef2 D1 D2 F R. destruct (ex_names _ _ X c) as [N1 N2].
      pose proof (trusted_plain E x Px) as T1. pose proof (trusted_plain E2 x Px) as T2.
      assert (PF1 : plain_fields (fields_of E c)) by (intros n f H; exact (ex_plain _ _ X c n f (ex_kept _ _ X _ _ _ H))).
      assert (H1 : forall n f, In (n, f) (fields_of E c) -> handled x f) by (intros n f H; right; unfold has_setter; now rewrite (proj2 (PF1 n f H))).
      assert (H2 : forall n f, In (n, f) (fields_of E2 c) -> handled x f) by (intros n f H; right; unfold has_setter; now rewrite (proj2 (ex_plain _ _ X c n f H))).
      pose proof (fun y => success_no_errors E fc pre x _ mut a d d' [] Ef1 D1 N1 T1 data y R) as NE.
      assert (Old : forall n f er, In (n, f) (fields_of E c) -> field_outcome E fc x d' [] n (fd_spec f) <> Fail er).
      { intros n f er H Hf. apply (NE (public_name n f)). right. exists n, f, er. repeat split; try assumption. now apply (H1 n). }
      assert (Fine : forall n f er, In (n, f) (fields_of E2 c) -> field_outcome E2 fc2 x e' [] n (fd_spec f) <> Fail er).
      { intros n f er H Hf. destruct (field_cases c n f H) as [Ho|Hn].
        - destruct (old_outcome c n f d' e' Ho F (fun er => Old n f er Ho)) as [[_ K]|(v & w & _ & K & _)]; congruence.
        - destruct (new_outcome c n f d' e' Hn F) as [K|(w & K & _)]; congruence. }
      destruct (no_errors_success E2 fc2 pre2 x _ mut2 a2 e e' [] Ef2 D2 N2 T2) as [data2 R2].
      { intros n f er H _ Hf. destruct (Fine n f er H Hf). }
      { intros y [[S [Ry Ra]]|(n & f & er & H & _ & Hf & _)]; [|exact (Fine n f er H Hf)].
        destruct Px as (_ & M & _). rewrite M in Ra. apply Ra. destruct F as (_ & _ & F). now apply F. }
      exists data2. split; [exact R2|].
      assert (G1 : forall n f, In (n, f) (fields_of E c) -> dget n data = value_after x (fd_spec f) (field_outcome E fc x d' [] n (fd_spec f)) None).
      { intros n f H. exact (data_field E fc pre x _ mut a d d' [] Ef1 D1 N1 T1 data [] n f (or_introl R) H (H1 n f H)). }
      assert (G2 : forall n f, In (n, f) (fields_of E2 c) -> dget n data2 = value_after x (fd_spec f) (field_outcome E2 fc2 x e' [] n (fd_spec f)) None).
      { intros n f H. exact (data_field E2 fc2 pre2 x _ mut2 a2 e e' [] Ef2 D2 N2 T2 data2 [] n f (or_introl R2) H (H2 n f H)). }
      assert (O1 : forall y, ~ In y (dkeys (fields_of E c)) -> dget y data = None).
      { intros y H. exact (data_other E fc pre x _ mut a d d' [] Ef1 D1 N1 T1 data [] y (or_introl R) H). }
      assert (O2 : forall y, ~ In y (dkeys (fields_of E2 c)) -> dget y data2 = None).
      { intros y H. exact (data_other E2 fc2 pre2 x _ mut2 a2 e e' [] Ef2 D2 N2 T2 data2 [] y (or_introl R2) H). }
      assert (Old2 : forall n f, In (n, f) (fields_of E c) -> (dget n data = None /\ dget n data2 = None) \/
        exists v w, dget n data = Some v /\ dget n data2 = Some w /\ is_undef v = false /\ kin false (fd_spec f) v w).
      { intros n f H. rewrite (G1 n f H), (G2 n f (ex_kept _ _ X _ _ _ H)).
        destruct (old_outcome c n f d' e' H F (fun er => Old n f er H)) as [[-> ->]|(v & w & -> & -> & U & K)]; cbn; [auto|right; eauto 6]. }
      assert (New2 : forall n f, new_field c n f -> forall v, dget n data2 = Some v -> takes_as_is (fd_spec f) v).
      { intros n f H v. rewrite (G2 n f (proj1 H)). destruct (new_outcome c n f d' e' H F) as [->|(w & -> & K)]; cbn; [discriminate|intros [= <-]; exact K]. }
      assert (DD : defined_dict data).
      { intros y Hy. destruct (dget y (fields_of E c)) as [f|] eqn:G.
        - apply dget_In in G. destruct (Old2 y f G) as [[A _]|(v & w & A & _ & U & _)]; [congruence|]. rewrite A in Hy. injection Hy as ->. discriminate.
        - apply dget_None_keys in G. rewrite (O1 y G) in Hy. discriminate. }
      split; [eapply result_NoDup; [exact Ef1|exact D1|exact N1|exact T1|constructor|exact (@or_introl _ (lo_res _ = Raise (XData [] data)) R)]|].
      split; [eapply result_NoDup; [exact Ef2|exact D2|exact N2|exact T2|constructor|exact (@or_introl _ (lo_res _ = Raise (XData [] data2)) R2)]|].
      split; [exact DD|]. split.
      { intros y Hy. destruct (dget y (fields_of E2 c)) as [f|] eqn:G.
        - apply dget_In in G. destruct (field_cases c y f G) as [Ho|Hn].
          + destruct (Old2 y f Ho) as [[_ A]|(v & w & _ & A & U & K)]; [congruence|]. rewrite A in Hy. injection Hy as ->.
            apply kin_undef_iff in K. rewrite U in K. discriminate.
          + apply (New2 y f Hn) in Hy. apply takes_defined in Hy. discriminate.
        - apply dget_None_keys in G. rewrite (O2 y G) in Hy. discriminate. }
      split.
      { intros n f H. destruct (Old2 n f H) as [[-> ->]|(v & w & -> & -> & _ & K)]; [constructor|now constructor]. }
      split.
      { intros n f H. split; [apply O1, H|exact (New2 n f H)]. }
      intros y H. split; [apply O1|now apply O2]. intros Hy. apply H. apply dget_keys in Hy.
      destruct (dget y (fields_of E c)) as [f|] eqn:G; [|congruence]. apply dget_In, (ex_kept _ _ X) in G.
      apply (in_map fst) in G. exact G.
    Qed.
  End Loop.

  (** ** Reading dictionaries and instances *)
  Lemma both_refl {A} (R : A -> A -> Prop) o : (forall a, o = Some a -> R a a) -> both R o o.
  Proof. destruct o; constructor; auto. Qed.
  Lemma supplied_In d n f v : supplied d n f no_mapping = Some v -> exists y, In y (accepted_names n f no_mapping) /\ In (y, v) d.
  Proof.
    unfold supplied. destruct (find _ _) as [y|] eqn:F; [|discriminate]. intros H. apply find_some in F as [F _].
    exists y. split; [exact F|]. now apply dget_In.
  Qed.
  Lemma acceptable_up c y : acceptable (fields_of E c) no_mapping y -> acceptable (fields_of E2 c) no_mapping y.
  Proof.
    intros [n f H|n f s H A B|n f s H A|n l s []].
    - eapply acc_name, (ex_kept _ _ X); eassumption.
    - eapply acc_sname; [eapply (ex_kept _ _ X)|..]; eassumption.
    - eapply acc_from; [eapply (ex_kept _ _ X)|]; eassumption.
  Qed.
  Lemma feeds_given b c d : given b (VDict d) -> (b = true -> forall y, In y (dkeys d) -> acceptable (fields_of E c) no_mapping y) ->
    feeds b c d d.
  Proof.
    intros G S. assert (V : forall y v, In (y, v) d -> given b v /\ (b = true \/ ~ new_key E E2 y)).
    { inversion G as [? P| | |? H]; subst; [destruct P|exact H]. }
    split; [|split].
    - intros n f H. apply both_refl. intros v Hv. apply supplied_In in Hv as (y & _ & Hy). apply kin_given. now apply (V y).
    - intros n f H. left. destruct (supplied d n (fd_spec f) no_mapping) as [v|] eqn:Hv; [|reflexivity]. exfalso.
      apply supplied_In in Hv as (y & Ha & Hy). destruct (V y v Hy) as [_ [B|N]].
      + eapply (ex_fresh _ _ X); [exact H|exact Ha|]. apply (S B). apply (in_map fst) in Hy. exact Hy.
      + apply N. exists c, n, f. auto.
    - intros B y Hy. apply acceptable_up. now apply S.
  Qed.
  Lemma supplied_name fs d n f : separate_names fs no_mapping -> In (n, f) fs -> (forall y, In y (dkeys d) -> In y (dkeys fs)) ->
    supplied d n (fd_spec f) no_mapping = dget n d.
  Proof.
    intros S Hi Hd. unfold supplied. destruct (find _ _) as [y|] eqn:F.
    - apply find_some in F as [F M]. apply dmem_In, Hd in M. apply in_map_iff in M as ([y' f'] & <- & M). cbn [fst] in *.
      now rewrite (S n f y' f' Hi M F).
    - symmetry. apply dget_None_keys. intros K. apply dmem_In in K. unfold accepted_names in F. cbn [find] in F. rewrite K in F. discriminate.
  Qed.
  Lemma separate_old c : separate_names (fields_of E c) no_mapping.
  Proof. intros n f n' f' H H'. eapply (ex_separate _ _ X c); eapply (ex_kept _ _ X); eassumption. Qed.
  Lemma feeds_layer b c d e : layer (kin false) c d e -> (forall y, In y (dkeys d) -> In y (dkeys (fields_of E c))) -> feeds b c d e.
  Proof.
    intros (N1 & N2 & D1 & D2 & L1 & L2 & L3) Hd.
    assert (He : forall y, In y (dkeys e) -> In y (dkeys (fields_of E2 c))).
    { intros y Hy. destruct (dget y (fields_of E2 c)) eqn:G; [apply dget_keys; congruence|]. apply dget_None_keys in G.
      destruct (L3 y G) as [_ K]. apply dget_None_keys in K. contradiction. }
    split; [|split].
    - intros n f H. rewrite (supplied_name _ d n f (separate_old c) H Hd), (supplied_name _ e n f (ex_separate _ _ X c) (ex_kept _ _ X _ _ _ H) He).
      destruct (L1 n f H); constructor. now apply kin_up.
    - intros n f H. rewrite (supplied_name _ e n f (ex_separate _ _ X c) (proj1 H) He). destruct (L2 n f H) as [_ K].
      destruct (dget n e) as [v|]; [right; exists v; auto|left; reflexivity].
    - intros _ y Hy. apply He in Hy. apply in_map_iff in Hy as ([n f] & <- & Hy). eapply acc_name. exact Hy.
  Qed.
  Lemma plain_old c : plain_fields (fields_of E c).
  Proof. intros n f H. exact (ex_plain _ _ X c n f (ex_kept _ _ X _ _ _ H)). Qed.
  Lemma layer_keys R c d e y : layer R c d e -> In y (dkeys d) -> In y (dkeys (fields_of E c)).
  Proof.
    intros (N1 & N2 & D1 & D2 & L1 & L2 & L3) Hy. destruct (dget y (fields_of E c)) eqn:G; [apply dget_keys; congruence|]. exfalso.
    apply dget_None_keys in G. apply dget_keys in Hy. destruct (dget y (fields_of E2 c)) as [f|] eqn:G2.
    - apply dget_In in G2. destruct (L2 y f (conj G2 G)). contradiction.
    - apply dget_None_keys in G2. now destruct (L3 y G2).
  Qed.
  (** Reading through the two layers. *)
  Lemma layer_chain R c a b a' b' d e : layer R c a a' -> layer R c b b' ->
    (forall y, dget y d = match dget y a with Some v => Some v | None => dget y b end) ->
    (forall y, dget y e = match dget y a' with Some v => Some v | None => dget y b' end) ->
    NoDup (dkeys d) -> NoDup (dkeys e) -> layer R c d e.
  Proof.
    intros (_ & _ & A1 & A2 & A3 & A4 & A5) (_ & _ & B1 & B2 & B3 & B4 & B5) Gd Ge Nd Ne.
    split; [exact Nd|]. split; [exact Ne|].
    split; [intros y; rewrite Gd; destruct (dget y a) eqn:Q; [rewrite <- Q; apply A1|apply B1]|].
    split; [intros y; rewrite Ge; destruct (dget y a') eqn:Q; [rewrite <- Q; apply A2|apply B2]|].
    split; [intros n f H; rewrite Gd, Ge; destruct (A3 n f H); [apply (B3 n f H)|now constructor]|].
    split.
    - intros n f H. rewrite Gd, Ge. destruct (A4 n f H) as [-> A]. destruct (B4 n f H) as [-> B]. split; [reflexivity|].
      intros v. destruct (dget n a') eqn:Q; [intros [= <-]; now apply A|apply B].
    - intros y H. rewrite Gd, Ge. destruct (A5 y H) as [-> ->]. now apply B5.
  Qed.
  Lemma defined_kin c m n : kin_data c m n -> defined_data m /\ defined_data n.
  Proof.
    intros (U1 & U2 & (_ & _ & A1 & A2 & _) & (_ & _ & B1 & B2 & _)). split; intros y; unfold chain_get; rewrite ?U1, ?U2; cbn [dget].
    - destruct (dget y (md_converted m)) eqn:Q; [rewrite <- Q; apply A1|apply B1].
    - destruct (dget y (md_converted n)) eqn:Q; [rewrite <- Q; apply A2|apply B2].
  Qed.
  Lemma chain_kin (m : mdata pyval) y : md_unsafe m = [] -> chain_get m y = match dget y (md_converted m) with Some v => Some v | None => dget y (md_valid m) end.
  Proof. intros U. unfold chain_get. now rewrite U. Qed.
  Lemma items_kin c m n : kin_data c m n -> layer (kin false) c (model_items E c m) (model_items E2 c n).
  Proof.
    intros K. pose proof K as (U1 & U2 & LA & LB). destruct (ex_names _ _ X c) as [N1 N2].
    pose proof (model_items_get E c m) as G1. pose proof (model_items_get E2 c n) as G2.
    apply (layer_chain _ c (md_converted m) (md_valid m) (md_converted n) (md_valid n)); try assumption.
    - intros y. rewrite (G1 y N1 (plain_old c)), chain_kin by assumption. destruct (dmem y _) eqn:M; [reflexivity|]. apply dmem_nIn in M.
      assert (K1 : dget y (md_converted m) = None) by (apply dget_None_keys; intros Hy; apply M; exact (layer_keys _ _ _ _ _ LA Hy)).
      assert (K2 : dget y (md_valid m) = None) by (apply dget_None_keys; intros Hy; apply M; exact (layer_keys _ _ _ _ _ LB Hy)).
      now rewrite K1, K2.
    - intros y. rewrite (G2 y N2 (ex_plain _ _ X c)), chain_kin by assumption. destruct (dmem y _) eqn:M; [reflexivity|]. apply dmem_nIn in M.
      destruct LA as (_ & _ & _ & _ & _ & _ & LA). destruct LB as (_ & _ & _ & _ & _ & _ & LB). destruct (LA y M) as [_ ->]. now destruct (LB y M) as [_ ->].
    - now apply model_items_NoDup.
    - now apply model_items_NoDup.
  Qed.

  (** ** Model level validators *)
  Lemma vm_ok vfs mut fs data : (forall n f e, In (n, f) fs -> ~ objects vfs mut data n e) -> readonly_validators vfs ->
    validate_model vfs mut fs data = Ok (data, []).
  Proof.
    intros H Ro. unfold validate_model. assert (validate_model_loop vfs mut fs data [] [] = Ok (data, [], [])) as ->; [|reflexivity].
    induction fs as [|[n f] fs IH]; cbn [validate_model_loop]; [reflexivity|]. specialize (IH ltac:(intros; eapply H; right; eassumption)).
    destruct (dget n data) as [v|] eqn:G; [|exact IH]. destruct (dget n vfs) as [vf|] eqn:Gv; [|exact IH].
    destruct (is_undef v) eqn:U; [exact IH|].
    pose proof (ro vfs mut Ro n vf data v Gv) as Q. destruct (vf mut data v) as [d1 [e1|]] eqn:R; cbn in Q; subst d1; [|exact IH].
    exfalso. apply (H n f e1 (or_introl eq_refl)). exists v, vf. repeat split; try assumption; [now intros ->|now rewrite R].
  Qed.
  Lemma objects_tol c m n data data2 : kin_data c m n -> layer (kin false) c data data2 ->
    (forall x f e, In (x, f) (fields_of E c) -> ~ objects (mc_validators (e_class E c)) (VModel c m) data x e) ->
    forall x f e, In (x, f) (fields_of E2 c) -> ~ objects (mc_validators (e_class E2 c)) (VModel c n) data2 x e.
  Proof.
    intros K L H x f e Hi (v & vf & G & Nu & Gv & R). destruct (ex_checks _ _ X c) as (_ & _ & C1 & C2).
    destruct (field_cases c x f Hi) as [Ho|Hn].
    - destruct (C1 x f Ho) as [Q T]. rewrite Q in Gv. pose proof L as (_ & _ & D1 & _ & L1 & _). pose proof (L1 x f Ho) as B. rewrite G in B.
      inversion B as [|u w Kv Eu Ew]; subst. specialize (T vf Gv m n data data2 u v K L Kv).
      destruct (snd (vf (VModel c m) data u)) as [e'|] eqn:S; [|rewrite (T eq_refl) in R; discriminate].
      apply (H x f e' Ho). exists u, vf. repeat split; auto. intros ->. now apply (D1 x).
    - rewrite (C2 x f Hn) in Gv. discriminate.
  Qed.

  (** ** Instances made from data *)
  Lemma tidy_old : tidy_env E.
  Proof. constructor; intros c; [apply (ex_names _ _ X c)|apply plain_old|apply (ex_checks _ _ X c)]. Qed.
  Lemma tidy_new : tidy_env E2.
  Proof. constructor; intros c; [apply (ex_names _ _ X c)|apply (ex_plain _ _ X)|apply (ex_checks _ _ X c)]. Qed.
  Lemma layer_nil R c : layer R c [] [].
  Proof.
    split; [constructor|]. split; [constructor|]. split; [intros y; discriminate|]. split; [intros y; discriminate|].
    split; [intros n f _; constructor|]. split; [intros n f _; split; [reflexivity|intros v H; discriminate]|auto].
  Qed.

  Lemma vm_inv E0 c (data d' : list (key * pyval)) : tidy_env E0 -> NoDup (dkeys data) ->
    validate_model (mc_validators (e_class E0 c)) (VModel c md_empty) (fields_of E0 c) data = Ok (d', []) ->
    d' = data /\ forall n f e, In (n, f) (fields_of E0 c) -> ~ objects (mc_validators (e_class E0 c)) (VModel c md_empty) data n e.
  Proof.
    intros T N H. pose proof (validate_model_clean _ _ _ (ti_readonly E0 T c) _ _ (ti_nodup E0 T c) H) as ->. split; [reflexivity|].
    intros n f e Hi Ho.
    assert (K : In (public_name n f) (dkeys (@nil (key * errnode)))); [|destruct K].
    apply (validate_model_ok _ _ _ (ti_readonly E0 T c) _ _ _ (ti_nodup E0 T c) N H). eauto 6.
  Qed.

  Definition new_alias (v : pyval) : aliasing := if truthy v then NoAlias else AliasConverted.
  Lemma alias_ok E0 v d : (if truthy v then py_dict E0 v else Ok []) = Ok d ->
    new_alias v = NoAlias \/ (new_alias v = AliasConverted /\ d = []).
  Proof. unfold new_alias. destruct (truthy v); [auto|intros [= <-]; auto]. Qed.

  Section New.
    Context (E0 : env) (T : tidy_env E0) (fc : fspec -> pyval -> ictx -> res pyval) (pre : fspec -> pyval -> res pyval) (x : ictx) (Px : plain_ctx x).
    Context (c : cid) (v : pyval) (d : list (key * pyval)) (Hd : (if truthy v then py_dict E0 v else Ok []) = Ok d).
    Let loop := import_loop E0 fc pre x (fields_of E0 c) (VModel c md_empty) (new_alias v) (VDict d).
    Definition fine (data : list (key * pyval)) : Prop := cx_validate x = true ->
      validate_model (mc_validators (e_class E0 c)) (VModel c md_empty) (fields_of E0 c) data = Ok (data, []).

    Lemma new_inv u : model_new E0 fc pre c v x = Ok u ->
      exists data, lo_res loop = Ok data /\ u = VModel c (MD [] data [] None) /\ fine data.
    Proof.
      unfold model_new. rewrite Hd. cbn [rbind]. fold (new_alias v).
      destruct (empty_loop E0 T fc pre x Px c _ d (alias_ok _ _ _ Hd)) as (L1 & _ & L3).
      change (mc_fields (e_class E0 c)) with (fields_of E0 c). unfold fine. destruct (cx_validate x) eqn:V.
      - unfold validate_fn. change (mc_fields (e_class E0 c)) with (fields_of E0 c). fold loop in L1, L3 |- *. cbn [lo_res lo_mut]. rewrite L1.
        destruct (lo_res loop) as [data|e] eqn:R.
        + destruct (validate_model _ _ _ data) as [[d' e']|] eqn:VM; cbn [rbind]; [|discriminate].
          destruct (dupdate [] e') eqn:U; cbn [rbind]; [|discriminate]. intros [= <-]. apply dupdate_nil_keys in U as [_ ->].
          pose proof (validate_model_clean _ _ _ (ti_readonly E0 T c) _ _ (ti_nodup E0 T c) VM) as ->. exists data. auto.
        + destruct e; try discriminate. destruct (validate_model _ _ _ partial) as [[d' e']|] eqn:VM; cbn [rbind]; [|discriminate].
          destruct (dupdate errs e') eqn:U; cbn [rbind]; [|discriminate]. apply dupdate_nil_keys in U as [-> _]. exfalso. eapply L3; reflexivity.
      - fold loop in L1 |- *. rewrite L1. destruct (lo_res loop) as [data|e] eqn:R; cbn [rbind]; [|discriminate]. intros [= <-]. exists data.
        repeat split; auto. discriminate.
    Qed.
    Lemma new_make data : lo_res loop = Ok data -> fine data -> model_new E0 fc pre c v x = Ok (VModel c (MD [] data [] None)).
    Proof.
      intros R F. unfold model_new. rewrite Hd. cbn [rbind]. fold (new_alias v).
      destruct (empty_loop E0 T fc pre x Px c _ d (alias_ok _ _ _ Hd)) as (L1 & _ & _).
      change (mc_fields (e_class E0 c)) with (fields_of E0 c). unfold fine in F. destruct (cx_validate x) eqn:V.
      - unfold validate_fn. change (mc_fields (e_class E0 c)) with (fields_of E0 c). fold loop in L1 |- *. cbn [lo_res lo_mut]. rewrite L1, R, F by reflexivity. reflexivity.
      - fold loop in L1 |- *. rewrite L1, R. reflexivity.
    Qed.
    Lemma new_eff : effective_input E0 x (fields_of E0 c) (VModel c md_empty) d d.
    Proof.
      destruct (cx_validate x) eqn:V; [|now apply eff_convert].
      change (effective_input E0 x (fields_of E0 c) (VModel c md_empty) d (dupdate d [])). apply eff_validate; [exact V|apply plain_no_setters, (ti_plain E0 T)|].
      now apply empty_items.
    Qed.
  End New.

  (** ** All types *)
  Section Step.
    Context (x : ictx) (Px : plain_ctx x).
    Definition goes (g g2 : fspec -> pyval -> ictx -> res pyval) : Prop := forall f v w u,
      tolerant_field f -> kin (cx_strict x) f v w -> g f v x = Ok u -> exists u', g2 f w x = Ok u' /\ kin false f u u'.
    Definition leaf_goes (g g2 : fspec -> pyval -> ictx -> res pyval) : Prop := forall o l v,
      g (FS o (TLeaf l)) v x = Raise XFuel \/ g2 (FS o (TLeaf l)) v x = g (FS o (TLeaf l)) v x.
    Record tol (r r2 : conv) : Prop := {
      t_field : goes (cv_field r) (cv_field r2);
      t_convert : goes (cv_convert r) (cv_convert r2);
      t_validate : goes (cv_validate r) (cv_validate r2);
      t_cleaf : leaf_goes (cv_convert r) (cv_convert r2);
      t_vleaf : leaf_goes (cv_validate r) (cv_validate r2);
      t_new : forall f v, fo_required (fs_opts f) = false -> v = VUndef \/ takes_as_is f v -> cv_field r2 f v x = Ok v }.

    Section Under.
      Context (r r2 : conv) (T : tol r r2).
      Lemma new_tol c v w d e u : (if truthy v then py_dict E v else Ok []) = Ok d -> (if truthy w then py_dict E2 w else Ok []) = Ok e ->
        defined_dict d -> defined_dict e -> feeds (cx_strict x) c d e ->
        model_new E (cv_field r) (cv_pre r) c v x = Ok u ->
        exists data data2, u = VModel c (MD [] data [] None) /\
          model_new E2 (cv_field r2) (cv_pre r2) c w x = Ok (VModel c (MD [] data2 [] None)) /\ layer (kin false) c data data2.
      Proof.
        intros Hv Hw Dd De F H. apply (new_inv E tidy_old _ _ x Px c v d Hv) in H as (data & R & -> & Fi).
        destruct (loop_tol (cv_field r) (cv_field r2) (cv_pre r) (cv_pre r2) x Px (t_field _ _ T) (t_new _ _ T) c (VModel c md_empty) (VModel c md_empty)
          (new_alias v) (new_alias w) d d e e data (new_eff E tidy_old x c d) (new_eff E2 tidy_new x c e) Dd De F R) as (data2 & R2 & L).
        exists data, data2. split; [reflexivity|]. split; [|exact L].
        apply (new_make E2 tidy_new _ _ x Px c w e Hw data2 R2). intros V. apply vm_ok; [|apply (ti_readonly E2 tidy_new)].
        pose proof L as (N1 & _). apply Fi in V. apply (vm_inv E c _ _ tidy_old N1) in V as [_ V].
        eapply (objects_tol c md_empty md_empty data data2); [|exact L|exact V].
        split; [reflexivity|]. split; [reflexivity|]. split; apply layer_nil.
      Qed.

      Lemma given_defined b v : given b v -> v <> VUndef.
      Proof. intros H ->. inversion H as [? P| | |]; destruct P. Qed.
      Lemma given_entries b d : given b (VDict d) -> forall y v, In (y, v) d -> given b v.
      Proof. intros H y v Hy. inversion H as [? P| | |? K]; subst; [destruct P|now apply (K y v)]. Qed.
      Lemma given_dict_defined b d : given b (VDict d) -> defined_dict d.
      Proof. intros H y Hy. apply dget_In in Hy. exact (given_defined b VUndef (given_entries b d H y VUndef Hy) eq_refl). Qed.
      Lemma dict_read E0 d : (if truthy (VDict d) then py_dict E0 (VDict d) else Ok []) = Ok d.
      Proof. destruct d; reflexivity. Qed.
      Lemma items_read E0 c m : tidy_env E0 -> defined_data m -> (if truthy (VModel c m) then py_dict E0 (VModel c m) else Ok []) = Ok (model_items E0 c m).
      Proof.
        intros T0 D. destruct (truthy (VModel c m)) eqn:Q; [apply model_items_dict; [apply (ti_nodup E0 T0)|apply (ti_plain E0 T0)|exact D]|].
        f_equal. cbn [truthy] in Q. destruct m as [a b e h]. cbn in Q. destruct a; [|discriminate]. destruct b; [|discriminate]. destruct e; [|discriminate].
        unfold model_items, model_iter. replace (filter _ _) with (@nil (key * field)); [reflexivity|].
        symmetry. induction (mc_fields (e_class E0 c)); cbn; auto.
      Qed.
      Lemma new_given c d u : given (cx_strict x) (VDict d) -> model_new E (cv_field r) (cv_pre r) c (VDict d) x = Ok u ->
        exists data data2, u = VModel c (MD [] data [] None) /\
          model_new E2 (cv_field r2) (cv_pre r2) c (VDict d) x = Ok (VModel c (MD [] data2 [] None)) /\ layer (kin false) c data data2.
      Proof.
        intros G H. pose proof (given_dict_defined _ _ G) as D.
        apply (new_tol c (VDict d) (VDict d) d d u); try apply dict_read; try assumption. apply feeds_given; [exact G|].
        intros S y Hy. apply (new_inv E tidy_old _ _ x Px c (VDict d) d (dict_read _ _)) in H as (data & R & _).
        apply all_input_keys_acceptable.
        destruct (kmem y (all_input_keys (fields_of E c) no_mapping)) eqn:A; [now apply kmem_In|]. apply kmem_nIn in A. rewrite all_input_keys_acceptable in A. exfalso.
        pose proof (success_no_errors E (cv_field r) (cv_pre r) x (fields_of E c) (VModel c md_empty) _ d d [] (new_eff E tidy_old x c d) D
          (ti_nodup E tidy_old c) (trusted_plain E x Px) data y R) as NE.
        apply NE. left. destruct Px as (_ & M & _). split; [exact S|]. split; [exact Hy|]. now rewrite M.
      Qed.
      Lemma new_instance c m n u : kin_data c m n -> model_new E (cv_field r) (cv_pre r) c (VModel c m) x = Ok u ->
        exists data data2, u = VModel c (MD [] data [] None) /\
          model_new E2 (cv_field r2) (cv_pre r2) c (VModel c n) x = Ok (VModel c (MD [] data2 [] None)) /\ layer (kin false) c data data2.
      Proof.
        intros K H. destruct (defined_kin c m n K) as [D1 D2]. pose proof (items_kin c m n K) as L. pose proof L as (_ & _ & I1 & I2 & _).
        apply (new_tol c (VModel c m) (VModel c n) (model_items E c m) (model_items E2 c n) u); try assumption.
        - apply items_read; [exact tidy_old|exact D1].
        - apply items_read; [exact tidy_new|exact D2].
        - apply feeds_layer; [exact L|]. intros y Hy. exact (layer_keys _ _ _ _ _ L Hy).
      Qed.

      Lemma convert_tol : goes (convert_step E r) (convert_step E2 r2).
      Proof.
        intros f v w u Tf K. unfold convert_step. destruct Tf as [o l TO|o ms TO Ms|o c TO|o g TO Tg|o g ck TO Tg]; cbn [fs_type].
        - apply kin_leaf_eq in K as <-. intros H. exists u. split; [exact H|apply kin_leaf].
        - apply kin_union_eq in K as <-. intros H.
          assert (U : forall p, union_resolve (fun m u => cv_convert r m u x) ms v = Ok p -> union_resolve (fun m u => cv_convert r2 m u x) ms v = Ok p).
          { clear H TO. induction ms as [|m ms IH]; cbn; [discriminate|]. intros p. destruct (Ms m (or_introl eq_refl)) as (o' & l & ->).
            destruct (t_cleaf _ _ T o' l v) as [-> | ->]; [discriminate|].
            destruct (cv_convert r _ v x) as [a|[]]; auto; try discriminate. apply IH. intros; apply Ms; now right. }
          destruct (union_resolve _ ms v) as [p|] eqn:R; [|discriminate]. rewrite (U p eq_refl). destruct p as [m a]. cbn in *. injection H as <-.
          exists a. split; [reflexivity|apply kin_union].
        - unfold model_convert. destruct Px as (_ & _ & Hc & Ho). rewrite Hc, Ho. cbn [andb]. intros H.
          inversion K as [f0 v0 G| | | | | |o0 c0 b m n U1 U2 L1 L2]; subst; try discriminate.
          + destruct w; try discriminate; [|inversion G as [? P| | |]; destruct P].
            apply new_given in H as (data & data2 & -> & -> & L); [|exact G]. eexists. split; [reflexivity|].
            apply kin_model; try reflexivity; [exact L|apply layer_nil].
          + rewrite (ex_classes _ _ X). destruct (e_issub E b c); [|discriminate].
            apply (new_instance b m n) in H as (data & data2 & -> & -> & L); [|exact (conj U1 (conj U2 (conj L1 L2)))]. eexists. split; [reflexivity|].
            apply kin_model; try reflexivity; [exact L|apply layer_nil].
        - intros H. apply list_convert_ok in H as (l & ws & El & -> & C).
          assert (exists l2, list_elems E2 w = Some l2 /\ Forall2 (kin (cx_strict x) g) l l2) as (l2 & El2 & F).
          { inversion K as [f0 v0 G| | | |o0 g0 l0 m0 F| |]; subst; try discriminate; [|injection El as ->; cbn; eauto].
            destruct w; try discriminate; cbn in El |- *; injection El as <-; eexists; (split; [reflexivity|]).
            - clear. induction s as [|a s IH]; constructor; auto. apply kin_given, gv_atom. exact I.
            - inversion G as [? P|? P| |]; [destruct P|]. subst. clear -P. induction P; constructor; auto. now apply kin_given.
            - inversion G as [? P| |? P|]; [destruct P|]. subst. clear -P. induction P; constructor; auto. now apply kin_given.
            - inversion G as [? P| | |]; destruct P. }
          assert (exists ws2, all_convert (cv_field r2) g x l2 ws2 /\ Forall2 (kin false g) ws ws2) as (ws2 & C2 & F2).
          { clear El El2 K TO. revert ws C. induction F as [|a b l l2 Kab F IH]; intros ws C; inversion C as [|? ? ? ws0 C1 C2]; subst.
            - exists []. split; constructor.
            - destruct (t_field _ _ T g a b _ Tg Kab C1) as (b' & B1 & B2). destruct (IH _ C2) as (ws2 & B3 & B4). exists (b' :: ws2). split; constructor; assumption. }
          exists (VList ws2). split; [apply list_convert_ok; eauto|now apply kin_list].
        - intros H. apply dict_convert_ok in H as (d & ps & -> & -> & C).
          assert (exists e, w = VDict e /\ Forall2 (fun p q => fst p = fst q /\ kin (cx_strict x) g (snd p) (snd q)) d e) as (e & -> & F).
          { inversion K as [f0 v0 G| | | | |o0 g0 ck0 d0 e0 F|]; subst; [|eauto]. exists d. split; [reflexivity|].
            pose proof (given_entries _ _ G) as Ge. clear -Ge. induction d as [|[y v] d IH]; constructor; [split; [reflexivity|]|].
            - apply kin_given. apply (Ge y). now left.
            - apply IH. intros y' v' Hy. apply (Ge y'). now right. }
          assert (exists qs, Forall2 (entry_converts (cv_field r2) g ck x) e qs /\ Forall2 (fun p q => fst p = fst q /\ kin false g (snd p) (snd q)) ps qs) as (qs & C2 & F2).
          { clear K TO. revert ps C. induction F as [|a b d e [Ka Kb] F IH]; intros ps C; inversion C as [|? ? ? ps0 [C1 C1'] C2]; subst.
            - exists []. split; constructor.
            - destruct (t_field _ _ T g _ _ _ Tg Kb C1) as (b' & B1 & B2). destruct (IH _ C2) as (qs & B3 & B4).
              exists ((fst y, b') :: qs). split; constructor; try assumption; split; cbn; try assumption; try reflexivity. now rewrite <- Ka. }
          exists (VDict (dupdate [] qs)). split; [apply dict_convert_ok; eauto|]. apply kin_dict.
          assert (Z : forall a b, Forall2 (fun p q : key * pyval => fst p = fst q /\ kin false g (snd p) (snd q)) a b ->
            Forall2 (fun p q => fst p = fst q /\ kin false g (snd p) (snd q)) (dupdate a ps) (dupdate b qs)).
          { clear C C2 K. induction F2 as [|p q ps qs [P1 P2] F2 IH]; intros a b Hab; [exact Hab|].
            destruct p as [y v], q as [y' v']. cbn in P1, P2. subst y'. cbn [dupdate fold_left fst snd]. apply IH.
            clear -Hab P2. induction Hab as [|[y1 v1] [y2 v2] a b [Q1 Q2] Hab IH]; cbn [dset]; [now repeat constructor|].
            cbn in Q1, Q2. subst y2. destruct (key_eqb y y1); constructor; auto. }
          apply Z. constructor.
      Qed.
      Lemma validators_tol f u u' : tolerant_opts E E2 f -> kin false f u u' -> validators_result (fo_validators (fs_opts f)) u = Ok u ->
        validators_result (fo_validators (fs_opts f)) u' = Ok u'.
      Proof.
        intros [TV _] K H. apply validators_success in H as [_ H]. apply validators_success. split; [reflexivity|].
        intros g Hg. rewrite Forall_forall in TV. exact (TV g Hg u u' K (H g Hg)).
      Qed.
      Lemma validate_tol : goes (validate_step r) (validate_step r2).
      Proof.
        intros f v w u Tf K. unfold validate_step. destruct Px as (_ & _ & Hc & _). rewrite Hc.
        assert (G : rbind (cv_convert r f v x) (validators_result (fo_validators (fs_opts f))) = Ok u ->
          exists u', rbind (cv_convert r2 f w x) (validators_result (fo_validators (fs_opts f))) = Ok u' /\ kin false f u u').
        { destruct (cv_convert r f v x) as [a|] eqn:C; cbn [rbind]; [|discriminate]. intros H.
          destruct (t_convert _ _ T f v w a Tf K C) as (a' & -> & Ka). pose proof H as H'. apply validators_success in H' as [-> _].
          exists a'. split; [|exact Ka]. cbn [rbind]. apply (validators_tol f a a'); [now apply tolerant_opts_of|exact Ka|exact H]. }
        destruct f as [o [l|ms|c|p|g|g ck]]; cbn [fs_type] in *; try exact G.
        clear G. apply kin_union_eq in K as <-. intros H.
        assert (Ms : forall m, In m ms -> exists o' l, m = FS o' (TLeaf l)) by (inversion Tf; assumption).
        assert (U : forall p, union_resolve (fun m u => cv_convert r m u x) ms v = Ok p ->
          union_resolve (fun m u => cv_convert r2 m u x) ms v = Ok p /\ In (fst p) ms).
        { clear H Tf. induction ms as [|m ms IH]; cbn; [discriminate|]. intros p. destruct (Ms m (or_introl eq_refl)) as (o' & l & ->).
          destruct (t_cleaf _ _ T o' l v) as [-> | ->]; [discriminate|].
          destruct (cv_convert r _ v x) as [a|[]]; try discriminate; [intros [= <-]; cbn; auto|].
          intros R. apply IH in R as [R1 R2]; [auto|]. intros; apply Ms; now right. }
        destruct (union_resolve _ ms v) as [p|] eqn:R; [|discriminate]. destruct (U p eq_refl) as [-> I]. destruct p as [m a]. cbn in *.
        destruct (Ms m I) as (o' & l & ->). destruct (t_vleaf _ _ T o' l v) as [Q|Q]; rewrite Q in *; [discriminate|].
        exists u. split; [exact H|apply kin_union].
      Qed.
      Lemma field_tol : goes (field_step r) (field_step r2).
      Proof.
        intros f v w u Tf K. unfold field_step. rewrite <- (kin_nil _ _ _ _ K).
        assert (check_required f w x = check_required f v x) as -> by (unfold check_required; now rewrite (kin_nil _ _ _ _ K)).
        destruct (check_required f v x); [discriminate|]. destruct (is_nil v) eqn:Nv.
        - intros [= <-]. exists w. split; [reflexivity|]. pose proof (kin_nil _ _ _ _ K) as Nw. rewrite Nv in Nw.
          pose proof (kin_undef_iff _ _ _ _ K) as Un.
          destruct v; try discriminate Nv; destruct w; try discriminate; [apply kin_none|apply kin_undef].
        - destruct (cx_validate x); [now apply (t_validate _ _ T)|now apply (t_convert _ _ T)].
      Qed.
    End Under.

    Lemma takes_ok n f v : fo_required (fs_opts f) = false -> v = VUndef \/ takes_as_is f v -> cv_field (conv_at E2 (3 + n)) f v x = Ok v.
    Proof.
      intros Rq Hv. cbn [Nat.add conv_at conv_step cv_field]. unfold field_step, check_required. rewrite Rq. cbn [andb].
      destruct (is_nil v) eqn:Nv; [reflexivity|].
      assert (Hv' : takes_as_is f v) by (destruct Hv as [->|Hv]; [discriminate|exact Hv]).
      destruct Hv' as [->|(_ & V & Ty)]; [discriminate|]. rewrite Forall_forall in V.
      assert (C : forall k, convert_step E2 (conv_at E2 k) f v x = Ok v).
      { intros k. unfold convert_step. destruct (fs_type f); try contradiction; [exact Ty|rewrite Ty; reflexivity|rewrite Ty; reflexivity]. }
      cbn [conv_step cv_validate cv_convert]. destruct (cx_validate x); [|exact (C (S n))].
      unfold validate_step. destruct Px as (_ & _ & Hc & _). rewrite Hc. cbn [conv_step cv_convert].
      assert (validators_result (fo_validators (fs_opts f)) v = Ok v) as R by (apply validators_success; auto).
      pose proof (C n) as Cn.
      destruct (fs_type f) eqn:F; try contradiction; rewrite Cn; exact R.
    Qed.
    Lemma tol_at n : tol (conv_at E n) (conv_at E2 (3 + n)).
    Proof.
      induction n as [|n IH].
      - constructor; try (intros f v w u _ _ H; discriminate H); try (intros o l v; now left). intros f v. apply (takes_ok 0).
      - replace (3 + S n) with (S (3 + n)) by lia. constructor.
        + exact (field_tol _ _ IH).
        + exact (convert_tol _ _ IH).
        + exact (validate_tol _ _ IH).
        + intros o l v. right. reflexivity.
        + intros o l v. cbn [conv_at conv_step cv_validate]. unfold validate_step. cbn [fs_type is_compound].
          destruct (t_cleaf _ _ IH o l v) as [Q|Q]; cbn [Nat.add conv_at] in *; rewrite Q; [|now right]. destruct Px as (_ & _ & Hc & _). rewrite Hc. now left.
        + intros f v R Hv. replace (S (3 + n)) with (3 + S n) by lia. now apply takes_ok.
    Qed.
  End Step.

  (** ** Model(...) and validate() *)
  Lemma kin_vbase c m n : kin_data c m n -> kin_data c (vbase m) (vbase n).
  Proof. intros (U1 & U2 & A & B). split; [reflexivity|]. split; [reflexivity|]. split; assumption. Qed.
  Lemma vinput_kin c m n : kin_data c m n -> layer (kin false) c (vinput E c m) (vinput E2 c n).
  Proof.
    intros K. pose proof K as (U1 & U2 & A & B). pose proof (items_kin _ _ _ (kin_vbase _ _ _ K)) as I.
    pose proof A as (A1 & A2 & _). pose proof I as (I1 & I2 & _). unfold vinput. rewrite U1, U2.
    refine (layer_chain _ c _ _ _ _ _ _ I A _ _ _ _).
    - intros y. rewrite dget_dupdate by assumption. now rewrite dupdate_nil_l.
    - intros y. rewrite dget_dupdate by assumption. now rewrite dupdate_nil_l.
    - apply NoDup_dupdate. rewrite dupdate_nil_l; assumption.
    - apply NoDup_dupdate. rewrite dupdate_nil_l; assumption.
  Qed.
  Lemma kin_layers c m n : kin_data c m n -> defined_layers m /\ defined_layers n /\ NoDup (dkeys (md_converted m)) /\ NoDup (dkeys (md_converted n)).
  Proof.
    intros (U1 & U2 & (A1 & A2 & A3 & A4 & _) & (B1 & B2 & B3 & B4 & _)). unfold defined_layers. rewrite U1, U2.
    repeat split; try assumption; intros y; discriminate.
  Qed.
  Lemma kin_nonempty c m n : kin_data c m n -> md_converted m <> [] -> md_converted n <> [].
  Proof.
    intros (_ & _ & A & _) N Q. destruct (md_converted m) as [|[y v] d] eqn:Qm; [congruence|].
    pose proof (layer_keys _ _ _ _ y A (or_introl eq_refl)) as Hy. apply in_map_iff in Hy as ([n0 f] & <- & Hy). cbn [fst] in *.
    destruct A as (_ & _ & _ & _ & A & _). specialize (A n0 f Hy). rewrite Q in A. cbn [dget] in A. rewrite key_eqb_refl in A. inversion A.
  Qed.

  Lemma validate_tolerant j c m n w m1 : ordinary w -> kin_data c m n -> md_converted n = [] \/ md_converted m <> [] \/ kw_partial w = false ->
    model_validate E (conv_at E j) c m w = (m1, None) ->
    exists n1, model_validate E2 (conv_at E2 (3 + j)) c n w = (n1, None) /\ kin_data c m1 n1.
  Proof.
    intros [Wm Wc] K R H. assert (D : (md_converted m <> [] \/ kw_partial w = false) \/ (md_converted m = [] /\ kw_partial w = true /\ md_converted n = [])).
    { destruct (kw_partial w); [|auto]. destruct (md_converted m) as [|p l]; [|left; left; discriminate]. right.
      destruct R as [R|[R|R]]; [auto|congruence|discriminate]. }
    destruct D as [Hrun|(Q1 & Q2 & Q3)].
    2:{ unfold model_validate in *. rewrite Q1, Q2 in H. rewrite Q3, Q2. injection H as <-. exists n. auto. }
    clear R. assert (Hrun2 : md_converted n <> [] \/ kw_partial w = false).
    { destruct Hrun as [Hr|Hr]; [left; now apply (kin_nonempty c m n)|now right]. }
    destruct (kin_layers c m n K) as (D1 & D2 & N1 & N2). pose proof K as (U1 & U2 & LA & LB).
    pose proof (ti_nodup E tidy_old c) as F1. pose proof (ti_nodup E2 tidy_new c) as F2.
    pose proof (ti_plain E tidy_old c) as P1. pose proof (ti_plain E2 tidy_new c) as P2.
    pose proof (ti_readonly E tidy_old c) as O1. pose proof (ti_readonly E2 tidy_new c) as O2.
    apply (validate_ok E _ c m w F1 P1 D1 N1 Hrun O1) in H as (data & -> & L & Ob).
    assert (Vx : vctx n w = vctx m w) by (unfold vctx, vkw; now rewrite U1, U2).
    assert (Px : plain_ctx (vctx m w)).
    { unfold vctx, vkw, call_ctx, plain_ctx. rewrite U1, Wm, Wc. cbn. auto. }
    pose proof (vinput_kin c m n K) as V.
    destruct (loop_tol (cv_field (conv_at E j)) (cv_field (conv_at E2 (3 + j))) (cv_pre (conv_at E j)) (cv_pre (conv_at E2 (3 + j))) (vctx m w) Px
      (t_field _ _ _ (tol_at _ Px j)) (t_new _ _ _ (tol_at _ Px j)) c _ (VModel c (vbase n))
      (match md_unsafe m with [] => AliasConverted | _ => NoAlias end) (match md_unsafe n with [] => AliasConverted | _ => NoAlias end) _ _ (dupdate (md_unsafe n) (md_converted n)) (vinput E2 c n) data
      (veff E c m w F1 P1 D1)) as (data2 & L2 & Ly).
    { rewrite <- Vx. exact (veff E2 c n w F2 P2 D2). }
    { apply V. }
    { apply V. }
    { apply feeds_layer; [exact V|]. intros y Hy. exact (layer_keys _ _ _ _ _ V Hy). }
    { exact L. }
    exists (MD [] [] data2 (hidden_after n)). split.
    - rewrite (validate_eq E2 _ c n w F2 P2 D2 N2 Hrun2). unfold vres. rewrite <- Vx in L2. rewrite L2. unfold vfinish.
      rewrite vm_ok; [reflexivity| |exact O2].
      eapply (objects_tol c); [|exact Ly|]. 2:{ unfold vmut in Ob. rewrite U1 in Ob. exact Ob. }
      rewrite U2. split; [reflexivity|]. split; [reflexivity|]. split; [exact V|exact LB].
    - split; [reflexivity|]. split; [reflexivity|]. split; [apply layer_nil|exact Ly].
  Qed.

  Lemma init_new E0 (T : tidy_env E0) r c v w d : ordinary w -> (if truthy v then py_dict E0 v else Ok []) = Ok d ->
    forall m, model_init E0 r c v (VDict []) w = Ok m <->
    exists data, model_new E0 (cv_field r) (cv_pre r) c v (kw_ctx w (VDict [])) = Ok (VModel c (MD [] data [] None)) /\
      if kw_validate w then model_validate E0 r c (MD [] data [] None) (KW no_mapping (kw_partial w) false (kw_init_values w) (kw_apply_defaults w) (kw_convert w) true (kw_recursive w)) = (m, None)
      else m = MD [] data [] None.
  Proof.
    intros [Wm Wc] Hd m. assert (Px : plain_ctx (kw_ctx w (VDict []))) by (unfold plain_ctx; cbn; auto).
    destruct (empty_loop E0 T (cv_field r) (cv_pre r) _ Px c (new_alias v) d (alias_ok _ _ _ Hd)) as (L1 & _ & _).
    unfold model_init, model__convert, model_new. cbn [md_unsafe md_converted truthy nonempty]. rewrite Hd. cbn [rbind].
    fold (new_alias v). change (cx_validate (kw_ctx w (VDict []))) with (kw_validate w).
    set (out := if kw_validate w then _ else _).
    assert (lo_mut out = VModel c md_empty) as M by (unfold out; destruct (kw_validate w); exact L1).
    change (MD [] [] [] None) with md_empty in *. fold out. rewrite M. destruct (lo_res out) as [data|e]; cbn [rbind set_converted md_set_converted md_unsafe md_valid md_hidden md_empty].
    - split.
      + intros H. exists data. split; [reflexivity|]. destruct (kw_validate w); [|injection H as <-; reflexivity].
        change (md_set_converted md_empty data) with (MD [] data [] None) in H. destruct (model_validate E0 r c (MD [] data [] None) _) as [m3 [e|]]; [discriminate|]. now injection H as <-.
      + intros (data' & [= <-] & H). destruct (kw_validate w); [|subst m; reflexivity].
        change (md_set_converted md_empty data) with (MD [] data [] None). rewrite H. reflexivity.
    - split; [discriminate|]. intros (data' & H & _). discriminate.
  Qed.

  Lemma init_finish j c w data data2 m v2 d2 : ordinary w -> layer (kin false) c data data2 ->
    (kw_validate w = true -> kw_partial w = true -> exists y u, chain_get m y = Some u) ->
    (if kw_validate w then model_validate E (conv_at E j) c (MD [] data [] None) (KW no_mapping (kw_partial w) false (kw_init_values w) (kw_apply_defaults w) (kw_convert w) true (kw_recursive w)) = (m, None)
      else m = MD [] data [] None) ->
    (if truthy v2 then py_dict E2 v2 else Ok []) = Ok d2 ->
    model_new E2 (cv_field (conv_at E2 (3 + j))) (cv_pre (conv_at E2 (3 + j))) c v2 (kw_ctx w (VDict [])) = Ok (VModel c (MD [] data2 [] None)) ->
    exists m2, model_init E2 (conv_at E2 (3 + j)) c v2 (VDict []) w = Ok m2 /\ kin_data c m m2.
  Proof.
    intros Wo L Ne H Hd2 H2. assert (K : kin_data c (MD [] data [] None) (MD [] data2 [] None)).
    { split; [reflexivity|]. split; [reflexivity|]. split; [exact L|apply layer_nil]. }
    destruct (kw_validate w) eqn:V.
    - set (w' := KW _ _ _ _ _ _ _ _) in H.
      destruct (validate_tolerant j c (MD [] data [] None) (MD [] data2 [] None) w' m) as (m2 & V2 & K2).
      + split; [reflexivity|exact (proj2 Wo)].
      + exact K.
      + right. cbn [md_converted w' kw_partial]. destruct (kw_partial w) eqn:P; [left|now right]. intros ->.
        unfold model_validate in H. cbn [md_converted w' kw_partial] in H. injection H as <-.
        destruct (Ne eq_refl eq_refl) as (y & u & G). discriminate.
      + exact H.
      + exists m2. split; [|exact K2]. apply (init_new E2 tidy_new _ c v2 w d2 Wo Hd2). exists data2. split; [exact H2|]. rewrite V. exact V2.
    - subst m. exists (MD [] data2 [] None). split; [|exact K]. apply (init_new E2 tidy_new _ c v2 w d2 Wo Hd2). exists data2. split; [exact H2|]. now rewrite V.
  Qed.
  Lemma ordinary_ctx w : ordinary w -> plain_ctx (kw_ctx w (VDict [])).
  Proof. intros [A B]. unfold plain_ctx. cbn. auto. Qed.
  Lemma init_tolerant j c d w m : ordinary w -> given (kw_strict w) (VDict d) ->
    (kw_validate w = true -> kw_partial w = true -> exists y u, chain_get m y = Some u) ->
    model_init E (conv_at E j) c (VDict d) (VDict []) w = Ok m ->
    exists m2, model_init E2 (conv_at E2 (3 + j)) c (VDict d) (VDict []) w = Ok m2 /\ kin_data c m m2.
  Proof.
    intros Wo G Ne H. apply (init_new E tidy_old _ c _ w d Wo (dict_read E d)) in H as (data & H1 & H2).
    apply (new_given _ (ordinary_ctx w Wo) _ _ (tol_at _ (ordinary_ctx w Wo) j) c d) in H1 as (data1 & data2 & [= <-] & H3 & L); [|exact G].
    exact (init_finish j c w data data2 m _ d Wo L Ne H2 (dict_read E2 d) H3).
  Qed.
  Lemma copy_tolerant j c p q w m : ordinary w -> kin_data c p q ->
    (kw_validate w = true -> kw_partial w = true -> exists y u, chain_get m y = Some u) ->
    model_init E (conv_at E j) c (VModel c p) (VDict []) w = Ok m ->
    exists m2, model_init E2 (conv_at E2 (3 + j)) c (VModel c q) (VDict []) w = Ok m2 /\ kin_data c m m2.
  Proof.
    intros Wo K Ne H. destruct (defined_kin c p q K) as [D1 D2].
    apply (init_new E tidy_old _ c _ w _ Wo (items_read E c p tidy_old D1)) in H as (data & H1 & H2).
    apply (new_instance _ (ordinary_ctx w Wo) _ _ (tol_at _ (ordinary_ctx w Wo) j) c p q) in H1 as (data1 & data2 & [= <-] & H3 & L); [|exact K].
    exact (init_finish j c w data data2 m _ _ Wo L Ne H2 (items_read E2 c q tidy_new D2) H3).
  Qed.

  Lemma kin_reads c m n y f : kin_data c m n -> In (y, f) (fields_of E c) -> both (kin false (fd_spec f)) (chain_get m y) (chain_get n y).
  Proof.
    intros (U1 & U2 & A & B) H. rewrite !chain_kin by assumption. destruct A as (_ & _ & _ & _ & A & _). destruct B as (_ & _ & _ & _ & B & _).
    destruct (A y f H); [apply (B y f H)|now constructor].
  Qed.
  Lemma kin_reads_same c m n y f : kin_data c m n -> In (y, f) (fields_of E c) ->
    match fs_type (fd_spec f) with TLeaf _ | TUnion _ => chain_get n y = chain_get m y | _ => True end.
  Proof.
    intros K H. pose proof (kin_reads c m n y f K H) as R. destruct (fd_spec f) as [o [l|ms|c'|p|g|g ck]]; cbn [fs_type]; try exact I.
    - destruct R as [|a b R]; [reflexivity|]. now apply kin_leaf_eq in R as <-.
    - destruct R as [|a b R]; [reflexivity|]. now apply kin_union_eq in R as <-.
  Qed.
  Lemma kin_new c m n y f v : kin_data c m n -> new_field c y f -> chain_get n y = Some v -> takes_as_is (fd_spec f) v.
  Proof.
    intros (U1 & U2 & A & B) H. rewrite chain_kin by assumption. destruct A as (_ & _ & _ & _ & _ & A & _). destruct B as (_ & _ & _ & _ & _ & B & _).
    destruct (dget y (md_converted n)) eqn:G; [intros [= <-]; now apply (A y f H)|now apply (B y f H)].
  Qed.
End Evolve.
