(** Instances that were accepted can be exported. *)
From Verif.Model Require Import Py Core Export Api Types DateTime Enum Net.
From Verif.Spec Require Import ImportSpec ExportSpec PrimitiveSpec ValidateSpec TypeSpec DateSpec AcceptSpec.
From Verif.Proofs Require Import ExportLemmas Sound PrimitiveFacts PrimitiveTypes TypeLemmas DateTimeLemmas EnumLemmas.

(** A bound for finitely many claims that hold from some number on. *)
Lemma common_bound {A} (P : nat -> A -> Prop) (l : list A) :
  (forall a, In a l -> exists N, forall n, N <= n -> P n a) -> exists N, forall n, N <= n -> forall a, In a l -> P n a.
Proof.
  induction l as [|a l IH]; intros H; [exists 0; intros n _ a []|].
  destruct (H a (or_introl eq_refl)) as [N1 H1].
  destruct IH as [N2 H2]; [intros b Hb; apply H; now right|].
  exists (Nat.max N1 N2). intros n Hn b [<-|Hb]; [apply H1; lia|apply H2; [lia|exact Hb]].
Qed.

Section A.
  Context (E : env) (x : ectx) (HT : tidy_env E) (HX : exports_env x E) (HR : forall c, ~ unknown_role E c x).
  Context (part chk : bool).

  Definition ok_from (f : fspec) (v : pyval) : Prop := exists N, forall n, N <= n -> exists w, export_at E n f v x = Ok w.
  Definition loop_from (c : cid) (obj : pyval) : Prop :=
    exists N, forall n, N <= n -> exists d, export_loop E (export_at E n) x c obj = Ok d.

  Lemma ok_step f v : (exists N, forall n, N <= n -> exists w, export_step E (export_at E n) f v x = Ok w) -> ok_from f v.
  Proof. intros [N H]. exists (S N). intros [|n] Hn; [lia|]. cbn [export_at]. apply H. lia. Qed.

  Lemma loop_intro c obj :
    (forall n f, In (n, f) (fields_of E c) -> is_nil (reading E obj n) = true \/ ok_from (fd_spec f) (reading E obj n)) ->
    loop_from c obj.
  Proof.
    intros H.
    destruct (common_bound (fun k p => is_nil (reading E obj (fst p)) = true \/ exists w, export_at E k (fd_spec (snd p)) (reading E obj (fst p)) x = Ok w) (fields_of E c)) as [N HN].
    { intros [n f] Hi. destruct (H n f Hi) as [K|[N K]]; [exists 0; now left|]. exists N. intros k Hk. right. now apply K. }
    exists N. intros k Hk. destruct (export_loop E (export_at E k) x c obj) as [d|e] eqn:L; [eauto|].
    apply export_loop_raise in L as [[U _]|(filt & pre & n & f & post & _ & D & (_ & Nn & F & _) & _)]; [destruct (HR c U)|].
    destruct (HN k Hk (n, f)) as [K|[w K]]; cbn [fst snd] in *; [rewrite D; apply in_elt|congruence|congruence].
  Qed.
  Lemma nothing_loop c v : is_nil v = true -> loop_from c v.
  Proof. intros N. apply loop_intro. intros n f _. left. destruct v; try discriminate; reflexivity. Qed.

  Lemma list_from o g l : (forall v, In v l -> ok_from g v) -> ok_from (FS o (TList g)) (VList l).
  Proof.
    intros H. apply ok_step. destruct (common_bound (fun k v => exists w, export_at E k g v x = Ok w) l H) as [N HN].
    exists N. intros n Hn. specialize (HN n Hn). cbn [export_step fs_type]. unfold list_export.
    destruct (Z.eqb _ _); [eauto|]. cbn [py_iter rbind]. generalize (get_export_level E g x). intros lvl.
    assert (G : forall data, exists r, list_export_loop (export_at E n) g lvl x l data = Ok r).
    { clear H. induction l as [|v l IH]; intros data; cbn [list_export_loop]; [eauto|].
      destruct (HN v (or_introl eq_refl)) as [w ->]. cbn [rbind]. apply IH. intros a Ha. apply HN. now right. }
    destruct (G []) as [r ->]. cbn [rbind]. eauto.
  Qed.
  Lemma dict_from o g ck d : (forall y v, In (y, v) d -> ok_from g v) -> ok_from (FS o (TDict g ck)) (VDict d).
  Proof.
    intros H. apply ok_step.
    destruct (common_bound (fun k p => exists w, export_at E k g (snd p) x = Ok w) d) as [N HN]; [intros [y v] Hi; apply (H y v Hi)|].
    exists N. intros n Hn. specialize (HN n Hn). cbn [export_step fs_type]. unfold dict_export.
    destruct (Z.eqb _ _); [eauto|]. cbn [py_item_pairs rbind]. generalize (get_export_level E g x). intros lvl.
    assert (G : forall data, exists r, dict_export_loop (export_at E n) g lvl x d data = Ok r).
    { clear H. induction d as [|[y v] d IH]; intros data; cbn [dict_export_loop]; [eauto|].
      destruct (HN (y, v) (or_introl eq_refl)) as [w K]. cbn [snd] in K. rewrite K. cbn [rbind]. apply IH. intros a Ha. apply HN. now right. }
    destruct (G []) as [r ->]. cbn [rbind]. eauto.
  Qed.
  Lemma leaf_from o l v w : leaf_form x l v = Ok w -> ok_from (FS o (TLeaf l)) v.
  Proof. intros H. apply ok_step. exists 0. intros n _. exists w. exact H. Qed.
  Lemma resolve_some fe v ms : some_writes x v ms ->
    exists o l u w, union_resolve (export_convert E fe x) ms v = Ok (FS o (TLeaf l), u) /\ leaf_form x l v = Ok w.
  Proof.
    induction 1 as [o l r u w A B|o l r es A _ IH].
    - exists o, l, u, w. split; [|exact B]. cbn. now rewrite A.
    - destruct IH as (o' & l' & u' & w' & IH1 & IH2). exists o', l', u', w'. split; [|exact IH2]. cbn. rewrite A. exact IH1.
  Qed.
  Lemma union_from o ms v : some_writes x v ms -> ok_from (FS o (TUnion ms)) v.
  Proof.
    intros H. apply ok_step. exists 1. intros [|n] Hn; [lia|]. cbn [export_step fs_type].
    destruct (resolve_some (export_at E (S n)) v ms H) as (o' & l & u & w & -> & W). cbn [rbind]. exists w. exact W.
  Qed.
  Lemma model_from o c v : loop_from (match v with VModel d _ => d | _ => c end) v -> ok_from (FS o (TModel c)) v.
  Proof.
    intros [N H]. apply ok_step. exists N. intros n Hn. cbn [export_step fs_type]. unfold model_export. cbv zeta.
    destruct (H n Hn) as [d ->]. cbn [rbind]. eauto.
  Qed.

  (** An element of a list or dictionary. *)
  Lemma element_from g v : element x g ->
    (is_nil v = true /\ (fo_required (fs_opts g) = true -> fo_named (fs_opts g) = true /\ part = true)) \/ ok_from g v -> ok_from g v.
  Proof.
    intros (Nm & W) [[K Rq]|K]; [|exact K]. destruct W as [W|W]; [destruct (Rq W); congruence|].
    destruct g as [o [l|ms|c|p|g|g ck]]; cbn in W; try tauto.
    - destruct (W v K) as [w Hw]. eapply leaf_from; exact Hw.
    - apply model_from. destruct v; try discriminate; now apply nothing_loop.
  Qed.

  Fixpoint sound_from f v (H : sound E part chk f v) {struct H} : exports x f ->
    (is_nil v = true /\ (fo_required (fs_opts f) = true -> fo_named (fs_opts f) = true /\ part = true)) \/ ok_from f v
  with fits_from f v (H : fits E part chk f v) {struct H} : exports x f -> ok_from f v
  with shape_from t v (H : shape E part chk t v) {struct H} : forall o, exports x (FS o t) -> ok_from (FS o t) v
  with model_loop_from c m (H : sound_model E part chk c m) {struct H} : loop_from c (VModel c m).
  Proof.
    - destruct H as [f v N Rq|f v H]; intros X; [now left|right; now apply fits_from].
    - destruct H as [o t v H _]; intros X. now apply shape_from.
    - destruct H as [l u v H|ms m v Hi H|g l IH|g ck d _ IH|c c' m _ H|p c m u _ H|p v K _]; intros o X; cbn in X.
      + destruct (X u v H) as [w Hw]. eapply leaf_from; exact Hw.
      + destruct (X m Hi) as (o' & l & -> & G).
        apply union_from. inversion H as [o0 t0 v0 S _ E1 E0]. subst. inversion S as [l0 u v1 A E1 E2| | | | | |]. subst. eapply G; exact A.
      + destruct X as [X Xe]. apply list_from. intros v Hi. apply element_from; [exact Xe|]. exact (sound_from g v (IH v Hi) X).
      + destruct X as [X Xe]. apply dict_from. intros y v Hi. apply element_from; [exact Xe|]. destruct (IH y v Hi) as [S _]. exact (sound_from g v S X).
      + apply model_from. exact (model_loop_from c' m H).
      + destruct X.
      + destruct X.
    - destruct H as [c data IH _ _]. apply loop_intro. intros n f Hi. rewrite (plain_reading E HT c _ n f Hi).
      assert (CG : chain_get (MD [] data [] None) n = dget n data) by (unfold chain_get; cbn; now destruct (dget n data)).
      rewrite CG. destruct (sound_from _ _ (IH n f Hi) (HX c n f Hi)) as [[K _]|K]; [left|right]; exact K.
  Qed.
End A.

Lemma init_exports E j c d w m x : tidy_env E -> (forall c, e_issub E c c = true) -> exports_env x E -> (forall c, ~ unknown_role E c x) ->
  kw_validate w = false -> kw_mapping w = no_mapping -> kw_convert w = true ->
  model_init E (conv_at E j) c (VDict d) (VDict []) w = Ok m ->
  exists N, forall n, N <= n -> exists out, model_export_top E (export_at E n) c m x = Ok out.
Proof.
  intros HT Hr HX HR Hv Hm Hc H. eapply init_sound in H; eauto. exact (model_loop_from E x HT HX HR _ _ c m H).
Qed.
Lemma validate_exports E j c m w m' x : tidy_env E -> (forall c, e_issub E c c = true) -> exports_env x E -> (forall c, ~ unknown_role E c x) ->
  kw_mapping w = no_mapping -> kw_convert w = true ->
  defined_layers m -> NoDup (dkeys (md_converted m)) -> (md_converted m <> [] \/ kw_partial w = false) ->
  model_validate E (conv_at E j) c m w = (m', None) ->
  exists N, forall n, N <= n -> exists out, model_export_top E (export_at E n) c m' x = Ok out.
Proof.
  intros HT Hr HX HR Hm Hc Hd Hk Hrun H. apply (loop_intro E x HR c (VModel c m')). intros n f Hi.
  rewrite (plain_reading E HT c m' n f Hi).
  destruct (sound_from E x HT HX HR _ _ _ _ (validate_sound E j c m w m' HT Hr Hm Hc Hd Hk Hrun H n f Hi) (HX c n f Hi)) as [[K _]|K]; auto.
Qed.

Section L.
  Context (R : runtime).
  Lemma stamp_utc drop u v : dt_native R (timestamp_opts drop) u = Ok v -> exists d t, v = VDateTime d t None \/ v = VDateTime d t (Some 0%Z).
  Proof.
    assert (N : forall d t off y, normalize (timestamp_opts drop) d t off = Ok y -> exists d t, dt_val y = VDateTime d t None \/ dt_val y = VDateTime d t (Some 0%Z)).
    { intros d t off y. unfold normalize. cbn [timestamp_opts dt_convert dt_drop]. destruct (to_utc d t off) as [[d' t']|]; cbn [rbind]; [|discriminate].
      intros [= <-]. exists d', t'. destruct drop; cbn; auto. }
    intros H. destruct u; cbn [dt_native] in H;
      try (destruct (dt_read R _ _) as [[[d' t'] z']|]; cbn [rbind] in H; [|discriminate]; destruct z' as [off'|]; cbn [dt_parsed timestamp_opts dt_policy] in H;
           [|discriminate]; change (DtOpts Require_tz true drop PBuiltin) with (timestamp_opts drop) in H;
           destruct (normalize _ _ _ _) as [y|] eqn:Ny; cbn [rbind] in H; [|discriminate]; injection H as <-; eapply N; exact Ny).
    destruct off as [off|]; cbn [dt_given timestamp_opts dt_policy dt_drop] in H.
    - change (DtOpts Require_tz true drop PBuiltin) with (timestamp_opts drop) in H.
      destruct (normalize _ _ _ _) as [y|] eqn:Ny; cbn [rbind] in H; [|discriminate]. injection H as <-. eapply N; exact Ny.
    - destruct drop; cbn [rbind] in H; [|discriminate]. injection H as <-. exists d, t. now left.
  Qed.
  Lemma exporting_library x l : exporting_type R l -> leaf_exports x l.
  Proof.
    intros L u v H. unfold leaf_form. destruct (ec_fmt x).
    - exists v. destruct L; try (apply (basic_idempotent R _ u v); [constructor|exact H]).
      + eapply date_leaf_idem; [constructor|exact H].
      + eapply date_leaf_idem; [constructor|exact H].
      + eapply date_leaf_idem; [constructor|exact H].
      + eapply enum_idempotent; exact H.
      + apply (basic_idempotent R string_leaf u v); [constructor|exact H].
    - destruct L; cbn [lf_prim]; try (eexists; reflexivity).
      + destruct v; eexists; reflexivity.
      + destruct v; eexists; reflexivity.
      + apply date_range in H as [d ->]. eexists; reflexivity.
      + apply dt_range in H as (d & t & z & ->). eexists; reflexivity.
      + apply stamp_utc in H as (d & t & [-> | ->]); eexists; reflexivity.
      + destruct v; eexists; reflexivity.
      + apply string_range in H as [s ->]. eexists; reflexivity.
  Qed.
End L.
