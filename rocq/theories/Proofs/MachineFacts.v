(** The machine of contrib/machine.py. *)
From Verif.Model Require Import Py Core Export Api Functional Machine.
From Verif.Spec Require Import ImportSpec FunctionalSpec MachineSpec.
From Verif.Proofs Require Import DictLemmas ApiLemmas FunctionalExport.

Section Facts.
  Context {A : Type}.

  (** ** Any table *)

  Lemma find_from table trig s dst t : find_transition table trig (Some s) dst = Some t ->
    In t table /\ tr_from t = Some s /\ (forall b, dst = Some b -> tr_to t = b) /\ (forall n, trig = Some n -> tr_trigger t = n).
  Proof.
    intros H. apply find_some in H. destruct H as [Hin H]. apply andb_prop in H. destruct H as [H H3].
    apply andb_prop in H. destruct H as [H1 H2]. split; [exact Hin|]. cbn in H2.
    destruct (tr_from t) as [f|]; [|discriminate]. apply key_eqb_eq in H2. subst f. split; [reflexivity|]. split.
    - intros b ->. cbn in H3. now apply key_eqb_eq in H3.
    - intros n ->. cbn in H1. now apply key_eqb_eq in H1.
  Qed.

  Lemma can_iff table (m : machine A) b : machine_can table m (Some b) = true <-> leads table (ms_state m) b.
  Proof.
    unfold machine_can, leads. split.
    - destruct (find_transition table None (Some (ms_state m)) (Some b)) as [t|] eqn:F; [|discriminate]. intros _.
      apply find_from in F. destruct F as (H1 & H2 & H3 & _). exists t. auto.
    - intros (t & Hin & Hf & Ht). destruct (find_transition table None (Some (ms_state m)) (Some b)) as [t'|] eqn:F; [reflexivity|].
      exfalso. unfold find_transition in F. apply (find_none _ _ F) in Hin. rewrite Hf in Hin. cbn in Hin.
      rewrite Ht, !key_eqb_refl in Hin. discriminate.
  Qed.

  Lemma can_any table (m : machine A) : machine_can table m None = true <-> exists b, leads table (ms_state m) b.
  Proof.
    unfold machine_can. split.
    - destruct (find_transition table None (Some (ms_state m)) None) as [t|] eqn:F; [|discriminate]. intros _.
      apply find_from in F. destruct F as (H1 & H2 & _ & _). exists (tr_to t), t. auto.
    - intros (b & t & Hin & Hf & Ht). destruct (find_transition table None (Some (ms_state m)) None) as [t'|] eqn:F; [reflexivity|].
      exfalso. unfold find_transition in F. apply (find_none _ _ F) in Hin. rewrite Hf in Hin. cbn in Hin.
      rewrite !key_eqb_refl in Hin. discriminate.
  Qed.

  Lemma trigger_ok table cbs (m m' : machine A) name : machine_trigger table cbs m name = (m', None) ->
    leads table (ms_state m) (ms_state m') /\
    match name with
    | Some n => match dget n cbs with Some cb => snd (cb (ms_data m)) = Ok (ms_data m') | None => ms_data m' = ms_data m end
    | None => ms_data m' = ms_data m
    end.
  Proof.
    unfold machine_trigger. destruct (find_transition table name (Some (ms_state m)) None) as [t|] eqn:F; [|discriminate].
    apply find_from in F. destruct F as (H1 & H2 & _ & _).
    assert (L : leads table (ms_state m) (tr_to t)) by (exists t; auto).
    destruct name as [n|].
    - destruct (dget n cbs) as [cb|].
      + destruct (cb (ms_data m)) as [d [d'|e]] eqn:C; [|discriminate]. intros [= <-]. cbn [ms_state ms_data]. now split.
      + intros [= <-]. now split.
    - intros [= <-]. now split.
  Qed.

  Lemma trigger_fails table cbs (m m' : machine A) name e : machine_trigger table cbs m name = (m', Some e) ->
    ms_state m' = ms_state m /\
    (e = XPy EAttributeError /\ m' = m \/
     exists n cb, name = Some n /\ dget n cbs = Some cb /\ cb (ms_data m) = (ms_data m', Raise e)).
  Proof.
    unfold machine_trigger. destruct (find_transition table name (Some (ms_state m)) None) as [t|] eqn:F.
    2:{ intros [= <- <-]. split; [reflexivity|]. now left. }
    destruct name as [n|]; [|discriminate]. destruct (dget n cbs) as [cb|] eqn:G; [|discriminate].
    destruct (cb (ms_data m)) as [d [d'|e']] eqn:C; [discriminate|]. intros [= <- <-]. split; [reflexivity|].
    right. exists n, cb. auto.
  Qed.

  (** Without an entry for it in the present state, a trigger is an AttributeError. *)
  Lemma trigger_unknown table cbs (m : machine A) n :
    (forall t, In t table -> tr_trigger t = n -> tr_from t <> Some (ms_state m)) ->
    machine_trigger table cbs m (Some n) = (m, Some (XPy EAttributeError)).
  Proof.
    intros H. unfold machine_trigger.
    destruct (find_transition table (Some n) (Some (ms_state m)) None) as [t|] eqn:F; [|reflexivity].
    apply find_from in F. destruct F as (H1 & H2 & _ & H4). exfalso. now apply (H t H1 (H4 n eq_refl)).
  Qed.

  (** ** The table of the class *)

  Lemma standard_trigger cbs (m : machine A) n i : nth_error states i = Some (ms_state m) ->
    forall m', machine_trigger machine_table cbs m (Some n) = (m', None) ->
    nth_error steps i = Some n /\ nth_error states (S i) = Some (ms_state m').
  Proof.
    intros Hi m' H. unfold machine_trigger in H.
    destruct (find_transition machine_table (Some n) (Some (ms_state m)) None) as [t|] eqn:F; [|discriminate].
    apply find_from in F. destruct F as (H1 & H2 & _ & H4). specialize (H4 n eq_refl).
    assert (Hto : ms_state m' = tr_to t).
    { destruct (dget n cbs) as [cb|]; [|now injection H as <-].
      destruct (cb (ms_data m)) as [d [d'|e]]; [|discriminate]. now injection H as <-. }
    rewrite Hto. cbn in H1. destruct H1 as [<-|[<-|[<-|[<-|[]]]]]; cbn in H2, H4 |- *; try discriminate H2;
      injection H2 as H2; rewrite <- H2 in Hi; clear H; subst n;
      destruct i as [|[|[|[|i]]]]; cbn in Hi; try discriminate Hi; try (now split); destruct i; discriminate Hi.
  Qed.

  Lemma standard_calls cbs (m : machine A) ns m' l : calls machine_table cbs m ns m' l ->
    forall i, nth_error states i = Some (ms_state m) ->
    l = firstn (length l) (skipn i steps) /\ nth_error states (i + length l) = Some (ms_state m').
  Proof.
    induction 1 as [m|m n m1 ns m2 l H K IH|m n m1 e ns m2 l H K IH]; intros i Hi.
    - rewrite Nat.add_0_r. now split.
    - destruct (standard_trigger cbs m n i Hi m1 H) as [S1 S2]. destruct (IH (S i) S2) as [L1 L2]. split.
      + cbn [length]. assert (Sk : skipn i steps = n :: skipn (S i) steps).
        { clear -S1. revert S1. generalize steps as s. induction i as [|i IH]; intros [|a s] S1; try discriminate S1.
          - cbn in S1. now injection S1 as ->.
          - cbn in S1. cbn [skipn]. now apply IH. }
        rewrite Sk. cbn [firstn]. now f_equal.
      + cbn [length]. now rewrite Nat.add_succ_r.
    - destruct (trigger_fails _ _ _ _ _ _ H) as [Hs _]. apply IH. now rewrite Hs.
  Qed.

  Lemma standard_order cbs (d : A) m ns m' l : machine_new machine_table d = Ok m -> calls machine_table cbs m ns m' l ->
    l = firstn (length l) steps /\ nth_error states (length l) = Some (ms_state m').
  Proof. intros H K. injection H as <-. now apply (standard_calls cbs _ ns m' l K 0). Qed.

  Lemma calls_made table cbs (m : machine A) ns m' l : tidy cbs -> calls table cbs m ns m' l ->
    made cbs (ms_data m) l (ms_data m').
  Proof.
    intros T. induction 1 as [m|m n m1 ns m2 l H K IH|m n m1 e ns m2 l H K IH].
    - constructor.
    - apply trigger_ok in H. destruct H as [_ H]. destruct (dget n cbs) as [cb|] eqn:G.
      + eapply mk_step; eauto.
      + apply mk_skip; [exact G|]. now rewrite <- H.
    - apply trigger_fails in H. destruct H as (_ & [(_ & ->)|(n' & cb & [= <-] & G & C)]); [exact IH|].
      apply dget_In in G. specialize (T n cb (ms_data m) G). rewrite C in T. cbn in T. now rewrite <- T.
  Qed.
End Facts.

(** ** With the callbacks of the class *)

Lemma callbacks_tidy E n c : no_setters (mc_fields (e_class E c)) ->
  forall name cb d, In (name, cb) (machine_callbacks E n c) -> NoDup (dkeys d) -> fst (cb (VDict d)) = VDict d.
Proof.
  intros Hs name cb d H Hd. unfold machine_callbacks in H.
  destruct H as [H|[H|[H|[]]]]; apply pair_equal_spec in H; destruct H as [_ <-].
  - exact (proj1 (fn_convert_leaves E (conv_at E n) c (VDict d) VNone VNone kw_machine_convert)).
  - exact (proj1 (fn_validate_leaves E (conv_at E n) c d VNone kw_machine_validate Hs Hd)).
  - reflexivity.
Qed.

Lemma machine_pipeline E n c (d : pyval) m ns m' l :
  machine_new machine_table d = Ok m -> calls machine_table (machine_callbacks E n c) m ns m' l ->
  ms_state m' = k "serialized" -> l = steps.
Proof.
  intros H K S. destruct (standard_order _ d m ns m' l H K) as [L1 L2]. rewrite S in L2.
  destruct (length l) as [|[|[|[|j]]]] eqn:Hl; cbn in L2; try discriminate L2.
  - rewrite L1. reflexivity.
  - destruct j; discriminate L2.
Qed.

(** Three steps without failure. *)
Lemma machine_through E n c d m1 m2 m3 :
  machine_trigger machine_table (machine_callbacks E n c) (Mach (k "raw") d) (Some (k "convert")) = (m1, None) ->
  machine_trigger machine_table (machine_callbacks E n c) m1 (Some (k "validate")) = (m2, None) ->
  machine_trigger machine_table (machine_callbacks E n c) m2 (Some (k "serialize")) = (m3, None) ->
  exists d1 d2 d3, lo_res (fn_convert E (conv_at E n) c d VNone VNone kw_machine_convert) = Ok d1 /\
    lo_res (fn_validate E (conv_at E n) c (VDict d1) VNone VNone kw_machine_validate) = Ok d2 /\
    fn_export E (export_at E n) machine_ectx c (VDict d2) = Ok d3 /\ m3 = Mach (k "serialized") (VDict d3).
Proof.
  intros H1 H2 H3.
  pose proof (standard_trigger _ (Mach (k "raw") d) _ 0 eq_refl _ H1) as [_ S1].
  pose proof (standard_trigger _ _ _ 1 S1 _ H2) as [_ S2].
  pose proof (standard_trigger _ _ _ 2 S2 _ H3) as [_ S3].
  apply trigger_ok in H1, H2, H3. destruct H1 as [_ H1], H2 as [_ H2], H3 as [_ H3].
  change (as_dict (lo_res (fn_convert E (conv_at E n) c d VNone VNone kw_machine_convert)) = Ok (ms_data m1)) in H1.
  change (as_dict (lo_res (fn_validate E (conv_at E n) c (ms_data m1) VNone VNone kw_machine_validate)) = Ok (ms_data m2)) in H2.
  change (as_dict (fn_export E (export_at E n) machine_ectx c (ms_data m2)) = Ok (ms_data m3)) in H3.
  destruct (lo_res (fn_convert E (conv_at E n) c d VNone VNone kw_machine_convert)) as [d1|] eqn:C1; [|discriminate].
  cbn [as_dict rbind] in H1. injection H1 as H1. rewrite <- H1 in H2.
  destruct (lo_res (fn_validate E (conv_at E n) c (VDict d1) VNone VNone kw_machine_validate)) as [d2|] eqn:C2; [|discriminate].
  cbn [as_dict rbind] in H2. injection H2 as H2. rewrite <- H2 in H3.
  destruct (fn_export E (export_at E n) machine_ectx c (VDict d2)) as [d3|] eqn:C3; [|discriminate].
  cbn [as_dict rbind] in H3. injection H3 as H3. exists d1, d2, d3. repeat split; auto.
  destruct m3 as [s3 t3]. cbn in S3, H3. injection S3 as <-. now rewrite <- H3.
Qed.

Lemma cannot_iff {A} table (m : machine A) b : machine_cannot table m b = true <-> machine_can table m b <> true.
Proof. unfold machine_cannot. now destruct (machine_can table m b). Qed.

(** Keys of an imported dictionary are distinct. *)
Lemma import_field_distinct E fc x got raw n f data errs data' errs' :
  import_field E fc x got raw n f (data, errs) = Ok (data', errs') -> NoDup (dkeys data) -> NoDup (dkeys data').
Proof.
  unfold import_field. intros H N. revert H.
  match goal with |- rbind ?a _ = _ -> _ => destruct a as [v1|]; cbn [rbind]; [|discriminate] end.
  destruct (is_undef v1 && dmem n data); [intros [= <- _]; exact N|].
  set (v3 := if is_undef _ && cx_init_values x then _ else _). clearbody v3. destruct got.
  - destruct (fc (fd_spec f) v3 (field_ctx E x n (fd_spec f))) as [w|e].
    + destruct (is_undef w); intros [= <- _]; [exact N|now apply NoDup_dset].
    + destruct (caught_by_loop e); [|discriminate]. intros [= <- _].
      set (b := cx_apply_defaults x && _). clearbody b.
      destruct e, b; repeat apply NoDup_dset; exact N.
  - destruct (is_undef v3); intros [= <- _]; [exact N|now apply NoDup_dset].
Qed.
Lemma import_fields_distinct E fc x got raw fs : forall data errs data' errs',
  import_fields E fc x got raw fs (data, errs) = Ok (data', errs') -> NoDup (dkeys data) -> NoDup (dkeys data').
Proof.
  induction fs as [|[n f] r IH]; intros data errs data' errs'; cbn [import_fields]; [now intros [= -> ->]|].
  destruct (negb (cx_validate x) && has_setter f); [apply IH|].
  destruct (import_field E fc x got raw n f (data, errs)) as [[d1 e1]|] eqn:F; cbn [rbind]; [|discriminate].
  intros H N. apply (IH _ _ _ _ H). now apply (import_field_distinct _ _ _ _ _ _ _ _ _ _ _ F).
Qed.
Lemma rbind_inv {A B} (a : res A) (f : A -> res B) b : rbind a f = Ok b -> exists x, a = Ok x /\ f x = Ok b.
Proof. destruct a as [x|]; [eauto|discriminate]. Qed.
Lemma fn_convert_distinct E r c v w d : lo_res (fn_convert E r c v VNone VNone w) = Ok d -> NoDup (dkeys d).
Proof.
  unfold fn_convert, fn_raw, import_loop. cbn [is_none fn_ctx cx_trusted cx_validate truthy].
  rewrite andb_false_r. cbn [lo_res].
  intros H. apply rbind_inv in H. destruct H as (e1 & _ & H).
  apply rbind_inv in H. destruct H as ([d1 [|p e2]] & F & H); [|discriminate]. injection H as <-. apply copy_settable_NoDup.
  apply (import_fields_distinct _ _ _ _ _ _ _ _ _ _ F). constructor.
Qed.

(** What the data are in every state. *)
Lemma data_in_states E n c d m ns m' l :
  no_setters (mc_fields (e_class E c)) -> machine_new machine_table (VDict d) = Ok m ->
  calls machine_table (machine_callbacks E n c) m ns m' l ->
  let converted d1 := lo_res (fn_convert E (conv_at E n) c (VDict d) VNone VNone convert_args) = Ok d1 in
  let validated d1 d2 := lo_res (fn_validate E (conv_at E n) c (VDict d1) VNone VNone validate_args) = Ok d2 in
  m' = Mach (k "raw") (VDict d) \/
  (exists d1, m' = Mach (k "converted") (VDict d1) /\ converted d1) \/
  (exists d1 d2, m' = Mach (k "validated") (VDict d2) /\ converted d1 /\ validated d1 d2) \/
  (exists d1 d2 d3, m' = Mach (k "serialized") (VDict d3) /\ converted d1 /\ validated d1 d2 /\
     fn_export E (export_at E n) primitive_output c (VDict d2) = Ok d3).
Proof.
  intros Hs Hm Hc converted validated. injection Hm as <-.
  set (J := fun m' : machine pyval => m' = Mach (k "raw") (VDict d) \/
    (exists d1, m' = Mach (k "converted") (VDict d1) /\ converted d1) \/
    (exists d1 d2, m' = Mach (k "validated") (VDict d2) /\ converted d1 /\ validated d1 d2) \/
    (exists d1 d2 d3, m' = Mach (k "serialized") (VDict d3) /\ converted d1 /\ validated d1 d2 /\
       fn_export E (export_at E n) primitive_output c (VDict d2) = Ok d3)).
  change (J m'). assert (J0 : J (Mach (k "raw") (VDict d))) by now left.
  assert (step : forall q t q' o, J q -> machine_trigger machine_table (machine_callbacks E n c) q (Some t) = (q', o) -> J q').
  { intros q t q' [e|] Jq T.
    - (* a failure leaves the machine *)
      pose proof (trigger_fails _ _ _ _ _ _ T) as (St & [(_ & ->)|(t' & cb & [= <-] & G & C)]); [exact Jq|].
      assert (X : ms_data q' = ms_data q); [|destruct q, q'; cbn in St, X; now subst].
      apply dget_In in G. assert (H : fst (cb (ms_data q)) = ms_data q'); [now rewrite C|]. clear C.
      destruct Jq as [->|[(d1 & -> & C1)|[(d1 & d2 & -> & _)|(d1 & d2 & d3 & -> & _)]]]; cbn [ms_data] in *.
      + destruct G as [G|[G|[G|[]]]]; apply pair_equal_spec in G; destruct G as [<- <-].
        * rewrite <- H. exact (proj1 (fn_convert_leaves E (conv_at E n) c (VDict d) VNone VNone kw_machine_convert)).
        * change ((Mach (k "raw") (VDict d), Some (XPy EAttributeError)) = (q', Some e)) in T. now injection T as <- _.
        * now rewrite <- H.
      + rewrite <- H. apply (callbacks_tidy E n c Hs t); [exact G|]. exact (fn_convert_distinct _ _ _ _ _ _ C1).
      + destruct G as [G|[G|[G|[]]]]; apply pair_equal_spec in G; destruct G as [<- <-]; [| |now rewrite <- H];
          change ((Mach (k "validated") (VDict d2), Some (XPy EAttributeError)) = (q', Some e)) in T; now injection T as <- _.
      + destruct G as [G|[G|[G|[]]]]; apply pair_equal_spec in G; destruct G as [<- <-]; [| |now rewrite <- H];
          change ((Mach (k "serialized") (VDict d3), Some (XPy EAttributeError)) = (q', Some e)) in T; now injection T as <- _.
    - pose proof (trigger_ok _ _ _ _ _ T) as [_ D].
      destruct Jq as [->|[(d1 & -> & C1)|[(d1 & d2 & -> & C1 & C2)|(d1 & d2 & d3 & -> & C1 & C2 & C3)]]].
      + destruct (standard_trigger _ (Mach (k "raw") (VDict d)) _ 0 eq_refl _ T) as [X [= S]]. injection X as <-.
        change (as_dict (lo_res (fn_convert E (conv_at E n) c (VDict d) VNone VNone kw_machine_convert)) = Ok (ms_data q')) in D.
        right. left. destruct (lo_res (fn_convert E (conv_at E n) c (VDict d) VNone VNone kw_machine_convert)) as [d1|] eqn:C; [|discriminate].
        cbn in D. injection D as D. exists d1. split; [destruct q'; cbn in *; congruence|exact C].
      + destruct (standard_trigger _ (Mach (k "converted") (VDict d1)) _ 1 eq_refl _ T) as [X [= S]]. injection X as <-.
        change (as_dict (lo_res (fn_validate E (conv_at E n) c (VDict d1) VNone VNone kw_machine_validate)) = Ok (ms_data q')) in D.
        right. right. left. destruct (lo_res (fn_validate E (conv_at E n) c (VDict d1) VNone VNone kw_machine_validate)) as [d2|] eqn:C; [|discriminate].
        cbn in D. injection D as D. exists d1, d2. split; [destruct q'; cbn in *; congruence|]. split; [exact C1|exact C].
      + destruct (standard_trigger _ (Mach (k "validated") (VDict d2)) _ 2 eq_refl _ T) as [X [= S]]. injection X as <-.
        change (as_dict (fn_export E (export_at E n) machine_ectx c (VDict d2)) = Ok (ms_data q')) in D.
        right. right. right. destruct (fn_export E (export_at E n) machine_ectx c (VDict d2)) as [d3|] eqn:C; [|discriminate].
        cbn in D. injection D as D. exists d1, d2, d3. split; [destruct q'; cbn in *; congruence|]. split; [exact C1|]. split; [exact C2|exact C].
      + destruct (standard_trigger _ (Mach (k "serialized") (VDict d3)) _ 3 eq_refl _ T) as [S _]. discriminate S. }
  clearbody J. clear converted validated. remember (Mach (k "raw") (VDict d)) as m0. clear Heqm0.
  induction Hc as [m|m t m1 ns m2 l T K IH|m t m1 e ns m2 l T K IH]; [exact J0| |]; apply IH; eapply step; eassumption.
Qed.

Lemma machine_starts : forall A table (d : A),
  (forall t, find_transition table (Some (k "init")) None None = Some t -> machine_new table d = Ok (Mach (tr_to t) d)) /\
  ((forall t, In t table -> tr_trigger t <> k "init") -> machine_new table d = Raise (XPy ETypeError)).
Proof.
  intros A table d. unfold machine_new. split.
  - intros t ->. reflexivity.
  - intros H. destruct (find_transition table (Some (k "init")) None None) as [t|] eqn:Q; [|reflexivity].
    unfold find_transition in Q. apply find_some in Q. destruct Q as [Hi Q]. apply andb_prop in Q. destruct Q as [Q _].
    apply andb_prop in Q. destruct Q as [Q _]. cbn in Q. now apply key_eqb_eq in Q; elim (H t Hi).
Qed.
