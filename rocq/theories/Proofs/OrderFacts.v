(** Import and validation do not look at the order of dictionaries: the parts. *)
From Verif.Model Require Import Py Core Api.
From Verif.Spec Require Import OrderSpec.
From Verif.Proofs Require Import DictLemmas.

(** ** Entries *)
Section Entries.
  Context {A : Type} (R : A -> A -> Prop).
  Implicit Types d e : list (key * A).

  Lemma entries_nil : entries R [] [].
  Proof. split; [constructor|split; [constructor|]]. intros x. constructor. Qed.
  Lemma entries_get d e x : entries R d e -> both R (dget x d) (dget x e).
  Proof. intros (_ & _ & H). apply H. Qed.
  Lemma entries_dset d e x v w : entries R d e -> R v w -> entries R (dset x v d) (dset x w e).
  Proof.
    intros (N1 & N2 & H) HR. split; [now apply NoDup_dset|split; [now apply NoDup_dset|]].
    intros y. rewrite !dget_dset. destruct (key_eqb y x); [now constructor|apply H].
  Qed.
  Lemma entries_ddel d e x : entries R d e -> entries R (ddel x d) (ddel x e).
  Proof.
    intros (N1 & N2 & H). split; [now apply NoDup_ddel|split; [now apply NoDup_ddel|]].
    intros y. rewrite !dget_ddel by assumption. destruct (key_eqb y x); [constructor|apply H].
  Qed.
  Lemma entries_dupdate d e d' e' : entries R d e -> entries R d' e' -> entries R (dupdate d d') (dupdate e e').
  Proof.
    intros (N1 & N2 & H) (M1 & M2 & H'). split; [now apply NoDup_dupdate|split; [now apply NoDup_dupdate|]].
    intros y. rewrite !dget_dupdate by assumption. destruct (H' y); [apply H|now constructor].
  Qed.
  Lemma entries_mem d e x : entries R d e -> dmem x d = dmem x e.
  Proof. intros (_ & _ & H). unfold dmem. now destruct (H x). Qed.
  Lemma entries_keys d e x : entries R d e -> (In x (dkeys d) <-> In x (dkeys e)).
  Proof. intros H. rewrite <- !dmem_In. now rewrite (entries_mem d e x H). Qed.
  Lemma entries_empty d e : entries R d e -> d = [] <-> e = [].
  Proof.
    intros (_ & _ & H). split; intros ->.
    - destruct e as [|[y w] e]; [reflexivity|]. specialize (H y). cbn in H. rewrite key_eqb_refl in H. inversion H.
    - destruct d as [|[y w] d]; [reflexivity|]. specialize (H y). cbn in H. rewrite key_eqb_refl in H. inversion H.
  Qed.
  Lemma entries_nonempty d e : entries R d e -> nonempty d = nonempty e.
  Proof.
    intros H. apply entries_empty in H. destruct d, e; cbn; try reflexivity.
    - destruct H as [H _]. now specialize (H eq_refl).
    - destruct H as [_ H]. now specialize (H eq_refl).
  Qed.
  Lemma entries_In d e : NoDup (dkeys d) -> NoDup (dkeys e) ->
    (forall x v, In (x, v) d -> exists w, In (x, w) e /\ R v w) ->
    (forall x w, In (x, w) e -> exists v, In (x, v) d) -> entries R d e.
  Proof.
    intros N1 N2 H1 H2. split; [assumption|split; [assumption|]]. intros x.
    destruct (dget x d) as [v|] eqn:G.
    - apply dget_In in G. destruct (H1 x v G) as (w & Hw & HR). rewrite (In_dget x w e N2 Hw). now constructor.
    - destruct (dget x e) as [w|] eqn:G'; [|constructor]. apply dget_In in G'.
      destruct (H2 x w G') as (v & Hv). rewrite (In_dget x v d N1 Hv) in G. discriminate.
  Qed.
  Lemma entries_In_l d e x v : entries R d e -> In (x, v) d -> exists w, In (x, w) e /\ R v w.
  Proof.
    intros (N1 & N2 & H) Hi. specialize (H x). rewrite (In_dget x v d N1 Hi) in H.
    inversion H as [|a b HR Q1 Q2]; subst. exists b. split; [|assumption]. now apply dget_In.
  Qed.
  Lemma entries_In_r d e x w : entries R d e -> In (x, w) e -> exists v, In (x, v) d /\ R v w.
  Proof.
    intros (N1 & N2 & H) Hi. specialize (H x). rewrite (In_dget x w e N2 Hi) in H.
    inversion H as [|a b HR Q1 Q2]; subst. exists a. split; [|assumption]. now apply dget_In.
  Qed.
  Lemma entries_pointwise d e : NoDup (dkeys d) -> Forall2 (fun p q => fst p = fst q /\ R (snd p) (snd q)) d e ->
    entries R d e.
  Proof.
    intros N F. assert (dkeys d = dkeys e) as Q.
    { clear N. unfold dkeys. induction F as [|p q d e [H _] F IH]; cbn; congruence. }
    apply entries_In; [assumption|congruence| |].
    - clear N Q. intros x v. induction F as [|[y a] [z b] d e [Hy HR] F IH]; cbn in *; [tauto|].
      intros [[= -> ->]|Hi]; [subst z; eauto|]. destruct (IH Hi) as (w & Hw & H). eauto.
    - clear N Q. intros x w. induction F as [|[y a] [z b] d e [Hy HR] F IH]; cbn in *; [tauto|].
      intros [[= -> ->]|Hi]; [subst y; eauto|]. destruct (IH Hi) as (v & Hv). eauto.
  Qed.
End Entries.

Section Facts.
  Context (K : key -> Prop).
  Local Notation alike := (alike K).
  Local Notation keyed := (keyed K).
  Local Notation alike_exn := (alike_exn K).
  Local Notation alike_res := (alike_res K).

  Lemma keyed_entries {A} (R : A -> A -> Prop) d e : keyed R d e -> entries R d e.
  Proof. intros [_ H]. exact H. Qed.
  Lemma keyed_nil {A} (R : A -> A -> Prop) : keyed R [] [].
  Proof. split; [intros x []|apply entries_nil]. Qed.
  Lemma keyed_dset {A} (R : A -> A -> Prop) d e x v w : K x -> keyed R d e -> R v w -> keyed R (dset x v d) (dset x w e).
  Proof.
    intros Hx [HK H] HR. split; [|now apply entries_dset].
    intros y. rewrite dkeys_dset_in. intros [->|Hy]; auto.
  Qed.
  Lemma keyed_ddel {A} (R : A -> A -> Prop) d e x : keyed R d e -> keyed R (ddel x d) (ddel x e).
  Proof.
    intros [HK H]. split; [|now apply entries_ddel]. intros y Hy. apply HK. eapply dkeys_ddel_in, Hy.
  Qed.
  Lemma keyed_dupdate {A} (R : A -> A -> Prop) d e d' e' : keyed R d e -> keyed R d' e' -> keyed R (dupdate d d') (dupdate e e').
  Proof.
    intros [HK H] [HK' H']. split; [|now apply entries_dupdate].
    intros y. rewrite dkeys_dupdate_in. intros [Hy|Hy]; auto.
  Qed.

  Lemma alike_undef v w : alike v w -> is_undef v = is_undef w.
  Proof. intros []; reflexivity. Qed.
  Lemma alike_none v w : alike v w -> is_none v = is_none w.
  Proof. intros []; reflexivity. Qed.
  Lemma alike_nil v w : alike v w -> is_nil v = is_nil w.
  Proof. intros []; reflexivity. Qed.
  Lemma alike_truthy v w : alike v w -> truthy v = truthy w.
  Proof.
    intros [u H|l m F|l m F|d e H|c m n H1 H2 H3 H4]; cbn; try reflexivity.
    - now destruct F.
    - now destruct F.
    - apply entries_nonempty with (R := alike), keyed_entries, H.
    - now rewrite (entries_nonempty alike _ _ (keyed_entries _ _ _ H1)), (entries_nonempty alike _ _ (keyed_entries _ _ _ H2)),
        (entries_nonempty alike _ _ (keyed_entries _ _ _ H3)).
  Qed.

  Lemma res_bind {A B} (R : A -> A -> Prop) (S : B -> B -> Prop) r s f g : alike_res R r s ->
    (forall a b, R a b -> alike_res S (f a) (g b)) -> alike_res S (rbind r f) (rbind s g).
  Proof. intros [a b H|a b H] HF; cbn; [now apply HF|now constructor]. Qed.
  Lemma crash_same e : crash e -> alike_exn e e.
  Proof. intros H. now apply ax_crash. Qed.
  Lemma py_same e e' : alike_exn (XPy e) (XPy e').
  Proof. apply ax_crash; exact I. Qed.
  Lemma caught_same a b : alike_exn a b -> caught_by_loop a = caught_by_loop b.
  Proof.
    intros [ms|s ms|d e H|d e p q H H'|a' b' H H']; try reflexivity. destruct a', b'; cbn in *; tauto.
  Qed.
  Lemma err_node_same a b : alike_exn a b -> caught_by_loop a = true -> alike_err (err_node a) (err_node b).
  Proof.
    intros [ms|s ms|d e H|d e p q H H'|a' b' H H'] C; cbn; try constructor; try assumption.
    destruct a'; cbn in *; try tauto; discriminate.
  Qed.

  Context (E : env) (HE : blind_env K E).

  Lemma fields_In c n f : dget n (mc_fields (e_class E c)) = Some f -> In (n, f) (mc_fields (e_class E c)).
  Proof. apply dget_In. Qed.

  Section Data.
    Context (c : cid) (m n : mdata pyval).
    Context (H1 : keyed alike (md_unsafe m) (md_unsafe n)) (H2 : keyed alike (md_converted m) (md_converted n))
            (H3 : keyed alike (md_valid m) (md_valid n)) (H4 : both (keyed alike) (md_hidden m) (md_hidden n)).

    Lemma chain_get_same x : both alike (chain_get m x) (chain_get n x).
    Proof using H1 H2 H3.
      unfold chain_get.
      destruct (entries_get _ _ _ x (keyed_entries _ _ _ H1)); [|now constructor].
      destruct (entries_get _ _ _ x (keyed_entries _ _ _ H2)); [|now constructor].
      apply entries_get, keyed_entries, H3.
    Qed.
    Lemma chain_mem_same x : chain_mem m x = chain_mem n x.
    Proof using H1 H2 H3. unfold chain_mem. now destruct (chain_get_same x). Qed.
    Lemma model_same : alike (VModel c m) (VModel c n).
    Proof using H1 H2 H3 H4. now constructor. Qed.
    Lemma field_get_same x f : In (x, f) (mc_fields (e_class E c)) ->
      alike_res alike (field_get c m x f) (field_get c n x f).
    Proof using HE H1 H2 H3 H4.
      intros Hi. unfold field_get. destruct (fd_get f) as [g|] eqn:G.
      - destruct (bc_getters _ _ (HE c) x f g Hi G _ _ model_same) as [a b Hab|a b Hab]; [|now constructor].
        rewrite <- (alike_undef _ _ Hab). destruct (is_undef a); constructor; [apply py_same|assumption].
      - destruct (chain_get_same x) as [|a b Hab]; [constructor; apply py_same|].
        rewrite <- (alike_undef _ _ Hab). destruct (is_undef a); constructor; [apply py_same|assumption].
    Qed.
    Lemma model_getitem_same x : alike_res alike (model_getitem E c m x) (model_getitem E c n x).
    Proof using HE H1 H2 H3 H4.
      unfold model_getitem. destruct (dget x (mc_fields (e_class E c))) as [f|] eqn:G.
      - apply field_get_same. now apply dget_In.
      - constructor. apply py_same.
    Qed.
    Lemma model_iter_same : model_iter E c m = model_iter E c n.
    Proof using H1 H2 H3.
      unfold model_iter. f_equal. apply filter_ext. intros p. now rewrite chain_mem_same.
    Qed.
    Lemma model_contains_same x : model_contains E c m x = model_contains E c n x.
    Proof using HE H1 H2 H3 H4.
      unfold model_contains. rewrite chain_mem_same. f_equal. f_equal. now destruct (model_getitem_same x).
    Qed.
  End Data.

  Lemma getitem_same v w x : alike v w -> alike_res alike (py_getitem E v x) (py_getitem E w x).
  Proof using HE.
    intros [u H|l m F|l m F|d e H|c m n H1 H2 H3 H4]; cbn; try (constructor; apply py_same).
    - destruct u; cbn in *; try discriminate; constructor; apply py_same.
    - destruct (entries_get _ _ _ x (keyed_entries _ _ _ H)); constructor; [apply py_same|assumption].
    - now apply model_getitem_same.
  Qed.
  Lemma contains_same v w x : alike v w -> py_contains E v x = py_contains E w x.
  Proof using HE.
    intros [u H|l m F|l m F|d e H|c m n H1 H2 H3 H4]; cbn; try reflexivity.
    - apply entries_mem with (R := alike), keyed_entries, H.
    - now apply model_contains_same.
  Qed.
  Lemma atom_value_same v w x : alike v w -> alike (atom_value E v x) (atom_value E w x).
  Proof using HE.
    intros H. unfold atom_value. destruct (getitem_same v w x H); [assumption|]. now constructor.
  Qed.

  Lemma items_same v w ks : alike v w ->
    alike_res (fun d e => dkeys d = ks /\ Forall2 (fun p q => fst p = fst q /\ alike (snd p) (snd q)) d e) (py_items E v ks) (py_items E w ks).
  Proof using HE.
    intros H. induction ks as [|x ks IH]; cbn; [constructor; split; [reflexivity|constructor]|].
    eapply res_bind; [apply getitem_same, H|]. intros a b Hab. eapply res_bind; [exact IH|].
    intros d e [Hk F]. constructor. split; [unfold dkeys in *; cbn; congruence|]. constructor; [|assumption]. cbn. auto.
  Qed.
  Lemma model_iter_NoDup c m : NoDup (model_iter E c m).
  Proof using HE.
    unfold model_iter. pose proof (bc_names _ _ (HE c)) as N. revert N. unfold dkeys.
    induction (mc_fields (e_class E c)) as [|p l IH]; cbn; [constructor|].
    intros N. inversion N as [|? ? N1 N2]; subst. destruct (chain_mem m (fst p) && _); cbn; [|auto].
    constructor; [|auto]. intros Hi. apply N1. apply in_map_iff in Hi. destruct Hi as (q & <- & Hq).
    apply filter_In in Hq. now apply in_map.
  Qed.
  Lemma model_iter_In c m x : In x (model_iter E c m) -> exists f, In (x, f) (mc_fields (e_class E c)).
  Proof.
    unfold model_iter. intros H. apply in_map_iff in H. destruct H as ([y f] & <- & Hq). apply filter_In in Hq.
    exists f. apply Hq.
  Qed.
  Lemma dict_same v w : alike v w -> alike_res (keyed alike) (py_dict E v) (py_dict E w).
  Proof using HE.
    intros H. destruct H as [u H|l m F|l m F|d e H|c m n H1 H2 H3 H4]; cbn.
    - destruct u; cbn in *; try discriminate; constructor; apply py_same.
    - constructor; apply py_same.
    - constructor; apply py_same.
    - constructor. assumption.
    - rewrite <- (model_iter_same c m n H1 H2 H3).
      assert (alike (VModel c m) (VModel c n)) as H by now constructor.
      destruct (items_same _ _ (model_iter E c m) H) as [d e [Hk F]|a b Hab]; [|now constructor].
      constructor. split.
      + intros x Hx. rewrite Hk in Hx. destruct (model_iter_In c m x Hx) as (f & Hf). eapply bc_keys; [apply HE|exact Hf].
      + apply entries_pointwise; [|assumption]. rewrite Hk. apply model_iter_NoDup.
  Qed.
  Lemma keys_same v w : alike v w -> alike_res (fun l m => NoDup l /\ NoDup m /\ forall x, In x l <-> In x m) (py_keys E v) (py_keys E w).
  Proof using HE.
    intros [u H|l m F|l m F|d e H|c m n H1 H2 H3 H4]; cbn.
    - destruct u; cbn in *; try discriminate; constructor; apply py_same.
    - constructor; apply py_same.
    - constructor; apply py_same.
    - constructor. destruct H as [_ H]. split; [apply H|split; [apply H|]]. intros x. eapply entries_keys, H.
    - rewrite <- (model_iter_same c m n H1 H2 H3). constructor. split; [|split]; try apply model_iter_NoDup. tauto.
  Qed.

  (** ** Field validators, contexts *)
  Lemma run_validators_same vs v w acc : Forall (blind_validator K) vs -> alike v w ->
    alike_res eq (run_validators vs v acc) (run_validators vs w acc).
  Proof.
    intros F H. revert acc. induction F as [|f vs Hf F IH]; intros acc; cbn; [now constructor|].
    destruct (Hf v w H) as [|a b Hab]; [apply IH|].
    destruct Hab as [ms|s ms|d e Q|d e p q Q Q'|a b Q Q']; try (constructor; now constructor).
    - destruct s; [now constructor|apply IH].
    - destruct a, b; cbn in *; try tauto; constructor; now apply ax_crash.
  Qed.
  Lemma validators_result_same vs v w : Forall (blind_validator K) vs -> alike v w ->
    alike_res alike (validators_result vs v) (validators_result vs w).
  Proof.
    intros F H. unfold validators_result. destruct (run_validators_same vs v w [] F H) as [a b <-|a b Hab].
    - destruct a; constructor; [assumption|constructor].
    - now constructor.
  Qed.

  Lemma nested_td_same x t n : K n -> alike (cx_trusted x) t ->
    alike (nested_td E x n) (nested_td E (branch x t None) n).
  Proof using HE.
    intros Hn H. unfold nested_td. cbn [cx_trusted cx_recursive branch]. rewrite <- (alike_truthy _ _ H).
    destruct (truthy (cx_trusted x) && cx_recursive x); [|constructor; apply keyed_nil].
    set (a := match cx_trusted x with VDict d => _ | _ => _ end).
    set (b := match t with VDict d => _ | _ => _ end).
    assert (alike a b) as Hab.
    { subst a b. destruct H as [u H|l m F|l m F|d e H|c m m' H1 H2 H3 H4].
      - destruct u; cbn in *; try discriminate; now constructor.
      - now constructor.
      - now constructor.
      - destruct (entries_get _ _ _ n (keyed_entries _ _ _ H)); [now constructor|assumption].
      - assert (alike (VModel c m) (VModel c m')) as H by now constructor.
        destruct (getitem_same _ _ n H); [assumption|now constructor]. }
    clearbody a b. clear H.
    assert (alike (VDict [(n, a)]) (VDict [(n, b)])) as Hd.
    { constructor. split; [intros y [<-|[]]; exact Hn|]. change [(n, a)] with (dset n a []). change [(n, b)] with (dset n b []).
      apply entries_dset; [apply entries_nil|assumption]. }
    destruct Hab as [u H|l m F|l m F|d e H|c m m' H1 H2 H3 H4]; try assumption; [|now constructor|now constructor].
    destruct u; try assumption; discriminate.
  Qed.

  (** The context of a field. *)
  Lemma field_ctx_same x t n f : K n -> alike (cx_trusted x) t -> exists t',
    alike (cx_trusted (field_ctx E x n f)) t' /\ field_ctx E (branch x t None) n f = branch (field_ctx E x n f) t' None.
  Proof using HE.
    intros Hn H. unfold field_ctx. destruct (is_compound f).
    - exists (nested_td E (branch x t None) n). split; [now apply nested_td_same|].
      unfold nested_map. cbn [cx_mapping branch]. destruct (map_models (cx_mapping x)); [reflexivity|].
      unfold branch; cbn. now destruct (key_eqb n (fst p)).
    - exists t. auto.
  Qed.

  (** ** The import loop *)
  Definition fc_same (fc : fspec -> pyval -> ictx -> res pyval) : Prop := forall f v w x t,
    blind_field K f -> alike v w -> alike (cx_trusted x) t -> alike_res alike (fc f v x) (fc f w (branch x t None)).

  Definition state_same (s s' : list (key * pyval) * list (key * errnode)) : Prop :=
    keyed alike (fst s) (fst s') /\ entries alike_err (snd s) (snd s').

  Section Loop.
    Context (fc : fspec -> pyval -> ictx -> res pyval) (Hfc : fc_same fc).

    Lemma find_alt_same v w n ks : alike v w -> alike_res alike (find_alt E v n ks) (find_alt E w n ks).
    Proof using HE.
      intros H. induction ks as [|x ks IH]; cbn; [constructor; now constructor|].
      rewrite <- (contains_same v w x H). destruct (key_true x && _ && _); [now apply getitem_same|assumption].
    Qed.

    Lemma import_field_same x t got v w n f s s' : K n -> blind_field K (fd_spec f) -> alike (cx_trusted x) t ->
      alike v w -> state_same s s' ->
      alike_res state_same (import_field E fc x got v n f s) (import_field E fc (branch x t None) got w n f s').
    Proof using HE Hfc.
      intros Hn Hf Ht H. destruct s as [d e], s' as [d' e']. intros [Hd He]. cbn [fst snd] in *.
      assert (alike (fo_default (fs_opts (fd_spec f))) (fo_default (fs_opts (fd_spec f)))) as Hdef.
      { destruct Hf as [o l [Ho _]|o ms [Ho _]|o c [Ho _]|o p [Ho _]|o g [Ho _]|o g ck [Ho _]]; exact Ho. }
      unfold import_field. cbn [cx_mapping cx_apply_defaults cx_init_values branch].
      eapply res_bind with (R := alike).
      { pose proof (atom_value_same v w n H) as Ha. rewrite <- (alike_undef _ _ Ha).
        destruct (got && is_undef (atom_value E v n)); [now apply find_alt_same|now constructor]. }
      intros a b Hab. rewrite <- (alike_undef _ _ Hab), <- (entries_mem _ _ _ n (keyed_entries _ _ _ Hd)).
      destruct (is_undef a && dmem n d); [constructor; split; assumption|].
      set (a2 := if is_undef a && cx_apply_defaults x then _ else a).
      set (b2 := if is_undef a && cx_apply_defaults x then _ else b).
      assert (alike a2 b2) as H2 by (subst a2 b2; now destruct (is_undef a && cx_apply_defaults x)).
      clearbody a2 b2. rewrite <- (alike_undef _ _ H2).
      set (a3 := if is_undef a2 && cx_init_values x then VNone else a2).
      set (b3 := if is_undef a2 && cx_init_values x then VNone else b2).
      assert (alike a3 b3) as H3 by (subst a3 b3; destruct (is_undef a2 && cx_init_values x); [now constructor|assumption]).
      clearbody a3 b3.
      assert (forall p q, alike p q -> alike_res state_same
                (if is_undef p then Ok (d, e) else Ok (dset n p d, e)) (if is_undef q then Ok (d', e') else Ok (dset n q d', e'))) as Hst.
      { intros p q Hpq. rewrite <- (alike_undef _ _ Hpq). destruct (is_undef p); constructor; split; cbn; try assumption.
        now apply keyed_dset. }
      destruct got; [|now apply Hst].
      destruct (field_ctx_same x t n (fd_spec f) Hn Ht) as (t' & Ht' & ->).
      destruct (Hfc (fd_spec f) a3 b3 (field_ctx E x n (fd_spec f)) t' Hf H3 Ht') as [p q Hpq|p q Hpq]; [now apply Hst|].
      rewrite <- (caught_same _ _ Hpq). destruct (caught_by_loop p) eqn:C; [|now constructor].
      constructor. split; cbn [fst snd]; [|apply entries_dset; [assumption|now apply err_node_same]].
      set (d1 := if cx_apply_defaults x && _ then dset _ _ d else d).
      set (d1' := if cx_apply_defaults x && _ then dset _ _ d' else d').
      assert (keyed alike d1 d1') as H1.
      { subst d1 d1'. destruct (cx_apply_defaults x && _); [now apply keyed_dset|assumption]. }
      clearbody d1 d1'. destruct Hpq as [ms|s ms|da ea Q|da ea pa qa Q Q'|p q Q Q']; try assumption.
      - apply keyed_dset; [assumption|assumption|now constructor].
      - destruct p, q; cbn in *; try tauto; discriminate.
    Qed.

    Lemma import_fields_same x t got v w fs s s' : (forall n f, In (n, f) fs -> K n /\ blind_field K (fd_spec f)) ->
      alike (cx_trusted x) t -> alike v w -> state_same s s' ->
      alike_res state_same (import_fields E fc x got v fs s) (import_fields E fc (branch x t None) got w fs s').
    Proof using HE Hfc.
      intros Hfs Ht H. revert s s'. induction fs as [|[n f] fs IH]; intros s s' Hs; cbn [import_fields]; [now constructor|].
      cbn [cx_validate branch]. assert (K n /\ blind_field K (fd_spec f)) as [Hn Hf] by (apply Hfs; now left).
      assert (forall n f, In (n, f) fs -> K n /\ blind_field K (fd_spec f)) as Hr by (intros; apply Hfs; now right).
      destruct (negb (cx_validate x) && has_setter f); [now apply IH|].
      eapply res_bind; [now apply import_field_same|]. intros a b Hab. now apply IH.
    Qed.

    Lemma mutate_fields_none pre x a fs mut raw errs : (forall n f, In (n, f) fs -> fd_set f = None) ->
      mutate_fields E fc pre x a fs mut raw errs = (mut, raw, Ok errs).
    Proof.
      induction fs as [|[n f] fs IH]; intros H; cbn; [reflexivity|].
      rewrite (H n f (or_introl eq_refl)). apply IH. intros. eapply H. right. eassumption.
    Qed.
    Lemma copy_settable_none raw fs data : (forall n f, In (n, f) fs -> fd_set f = None) -> copy_settable E raw fs data = data.
    Proof.
      revert data. induction fs as [|[n f] fs IH]; intros data H; cbn; [reflexivity|].
      unfold has_setter. rewrite (H n f (or_introl eq_refl)). cbn. apply IH. intros. eapply H. right. eassumption.
    Qed.

    Lemma set_converted_same v w d e : alike v w -> keyed alike d e -> alike (set_converted v d) (set_converted w e).
    Proof. intros [u H|l m F|l m F|d' e' H|c m n H1 H2 H3 H4] Hd; cbn; try now constructor. destruct u; now constructor. Qed.

    Lemma mutate_same pre pre' x t a fs mut mut' raw raw' : (forall n f, In (n, f) fs -> fd_set f = None) ->
      alike mut mut' -> alike raw raw' ->
      let '(m1, r1, e1) := mutate E fc pre x a fs mut raw in
      let '(m2, r2, e2) := mutate E fc pre' (branch x t None) a fs mut' raw' in
      alike m1 m2 /\ alike r1 r2 /\ alike_res (entries alike_err) e1 e2.
    Proof using HE.
      intros Hfs Hm Hr. unfold mutate. rewrite !mutate_fields_none by assumption.
      destruct Hr as [u H|l m F|l m F|d e H|c m n H1 H2 H3 H4].
      - destruct u; cbn in H; try discriminate; (split; [assumption|split; [now constructor|constructor; apply py_same]]).
      - split; [assumption|split; [now constructor|constructor; apply py_same]].
      - split; [assumption|split; [now constructor|constructor; apply py_same]].
      - destruct (dict_same mut mut' Hm) as [i j Hij|p q Hpq].
        + pose proof (keyed_dupdate _ _ _ _ _ H Hij) as Hu.
          split; [|split; [now constructor|constructor; apply entries_nil]].
          destruct a; [assumption|now apply set_converted_same|now constructor].
        + split; [assumption|split; [now constructor|now constructor]].
      - split; [assumption|split; [now constructor|constructor; apply py_same]].
    Qed.

    Lemma fold_rogue_get m x l errs : dget x (fold_left (fun acc y => dset y (NText m) acc) l errs)
      = if kmem x l then Some (NText m) else dget x errs.
    Proof.
      revert errs. induction l as [|y l IH]; intros errs; cbn; [reflexivity|].
      rewrite IH, dget_dset. unfold kmem. destruct (key_eqb x y); cbn; [|reflexivity]. now destruct (existsb _ l).
    Qed.
    Lemma fold_rogue_NoDup m l errs : NoDup (dkeys errs) -> NoDup (dkeys (fold_left (fun acc y => dset y (NText m) acc) l errs)).
    Proof. revert errs. induction l as [|y l IH]; intros errs H; cbn; [assumption|]. now apply IH, NoDup_dset. Qed.
    Lemma rogues_same x t fs v w e e' : alike v w -> entries alike_err e e' ->
      alike_res (entries alike_err) (rogues E x fs v e) (rogues E (branch x t None) fs w e').
    Proof using HE.
      intros H He. unfold rogues. cbn [cx_strict cx_mapping branch]. destruct (cx_strict x); [|now constructor].
      eapply res_bind; [now apply keys_same|]. intros l l' (N1 & N2 & Hl). constructor.
      split; [apply fold_rogue_NoDup, He|split; [apply fold_rogue_NoDup, He|]]. intros y. rewrite !fold_rogue_get.
      set (p := fun y => negb (kmem y (all_input_keys fs (cx_mapping x)))).
      assert (kmem y (filter p l) = kmem y (filter p l')) as ->.
      { apply eq_true_iff_eq. rewrite !kmem_In, !filter_In, Hl. tauto. }
      destruct (kmem y (filter p l')); [constructor; constructor|apply entries_get, He].
    Qed.

    Definition out_same (o o' : loop_out) : Prop :=
      alike (lo_mut o) (lo_mut o') /\ alike (lo_raw o) (lo_raw o') /\ alike_res (keyed alike) (lo_res o) (lo_res o').

    Lemma import_loop_same pre pre' x t c a mut mut' raw raw' : alike (cx_trusted x) t -> alike mut mut' -> alike raw raw' ->
      out_same (import_loop E fc pre x (mc_fields (e_class E c)) mut a raw)
               (import_loop E fc pre' (branch x t None) (mc_fields (e_class E c)) mut' a raw').
    Proof using HE Hfc.
      intros Ht Hm Hr. unfold import_loop. cbn [cx_trusted cx_validate branch].
      pose proof (bc_setters _ _ (HE c)) as Hset.
      assert (forall n f, In (n, f) (mc_fields (e_class E c)) -> K n /\ blind_field K (fd_spec f)) as Hfs.
      { intros n f Hi. split; [eapply bc_keys; [apply HE|exact Hi]|eapply bc_fields; [apply HE|exact Hi]]. }
      rewrite <- (alike_truthy _ _ Ht), <- (alike_none _ _ Hr).
      assert (alike_res (keyed alike) (if truthy (cx_trusted x) then py_dict E (cx_trusted x) else Ok [])
                (if truthy (cx_trusted x) then py_dict E t else Ok [])) as Hd.
      { destruct (truthy (cx_trusted x)); [now apply dict_same|constructor; apply keyed_nil]. }
      destruct Hd as [d d' Hd|p q Hpq]; [|repeat split; cbn; try assumption; now constructor].
      set (got := negb (is_none raw)).
      set (M := if got && cx_validate x then _ else (mut, raw, Ok [])).
      set (M' := if got && cx_validate x then _ else (mut', raw', Ok [])).
      assert (let '(m1, r1, e1) := M in let '(m2, r2, e2) := M' in
              alike m1 m2 /\ alike r1 r2 /\ alike_res (entries alike_err) e1 e2) as HM.
      { subst M M'. destruct (got && cx_validate x); [now apply mutate_same|].
        split; [assumption|split; [assumption|constructor; apply entries_nil]]. }
      clearbody M M'. destruct M as [[m1 r1] e1], M' as [[m2 r2] e2]. destruct HM as (Hm1 & Hr1 & He1).
      split; [assumption|split; [assumption|]]. cbn [lo_res].
      eapply res_bind; [exact He1|]. intros a0 b0 H0.
      eapply res_bind with (R := entries alike_err).
      { destruct got; [now apply rogues_same|now constructor]. }
      intros a1 b1 H1. eapply res_bind; [apply import_fields_same; [exact Hfs|exact Ht|exact Hr1|]|].
      { split; [exact Hd|exact H1]. }
      intros [d1 ee1] [d2 ee2] [H2 H3]. cbn [fst snd] in *. rewrite !copy_settable_none by assumption.
      assert (keyed alike (if cx_validate x then d1 else d1) (if cx_validate x then d2 else d2)) as H2' by now destruct (cx_validate x).
      destruct ee1 as [|p1 ee1], ee2 as [|p2 ee2].
      - now constructor.
      - apply entries_empty in H3. destruct H3 as [H3 _]. now specialize (H3 eq_refl).
      - apply entries_empty in H3. destruct H3 as [_ H3]. now specialize (H3 eq_refl).
      - constructor. now constructor.
    Qed.

    (** ** Model level validation *)
    Lemma mv_caught_same a b : alike_exn a b -> both alike_err (mv_caught a) (mv_caught b).
    Proof.
      intros [ms|s ms|d e H|d e p q H H'|a' b' H H']; cbn; try (constructor; now constructor); try constructor.
      destruct a', b'; cbn in *; try tauto; constructor.
    Qed.
    Definition vstate_same (s s' : list (key * pyval) * list (key * errnode) * list key) : Prop :=
      keyed alike (fst (fst s)) (fst (fst s')) /\ entries alike_err (snd (fst s)) (snd (fst s')) /\ snd s = snd s'.
    Lemma validate_model_loop_same vfs mut mut' fs d d' e e' bad :
      (forall n f, In (n, f) vfs -> blind_model_validator K f) -> alike mut mut' -> keyed alike d d' -> entries alike_err e e' ->
      alike_res vstate_same (validate_model_loop vfs mut fs d e bad) (validate_model_loop vfs mut' fs d' e' bad).
    Proof.
      intros Hv Hm. revert d d' e e' bad. induction fs as [|[n f] fs IH]; intros d d' e e' bad Hd He; cbn [validate_model_loop].
      { constructor. repeat split; cbn; try assumption; try apply Hd; try apply He. }
      destruct (entries_get _ _ _ n (keyed_entries _ _ _ Hd)) as [|v w Hvw]; [now apply IH|].
      destruct (dget n vfs) as [vf|] eqn:G; [|now apply IH].
      rewrite <- (alike_undef _ _ Hvw). destruct (is_undef v); [now apply IH|].
      destruct (Hv n vf (dget_In _ _ _ G) mut mut' d d' v w Hm Hd Hvw) as [H1 H2].
      destruct (vf mut d v) as [d1 o1], (vf mut' d' w) as [d2 o2]. cbn [fst snd] in *.
      destruct H2 as [|a b Hab]; [now apply IH|].
      destruct (mv_caught_same a b Hab) as [|p q Hpq]; [now constructor|].
      apply IH; [assumption|now apply entries_dset].
    Qed.
    Lemma pop_all_same bad d d' : keyed alike d d' -> alike_res (keyed alike) (pop_all bad d) (pop_all bad d').
    Proof.
      revert d d'. induction bad as [|n bad IH]; intros d d' H; cbn; [now constructor|].
      rewrite <- (entries_mem _ _ _ n (keyed_entries _ _ _ H)). destruct (dmem n d); [now apply IH, keyed_ddel|].
      constructor. apply py_same.
    Qed.
    Lemma validate_fn_same pre pre' x t c a mut mut' raw raw' : alike (cx_trusted x) t -> alike mut mut' -> alike raw raw' ->
      out_same (validate_fn E fc pre x (e_class E c) mut a raw) (validate_fn E fc pre' (branch x t None) (e_class E c) mut' a raw').
    Proof using HE Hfc.
      intros Ht Hm Hr. unfold validate_fn.
      destruct (import_loop_same pre pre' x t c a mut mut' raw raw' Ht Hm Hr) as (H1 & H2 & H3).
      set (o := import_loop _ _ pre _ _ _ _ _) in *. set (o' := import_loop _ _ pre' _ _ _ _ _) in *. clearbody o o'.
      split; [assumption|split; [assumption|]]. cbn [lo_res].
      assert (forall e e' d d', entries alike_err e e' -> keyed alike d d' -> alike_res (keyed alike)
        (rbind (validate_model (mc_validators (e_class E c)) (lo_mut o) (mc_fields (e_class E c)) d) (fun '(d0, e0) =>
           match dupdate e e0 with [] => Ok d0 | errs' => Raise (XData errs' d0) end))
        (rbind (validate_model (mc_validators (e_class E c)) (lo_mut o') (mc_fields (e_class E c)) d') (fun '(d0, e0) =>
           match dupdate e' e0 with [] => Ok d0 | errs' => Raise (XData errs' d0) end))) as Hfin.
      { intros e e' d d' He Hd. eapply res_bind with (R := state_same).
        - unfold validate_model. eapply res_bind; [apply validate_model_loop_same|].
          + apply (bc_validators _ _ (HE c)).
          + exact H1.
          + exact Hd.
          + apply entries_nil.
          + intros [[d1 e1] b1] [[d2 e2] b2] (Q1 & Q2 & Q3). cbn [fst snd] in *. subst b2.
            eapply res_bind; [apply pop_all_same, Q1|]. intros d3 d4 Q4. constructor. split; assumption.
        - intros [d1 e1] [d2 e2] [Q1 Q2]. cbn [fst snd] in *. pose proof (entries_dupdate _ _ _ _ _ He Q2) as Hu.
          destruct (dupdate e e1) as [|p1 l1], (dupdate e' e2) as [|p2 l2].
          + now constructor.
          + apply entries_empty in Hu. destruct Hu as [Hu _]. now specialize (Hu eq_refl).
          + apply entries_empty in Hu. destruct Hu as [_ Hu]. now specialize (Hu eq_refl).
          + constructor. now constructor. }
      destruct H3 as [d d' Hd|p q Hpq]; [apply Hfin; [apply entries_nil|assumption]|].
      destruct Hpq as [ms|s ms|d e H|d e p q H H'|p q H H']; try (constructor; now constructor).
      - now apply Hfin.
      - destruct p, q; cbn in *; try tauto; constructor; now apply ax_crash.
    Qed.

    (** ** Compound types *)
    Lemma empty_same c : alike (VModel c md_empty) (VModel c md_empty).
    Proof. apply al_model; cbn; try apply keyed_nil. constructor. Qed.
    Lemma model_new_same pre pre' c v w x t : alike v w -> alike (cx_trusted x) t ->
      alike_res alike (model_new E fc pre c v x) (model_new E fc pre' c w (branch x t None)).
    Proof using HE Hfc.
      intros H Ht. unfold model_new. cbn [cx_validate branch]. rewrite <- (alike_truthy _ _ H).
      eapply res_bind with (R := keyed alike).
      { destruct (truthy v); [now apply dict_same|constructor; apply keyed_nil]. }
      intros d d' Hd. assert (alike (VDict d) (VDict d')) as Hd' by now constructor.
      set (a := if truthy v then NoAlias else AliasConverted).
      set (o := if cx_validate x then validate_fn E fc pre x _ _ _ _ else _).
      set (o' := if cx_validate x then validate_fn E fc pre' _ _ _ _ _ else _).
      assert (out_same o o') as (H1 & H2 & H3).
      { subst o o'. destruct (cx_validate x); [apply validate_fn_same|apply import_loop_same]; try assumption; apply empty_same. }
      clearbody o o'. eapply res_bind; [exact H3|]. intros d1 d2 H4. constructor. now apply set_converted_same.
    Qed.
    Lemma model_class_convert_same pre pre' c v w x t : alike v w -> alike (cx_trusted x) t ->
      alike_res alike (model_class_convert E fc pre c v x) (model_class_convert E fc pre' c w (branch x t None)).
    Proof using HE Hfc.
      intros H Ht. unfold model_class_convert.
      destruct (import_loop_same pre pre' x t c AliasSelf v w v w Ht H H) as (_ & _ & H3).
      eapply res_bind; [exact H3|]. intros d d' Hd. constructor. now constructor.
    Qed.
    Lemma model_convert_same pre pre' c v w x t : alike v w -> alike (cx_trusted x) t ->
      alike_res alike (model_convert E fc pre c v x) (model_convert E fc pre' c w (branch x t None)).
    Proof using HE Hfc.
      intros H Ht. unfold model_convert. cbn [cx_convert cx_oo branch].
      pose proof (fun d => model_new_same pre pre' d v w x t H Ht) as Hn.
      pose proof (fun d => model_class_convert_same pre pre' d v w x t H Ht) as Hc.
      destruct H as [u H|l m F|l m F|d e H|c' m n H1 H2 H3 H4]; try (constructor; now constructor).
      - destruct u; cbn in H; try discriminate; constructor; constructor.
      - destruct (cx_convert x && cx_oo x); auto.
      - destruct (e_issub E c' c); [|constructor; constructor]. destruct (cx_convert x && cx_oo x); auto.
    Qed.

    Lemma list_elems_same v w : alike v w -> both (Forall2 alike) (list_elems E v) (list_elems E w).
    Proof using HE.
      assert (forall l, Forall (fun v => atomic v = true) l -> Forall2 alike l l) as Hat.
      { intros l F. induction F; constructor; [now constructor|assumption]. }
      intros [u H|l m F|l m F|d e H|c m n H1 H2 H3 H4]; cbn; try (constructor; assumption); try constructor.
      - destruct u; cbn in H; try discriminate; constructor. apply Hat. induction s; constructor; auto.
      - rewrite (model_iter_same c m n H1 H2 H3). apply Hat. induction (model_iter E c n) as [|y l IH]; constructor; [|assumption].
        now destruct y.
    Qed.
    Lemma list_loop_same f x t i l m data data' e e' : blind_field K f -> alike (cx_trusted x) t -> Forall2 alike l m ->
      Forall2 alike data data' -> entries alike_err e e' ->
      alike_res (fun p q => Forall2 alike (fst p) (fst q) /\ entries alike_err (snd p) (snd q))
        (list_loop fc f x i l data e) (list_loop fc f (branch x t None) i m data' e').
    Proof using Hfc.
      intros Hf Ht F. revert i data data' e e'. induction F as [|v w l m H F IH]; intros i data data' e e' Hd He; cbn.
      { constructor. split; assumption. }
      destruct (Hfc f v w x t Hf H Ht) as [a b Hab|a b Hab].
      - apply IH; [|assumption]. apply Forall2_app; [assumption|]. constructor; [assumption|constructor].
      - unfold is_base_error. rewrite <- (caught_same _ _ Hab). destruct (caught_by_loop a) eqn:C; [|now constructor].
        apply IH; [assumption|]. apply entries_dset; [assumption|now apply err_node_same].
    Qed.
    Lemma list_convert_same f v w x t : blind_field K f -> alike v w -> alike (cx_trusted x) t ->
      alike_res alike (list_convert E fc f v x) (list_convert E fc f w (branch x t None)).
    Proof using HE Hfc.
      intros Hf H Ht. unfold list_convert. destruct (list_elems_same v w H) as [|l m F]; [constructor; constructor|].
      eapply res_bind; [apply list_loop_same; try eassumption; [constructor|apply entries_nil]|].
      intros [a ea] [b eb] [Ha He]. cbn [fst snd] in *. destruct ea as [|p1 ea], eb as [|p2 eb].
      - constructor. now constructor.
      - apply entries_empty in He. destruct He as [He _]. now specialize (He eq_refl).
      - apply entries_empty in He. destruct He as [_ He]. now specialize (He eq_refl).
      - constructor. now constructor.
    Qed.
  End Loop.
End Facts.
