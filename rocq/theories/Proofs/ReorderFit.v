(** The order of the fields in a class: what conversion yields is fit to be converted again. *)
From Verif.Model Require Import Py Core Api.
From Verif.Spec Require Import ExportSpec PrimitiveSpec OrderSpec ReorderSpec.
From Verif.Proofs Require Import DictLemmas OrderFacts OrderMain ReorderFacts ReorderMain.

Section Fit.
  Context (K : key -> Prop) (E : env) (HE : blind_env K E) (HS : steady_env E) (HA : apart_env E).

  Definition plain_ctx (x : ictx) : Prop :=
    truthy (cx_trusted x) = false /\ cx_mapping x = no_mapping /\ cx_convert x = true /\ cx_oo x = true.
  Definition fc_fit (fc : fspec -> pyval -> ictx -> res pyval) : Prop := forall f v x w,
    monomorphic f -> fit E f v -> plain_ctx x -> fc f v x = Ok w -> fit E f w.

  Lemma field_ctx_plain x n f : plain_ctx x -> plain_ctx (field_ctx E x n f).
  Proof.
    intros (H1 & H2 & H3 & H4). unfold field_ctx. destruct (is_compound f); [|now split].
    unfold nested_td, nested_map. rewrite H1, H2. split; [reflexivity|split; [reflexivity|split; assumption]].
  Qed.

  Lemma dset_nonempty {A} n (v : A) d : dset n v d <> [].
  Proof. destruct d as [|[y w] d]; cbn; [discriminate|]. destruct (key_eqb n y); discriminate. Qed.
  Lemma dupdate_empty {A} (d e : list (key * A)) : dupdate d e = [] -> d = [] /\ e = [].
  Proof.
    unfold dupdate. revert d. induction e as [|[n v] e IH]; intros d; cbn; [auto|].
    intros H. apply IH in H. destruct H as [H _]. now apply dset_nonempty in H.
  Qed.
  Lemma pop_all_In bad (d d' : list (key * pyval)) p : pop_all bad d = Ok d' -> In p d' -> In p d.
  Proof.
    revert d. induction bad as [|n bad IH]; intros d; cbn; [now intros [= ->]|].
    destruct (dmem n d); [|discriminate]. intros H Hi. specialize (IH _ H Hi). clear -IH.
    induction d as [|[y v] d IHd]; cbn in *; [tauto|]. destruct (key_eqb n y); cbn in *; tauto.
  Qed.

  Section Loop.
    Context (fc : fspec -> pyval -> ictx -> res pyval) (Hfc : fc_fit fc).

    Lemma round_fit x got c raw n f v : In (n, f) (mc_fields (e_class E c)) -> fit_input E c raw -> plain_ctx x ->
      round E fc x got raw n f false = Ok (Some v, None) -> fit E (fd_spec f) v.
    Proof using HS HA Hfc.
      intros Hi Fr Hx. unfold round.
      set (first := if got && is_undef (atom_value E raw n) then _ else _).
      assert (forall v1, first = Ok v1 -> fit E (fd_spec f) v1) as H1.
      { intros v1 Q. subst first. destruct (got && is_undef (atom_value E raw n)).
        - destruct (find_alt_read _ _ _ _ _ Q) as [->|(y & Hy & Hg)]; [now apply fit_free, free_atom|].
          rewrite (proj1 (proj2 Hx)) in Hy. eapply raw_read; eassumption.
        - injection Q as <-. unfold atom_value. destruct (py_getitem E raw n) as [a|] eqn:G; [|now apply fit_free, free_atom].
          eapply raw_read; [exact HS|exact Fr|exact Hi| |exact G]. now left. }
      clearbody first. destruct first as [v1|ex]; cbn [rbind]; [|discriminate]. specialize (H1 v1 eq_refl). rewrite Bool.andb_false_r.
      set (v2 := if is_undef v1 && cx_apply_defaults x then _ else v1).
      assert (fit E (fd_spec f) v2) as H2.
      { subst v2. destruct (is_undef v1 && cx_apply_defaults x); [|assumption]. apply fit_free. eapply sc_defaults; [apply HS|exact Hi]. }
      clearbody v2. set (v3 := if is_undef v2 && cx_init_values x then VNone else v2).
      assert (fit E (fd_spec f) v3) as H3.
      { subst v3. destruct (is_undef v2 && cx_init_values x); [now apply fit_free, free_atom|assumption]. }
      clearbody v3. destruct got.
      - destruct (fc (fd_spec f) v3 (field_ctx E x n (fd_spec f))) as [w|ex] eqn:Q.
        + destruct (is_undef w); [discriminate|]. intros [= <-]. eapply Hfc; [eapply ac_types; [apply HA|exact Hi]|exact H3| |exact Q].
          now apply field_ctx_plain.
        + destruct (caught_by_loop ex); discriminate.
      - destruct (is_undef v3); [discriminate|]. now intros [= <-].
    Qed.
    Lemma import_fields_fit x got c raw e d' e' : fit_input E c raw -> plain_ctx x ->
      import_fields E fc x got raw (mc_fields (e_class E c)) ([], e) = Ok (d', e') -> e' = [] -> fit_layer E c d'.
    Proof using HE HS HA Hfc.
      intros Fr Hx H He. pose proof (import_fields_rounds E fc x got raw (fun _ => false) (mc_fields (e_class E c)) [] e
        (bc_setters _ _ (HE c)) (bc_names _ _ (HE c)) (fun n _ => eq_refl)) as S.
      destruct (existsb _ (mc_fields (e_class E c))).
      { destruct S as (ex & p & S & _). rewrite S in H. discriminate. }
      rewrite S in H. injection H as <- Q. rewrite He in Q. apply dupdate_empty in Q. destruct Q as [_ Q].
      rewrite dupdate_nil_l by (apply gained_NoDup, HE).
      intros n v n' f' Hv Hi' Hn. apply gained_In in Hv. destruct Hv as (f & r & Hi & R).
      assert (n = n') as <- by (eapply ac_keys; [apply HA|exact Hi|exact Hi'|exact Hn]).
      assert (f' = f) as ->.
      { pose proof (In_dget _ _ _ (bc_names _ _ (HE c)) Hi) as A. rewrite (In_dget _ _ _ (bc_names _ _ (HE c)) Hi') in A. congruence. }
      eapply round_fit; [exact Hi|exact Fr|exact Hx|]. rewrite R. destruct r as [r|]; [|reflexivity].
      assert (In (sname_of n (fd_spec f), r) []) as []. rewrite <- Q. apply missed_In. exists n, f, (Some v). auto.
    Qed.

    Definition loop_fit (c : cid) (o : loop_out) : Prop :=
      (forall d, lo_res o = Ok d -> fit_layer E c d) /\ forall errs pd, lo_res o = Raise (XData errs pd) -> errs <> [].
    Lemma import_loop_fit pre x c mut a raw : fit_input E c mut -> fit_input E c raw -> plain_ctx x ->
      loop_fit c (import_loop E fc pre x (mc_fields (e_class E c)) mut a raw).
    Proof using HE HS HA Hfc.
      intros Fm Fr Hx. unfold import_loop. rewrite (proj1 Hx).
      set (got := negb (is_none raw)).
      set (M := if got && cx_validate x then _ else (mut, raw, Ok [])).
      assert (let '(m1, r1, e1) := M in fit_input E c r1 /\ forall errs pd, e1 <> Raise (XData errs pd)) as HM.
      { subst M. destruct (got && cx_validate x); [|split; [assumption|discriminate]].
        unfold mutate. rewrite (mutate_fields_none E) by apply HE.
        destruct raw; try (split; [exact Fr|discriminate]).
        pose proof (items_fit E HS c mut) as Hi. destruct (py_dict E mut) as [i|ex] eqn:Q.
        - split; [|discriminate]. cbn. apply fit_update; [exact Fr|]. now apply Hi.
        - split; [exact Fr|]. intros errs pd [= ->].
          assert (crash (XData errs pd)) as []. clear -Q HS. destruct mut; cbn in Q; try (injection Q as Q; discriminate); try discriminate.
          destruct (items_out E (VModel c m) (model_iter E c m)) as [(d1 & Q1 & _)|(e & y & Q1 & _ & Hg)]; rewrite Q1 in Q; [discriminate|].
          injection Q as ->. eapply getitem_calm; [exact HS|exact Hg]. }
      clearbody M. destruct M as [[m1 r1] e1]. destruct HM as [Fr1 He1]. unfold loop_fit. cbn [lo_res].
      destruct e1 as [e1|ex]; cbn [rbind]; [|split; [discriminate|]; intros errs pd [= ->]; now destruct (He1 errs pd)].
      assert (forall ex, (if got then rogues E x (mc_fields (e_class E c)) r1 e1 else Ok e1) = Raise ex -> forall errs pd, ex <> XData errs pd) as Hro.
      { intros ex. destruct got; [|discriminate]. unfold rogues. destruct (cx_strict x); [|discriminate].
        destruct r1; cbn; try discriminate; intros [= <-]; discriminate. }
      destruct (if got then _ else Ok e1) as [e2|ex]; cbn [rbind]; [|split; [discriminate|]; intros errs pd [= ->]; now destruct (Hro _ eq_refl errs pd)].
      pose proof (import_fields_fit x got c r1 e2) as HF.
      pose proof (import_fields_rounds E fc x got r1 (fun _ => false) (mc_fields (e_class E c)) [] e2
        (bc_setters _ _ (HE c)) (bc_names _ _ (HE c)) (fun n _ => eq_refl)) as S.
      destruct (import_fields E fc x got r1 (mc_fields (e_class E c)) ([], e2)) as [[d' e']|ex] eqn:Q; cbn [rbind].
      - rewrite (copy_settable_none E) by apply HE.
        assert ((if cx_validate x then d' else d') = d') as -> by now destruct (cx_validate x).
        destruct e' as [|p e']; (split; [|]).
        + intros d [= <-]. eapply HF; eauto.
        + discriminate.
        + discriminate.
        + intros errs pd [= <- <-]. discriminate.
      - split; [discriminate|]. intros errs pd [= ->]. destruct (existsb _ (mc_fields (e_class E c))); [|discriminate].
        destruct S as (ex & p & [= <-] & Hp & Hr). apply round_calm in Hr; [destruct Hr|exact HS].
    Qed.
    Lemma validate_model_sub c mut d d' e : validate_model (mc_validators (e_class E c)) mut (mc_fields (e_class E c)) d = Ok (d', e) ->
      forall p, In p d' -> In p d.
    Proof using HS.
      unfold validate_model. pose proof (vloop_spec (mc_validators (e_class E c)) mut d) as S.
      assert (forall n vf v, In (n, vf) (mc_validators (e_class E c)) -> fst (vf mut d v) = d) as Hk.
      { intros n vf v Hi. now apply (sc_validators _ (HS c) n vf mut d v Hi). }
      specialize (S Hk (mc_fields (e_class E c)) [] []). destruct (existsb _ _).
      { destruct S as (ex & p & -> & _). discriminate. }
      rewrite S. cbn [rbind]. set (b := [] ++ _). clearbody b. intros H p Hi. destruct (pop_all b d) as [d1|] eqn:Q; cbn in H; [|discriminate].
      injection H as <- _. eapply pop_all_In; eassumption.
    Qed.
    Lemma validate_fn_fit pre x c mut a raw d : fit_input E c mut -> fit_input E c raw -> plain_ctx x ->
      lo_res (validate_fn E fc pre x (e_class E c) mut a raw) = Ok d -> fit_layer E c d.
    Proof using HE HS HA Hfc.
      intros Fm Fr Hx. unfold validate_fn. destruct (import_loop_fit pre x c mut a raw Fm Fr Hx) as [H1 H2].
      set (o := import_loop _ _ _ _ _ _ _ _) in *. clearbody o. cbn [lo_res].
      assert (forall e d0, (rbind (validate_model (mc_validators (e_class E c)) (lo_mut o) (mc_fields (e_class E c)) d0) (fun '(d1, e0) =>
           match dupdate e e0 with [] => Ok d1 | errs' => Raise (XData errs' d1) end)) = Ok d -> e = [] /\ forall p, In p d -> In p d0) as Hfin.
      { intros e d0. destruct (validate_model _ (lo_mut o) _ d0) as [[d1 e1]|ex] eqn:Q; cbn [rbind]; [|discriminate].
        destruct (dupdate e e1) eqn:Qe; [|discriminate]. intros [= <-]. split; [now apply dupdate_empty in Qe|]. eapply validate_model_sub, Q. }
      destruct (lo_res o) as [d0|ex].
      - intros H. destruct (Hfin _ _ H) as [_ Hs]. specialize (H1 d0 eq_refl). intros n v n' f Hi. apply H1, Hs, Hi.
      - destruct ex; try discriminate. intros H. destruct (Hfin _ _ H) as [-> _]. now destruct (H2 _ _ eq_refl).
    Qed.
    Lemma new_mut pre x c a raw (v : bool) : exists d,
      lo_mut (if v then validate_fn E fc pre x (e_class E c) (VModel c md_empty) a raw
              else import_loop E fc pre x (mc_fields (e_class E c)) (VModel c md_empty) a raw) = VModel c (md_set_converted md_empty d) \/
      a = AliasSelf.
    Proof using HE.
      assert (exists d, lo_mut (import_loop E fc pre x (mc_fields (e_class E c)) (VModel c md_empty) a raw) = VModel c (md_set_converted md_empty d) \/ a = AliasSelf) as H.
      { unfold import_loop. destruct (if truthy (cx_trusted x) then _ else Ok []) as [d|ex]; [|exists []; now left].
        destruct (negb (is_none raw) && cx_validate x); [|exists []; now left].
        unfold mutate. rewrite (mutate_fields_none E) by apply HE.
        destruct raw as [ | | | | | | | | |d0|c0 m| | | | | | | ]; try (exists []; now left).
        destruct (py_dict E (VModel c md_empty)) as [i|ex]; [|exists []; now left].
        destruct a; [exists []; now left|eexists; left; reflexivity|exists []; now right]. }
      destruct v; [|exact H]. exact H.
    Qed.
    Lemma model_new_fit pre c v x w : fit_input E c v -> plain_ctx x -> model_new E fc pre c v x = Ok w ->
      exists d, w = VModel c (MD [] d [] None) /\ fit_layer E c d.
    Proof using HE HS HA Hfc.
      intros Fv Hx. unfold model_new.
      destruct (if truthy v then py_dict E v else Ok []) as [d0|ex] eqn:Q; cbn [rbind]; [|discriminate].
      assert (fit_layer E c d0) as Fd.
      { destruct (truthy v); [eapply items_fit; eassumption|]. injection Q as <-. intros ? ? ? ? []. }
      set (a := if truthy v then NoAlias else AliasConverted).
      destruct (new_mut pre x c a (VDict d0) (cx_validate x)) as (d1 & Hm).
      set (o := if cx_validate x then _ else _) in *.
      assert (forall d, lo_res o = Ok d -> fit_layer E c d) as Ho.
      { subst o. destruct (cx_validate x); [intros d; apply validate_fn_fit; [apply fit_nothing|exact Fd|exact Hx]|].
        now apply import_loop_fit; [apply fit_nothing| |]. }
      clearbody o. destruct (lo_res o) as [d|ex]; cbn [rbind]; [|discriminate]. intros [= <-].
      destruct Hm as [->|Ha]; [|subst a; destruct (truthy v); discriminate]. exists d. split; [reflexivity|auto].
    Qed.
    Lemma layer_model o c c' d : fit_layer E c' d -> fit E (FS o (TModel c)) (VModel c' (MD [] d [] None)).
    Proof.
      intros H. apply fit_model. intros L n v n' f [<-|[<-|[<-|[]]]] Hv; [destruct Hv|now apply H|destruct Hv].
    Qed.
    Lemma model_convert_fit pre o c v x w : fit E (FS o (TModel c)) v -> plain_ctx x -> model_convert E fc pre c v x = Ok w ->
      fit E (FS o (TModel c)) w.
    Proof using HE HS HA Hfc.
      intros Fv Hx. unfold model_convert. rewrite (proj1 (proj2 (proj2 Hx))), (proj2 (proj2 (proj2 Hx))). cbn [andb].
      destruct v as [ | | | | | | | | |d|c' m| | | | | | | ]; try discriminate.
      - apply fit_dict_of in Fv. intros H. destruct (model_new_fit _ _ _ _ _ Fv Hx H) as (d' & -> & Hd). now apply layer_model.
      - apply fit_instance in Fv. destruct (e_issub E c' c); [|discriminate].
        intros H. destruct (model_new_fit _ _ _ _ _ Fv Hx H) as (d' & -> & Hd). now apply layer_model.
    Qed.
    Lemma list_loop_fit f x i l data errs data' errs' : monomorphic f -> plain_ctx x -> (forall v, In v l -> fit E f v) ->
      (forall v, In v data -> fit E f v) -> list_loop fc f x i l data errs = Ok (data', errs') -> forall v, In v data' -> fit E f v.
    Proof using Hfc.
      intros Hf Hx. revert i data errs. induction l as [|v l IH]; intros i data errs Fl Fd; cbn; [now intros [= <- _]|].
      destruct (fc f v x) as [w|ex] eqn:Q.
      - apply IH; [intros; apply Fl; now right|]. intros u Hu. apply in_app_iff in Hu. destruct Hu as [Hu|[<-|[]]]; [auto|].
        eapply Hfc; [exact Hf|apply Fl; now left|exact Hx|exact Q].
      - destruct (is_base_error ex); [|discriminate]. apply IH; [intros; apply Fl; now right|assumption].
    Qed.
    Lemma list_convert_fit o f v x w : monomorphic f -> fit E (FS o (TList f)) v -> plain_ctx x -> list_convert E fc f v x = Ok w ->
      fit E (FS o (TList f)) w.
    Proof using Hfc.
      intros Hf Fv Hx. unfold list_convert. destruct (list_elems E v) as [l|] eqn:Q; [|discriminate].
      destruct (list_loop fc f x 0 l [] []) as [[data errs]|] eqn:Q'; cbn [rbind]; [|discriminate].
      destruct errs; [|discriminate]. intros [= <-]. apply fit_list. eapply list_loop_fit; [exact Hf|exact Hx| | |exact Q']; [|intros u []].
      intros u Hu. destruct v as [ | | | | | |s|l0|l0|d|c' m| | | | | | | ]; cbn in Q; try discriminate; injection Q as <-.
      - apply in_map_iff in Hu. destruct Hu as (y & <- & _). now apply fit_free, free_atom.
      - inversion Fv; subst; [apply fit_free; eapply free_list; eassumption|auto].
      - inversion Fv; subst; [apply fit_free; eapply free_tuple; eassumption|auto].
      - inversion Fv; subst. now destruct (free_model c' m).
    Qed.
    Lemma dset_In {A} (y z : key) (v w : A) d : In (y, v) (dset z w d) -> v = w \/ In (y, v) d.
    Proof.
      induction d as [|[x u] d IH]; cbn; [intros [[= _ <-]|[]]; now left|].
      destruct (key_eqb z x); cbn; [intros [[= _ <-]|H]|intros [H|H]]; auto. destruct (IH H); auto.
    Qed.
    Lemma dict_loop_fit f ck x l data errs data' errs' : monomorphic f -> plain_ctx x -> (forall y v, In (y, v) l -> fit E f v) ->
      (forall y v, In (y, v) data -> fit E f v) -> dict_loop fc f ck x l data errs = Ok (data', errs') -> forall y v, In (y, v) data' -> fit E f v.
    Proof using Hfc.
      intros Hf Hx. revert data errs. induction l as [|[y v] l IH]; intros data errs Fl Fd; cbn; [now intros [= <- _]|].
      assert (forall y v, In (y, v) l -> fit E f v) as Fl' by (intros y0 v0 H0; eapply Fl; right; exact H0).
      destruct (fc f v x) as [w|ex] eqn:Q; cbn [rbind].
      - destruct (ck y) as [y'|ex]; cbn [rbind].
        + apply IH; [assumption|]. intros z u Hu. apply dset_In in Hu. destruct Hu as [->|Hu]; [|eauto].
          eapply Hfc; [exact Hf|eapply Fl; now left|exact Hx|exact Q].
        + destruct (is_base_error ex); [|discriminate]. now apply IH.
      - destruct (is_base_error ex); [|discriminate]. now apply IH.
    Qed.
    Lemma dict_convert_fit o f ck v x w : monomorphic f -> fit E (FS o (TDict f ck)) v -> plain_ctx x -> dict_convert fc f ck v x = Ok w ->
      fit E (FS o (TDict f ck)) w.
    Proof using Hfc.
      intros Hf Fv Hx. unfold dict_convert. destruct v; try discriminate.
      destruct (dict_loop fc f ck x d [] []) as [[data errs]|] eqn:Q; cbn [rbind]; [|discriminate].
      destruct errs; [|discriminate]. intros [= <-]. apply fit_dict. eapply dict_loop_fit; [exact Hf|exact Hx| | |exact Q]; [|intros y u []].
      intros y u Hu. inversion Fv; subst; [apply fit_free; eapply free_dict; eassumption|eauto].
    Qed.
  End Loop.

  Record conv_fit (r : conv) : Prop := {
    cf_field : fc_fit (cv_field r); cf_convert : fc_fit (cv_convert r); cf_validate : fc_fit (cv_validate r);
    cf_pre : forall f v w, monomorphic f -> fit E f v -> cv_pre r f v = Ok w -> fit E f w }.
  Lemma step_fit r : conv_fit r -> conv_fit (conv_step E r).
  Proof using HE HS HA.
    intros [Hr Hc Hv Hp]. constructor; cbn [conv_step cv_field cv_convert cv_validate cv_pre].
    - intros f v x w Hf Fv Hx. unfold field_step. destruct (check_required f v x); [discriminate|].
      destruct (is_nil v); [now intros [= <-]|]. destruct (cx_validate x); [now apply Hv|now apply Hc].
    - intros f v x w Hf Fv Hx. unfold convert_step. destruct f as [o t]. cbn [fs_type]. destruct t as [l|ms|c|p|g|g ck].
      + intros _. apply fit_leaf.
      + intros _. apply fit_union.
      + now apply model_convert_fit.
      + destruct Hf.
      + now apply list_convert_fit.
      + now apply dict_convert_fit.
    - intros f v x w Hf Fv Hx. unfold validate_step.
      assert (forall u, rbind (if cx_convert x then cv_convert r f v x else if is_compound f then rbind (cv_convert r f v x) (fun _ => Ok v) else Ok v)
               (validators_result (fo_validators (fs_opts f))) = Ok u -> fit E f u) as Hrest.
      { intros u. rewrite (proj1 (proj2 (proj2 Hx))). destruct (cv_convert r f v x) as [a|] eqn:Q; cbn [rbind]; [|discriminate].
        unfold validators_result. destruct (run_validators _ a []) as [[|e es]|]; try discriminate. intros [= <-]. eapply Hc; eassumption. }
      destruct f as [o t]. cbn [fs_type] in *. destruct t as [l|ms|c|p|g|g ck]; try apply Hrest. intros _. apply fit_union.
    - intros f v w Hf Fv. unfold pre_step. destruct f as [o t]. cbn [fs_type]. destruct t as [l|ms|c|p|g|g ck]; try (now intros [= <-]).
      assert (plain_ctx default_ctx) as Hx by (split; [reflexivity|split; [reflexivity|split; reflexivity]]).
      destruct v as [ | | | | | | | | |d|c' m| | | | | | | ]; try discriminate; try (now intros [= <-]).
      apply fit_dict_of in Fv. intros H. destruct (model_new_fit _ Hr _ _ _ _ _ Fv Hx H) as (d' & -> & Hd). now apply layer_model.
  Qed.
  Lemma conv_at_fit n : conv_fit (conv_at E n).
  Proof using HE HS HA.
    induction n as [|n IH]; cbn [conv_at]; [|now apply step_fit].
    constructor; intros; try (intros ? ? ? ? ? ? ?); discriminate.
  Qed.

  (** Instances just made. *)
  Lemma fresh_fit r c raw w d : conv_fit r -> fit_input E c raw -> kw_mapping w = no_mapping -> kw_convert w = true ->
    snd (model__convert E r c (MD [] [] [] None) raw (VDict []) w) = Ok d ->
    fit_data E c (md_set_converted (fst (model__convert E r c (MD [] [] [] None) raw (VDict []) w)) d).
  Proof using HE HS HA.
    intros Hr Fr Hmap Hconv. unfold model__convert. cbn [md_converted md_unsafe truthy].
    destruct (if truthy raw then py_dict E raw else Ok []) as [d0|ex] eqn:Q; [|discriminate]. cbn [fst snd].
    assert (fit_layer E c d0) as Fd.
    { destruct (truthy raw); [eapply items_fit; eassumption|]. injection Q as <-. intros ? ? ? ? []. }
    set (x := kw_ctx w _). set (a := if truthy raw then NoAlias else AliasConverted).
    assert (plain_ctx x) as Hx by (split; [reflexivity|split; [assumption|split; [assumption|reflexivity]]]).
    destruct (new_mut (cv_field r) (cv_pre r) x c a (VDict d0) (kw_validate w)) as (d1 & Hm).
    change (MD [] [] [] None) with md_empty. set (o := if kw_validate w then _ else _) in *.
    assert (forall d, lo_res o = Ok d -> fit_layer E c d) as Ho.
    { subst o. destruct (kw_validate w); [intros e; apply validate_fn_fit; [apply Hr|apply fit_nothing|exact Fd|exact Hx]|].
      apply import_loop_fit; [apply Hr|apply fit_nothing|exact Fd|exact Hx]. }
    clearbody o. intros H. destruct Hm as [->|Ha]; [|subst a; destruct (truthy raw); discriminate].
    intros L [<-|[<-|[<-|[]]]]; [intros ? ? ? ? []|now apply Ho|intros ? ? ? ? []].
  Qed.
  Lemma init_fit r c raw w m : conv_fit r -> fit_input E c raw -> kw_mapping w = no_mapping -> kw_convert w = true -> kw_validate w = false ->
    model_init E r c raw (VDict []) w = Ok m -> fit_data E c m.
  Proof using HE HS HA.
    intros Hr Fr Hmap Hconv Hval. unfold model_init. pose proof (fresh_fit r c raw w) as H.
    destruct (model__convert E r c (MD [] [] [] None) raw (VDict []) w) as [m1 rs]. cbn [fst snd] in H.
    destruct rs as [d|]; [|discriminate]. rewrite Hval. intros [= <-]. now apply H.
  Qed.
End Fit.

(** Model(raw), also with validate=True: the same outcome. *)
Lemma construct_same K E E' : blind_env K E -> reordered E E' -> steady_env E -> apart_env E -> forall j c raw raw' w,
  alike K raw raw' -> fit_input E c raw -> kw_mapping w = no_mapping -> kw_convert w = true ->
  alike_res K (alike_data K) (model_init E (conv_at E j) c raw (VDict []) w) (model_init E' (conv_at E' j) c raw' (VDict []) w).
Proof.
  intros HE HR HS HA j c raw raw' w Hraw Fr Hmap Hconv.
  assert (alike_data K (MD [] [] [] None) (MD [] [] [] None)) as H0.
  { split; [|split; [|split]]; cbn; try apply keyed_nil. constructor. }
  assert (alike K (VDict []) (VDict [])) as Ht by (apply al_dict, keyed_nil).
  assert (fit_data E c (MD [] [] [] None)) as F0 by (intros L [<-|[<-|[<-|[]]]]; intros ? ? ? ? []).
  pose proof (conv_at_same K E E' HE HR HS j) as Hr.
  pose proof (fresh_fit K E HE HS HA (conv_at E j) c raw w) as Hfit.
  destruct (convert_same K E E' HE HR HS _ _ Hr c _ _ raw raw' _ _ w H0 Hraw Ht Hmap F0 Fr) as [Q1 Q2].
  unfold model_init.
  destruct (model__convert E (conv_at E j) c (MD [] [] [] None) raw (VDict []) w) as [m1 r1],
           (model__convert E' (conv_at E' j) c (MD [] [] [] None) raw' (VDict []) w) as [m2 r2]. cbn [fst snd] in *.
  destruct Q2 as [d e Hd|a b Hab]; [|now constructor].
  pose proof (set_conv_same _ _ _ _ _ Q1 Hd) as Hs. destruct (kw_validate w); [|now constructor].
  set (w' := KW _ _ _ _ _ _ _ _).
  specialize (Hfit d (conv_at_fit K E HE HS HA j) Fr Hmap Hconv eq_refl).
  destruct (validate_same K E E' HE HR HS _ _ Hr c _ _ w' Hs eq_refl Hfit) as [Q3 Q4].
  destruct (model_validate E (conv_at E j) c (md_set_converted m1 d) w') as [m3 o3],
           (model_validate E' (conv_at E' j) c (md_set_converted m2 e) w') as [m4 o4].
  cbn [fst snd] in *. destruct Q4; now constructor.
Qed.
