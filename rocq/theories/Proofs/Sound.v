(** Converted and validated values are right at every depth. *)
From Verif.Model Require Import Py Core Export Api.
From Verif.Spec Require Import ImportSpec ValidateSpec CompoundSpec.
From Verif.Proofs Require Import DictLemmas ImportLemmas ApiLemmas ImportApi ValidateLemmas CompoundLemmas PolyLemmas Idem.

Lemma built_lookup fc x fs l n f : built fc x fs l -> NoDup (dkeys fs) -> In (n, f) fs ->
  exists v0, fc (fd_spec f) v0 x = Ok (match dget n l with Some v => v | None => VUndef end).
Proof.
  intros Hb. induction Hb as [|n' f' v0 w fs l Hw Hu Hb IH|n' f' v0 fs l Hw Hc Hb IH]; intros Hn Hi; [destruct Hi| |].
  - inversion Hn as [|? ? N1 N2]; subst. destruct Hi as [[= -> ->]|Hi].
    + cbn. rewrite key_eqb_refl. eauto.
    + cbn. destruct (key_eqb_spec n n') as [->|_]; [|auto]. exfalso; apply N1. apply (in_map fst) in Hi; exact Hi.
  - inversion Hn as [|? ? N1 N2]; subst. destruct Hi as [[= -> ->]|Hi]; [|auto].
    replace (dget n l) with (@None pyval); [eauto|]. symmetry. apply dget_None_keys. intros K; apply N1.
    eapply built_keys; eassumption.
Qed.

Section S.
  Context (E : env) (HT : tidy_env E) (Hrefl : forall c, e_issub E c c = true) (x : ictx) (Hx : plain_ctx x).
  Let part := cx_partial x.
  Let chk := cx_validate x.

  Definition sound_at (j : nat) : Prop := forall f,
    (forall v w, cv_field (conv_at E j) f v x = Ok w -> sound E part chk f w) /\
    (forall v w, is_nil v = false -> (chk = false \/ not_union f) -> cv_convert (conv_at E j) f v x = Ok w ->
       shape E part chk (fs_type f) w) /\
    (forall v w, is_nil v = false -> chk = true -> cv_validate (conv_at E j) f v x = Ok w ->
       fits E part chk f w).

  Lemma shape_fits f w : chk = false -> shape E part chk (fs_type f) w -> fits E part chk f w.
  Proof.
    intros K H. destruct f as [o t]. apply fi_some; [exact H|]. destruct t; try exact I; intros K'; congruence.
  Qed.

  Lemma model_new_sound fc pre c v w : (forall f v w, fc f v x = Ok w -> sound E part chk f w) ->
    model_new E fc pre c v x = Ok w -> exists m, w = VModel c m /\ sound_model E part chk c m.
  Proof.
    intros Hf H. apply (model_new_ok E HT fc pre x Hx) in H as (data & -> & Hb & Hv).
    eexists; split; [reflexivity|]. constructor.
    - intros n f Hi. destruct (built_lookup _ _ _ _ n f Hb (ti_nodup E HT c) Hi) as [v0 H]. eapply Hf; exact H.
    - intros y. apply (built_keys _ _ _ _ Hb).
    - intros Hc n f e Hi Ho. specialize (Hv Hc).
      assert (Hnd : NoDup (dkeys data)) by (eapply built_NoDup; [exact Hb|apply (ti_nodup E HT)]).
      destruct (validate_model_ok _ _ _ (ti_readonly E HT c) _ _ _ (ti_nodup E HT c) Hnd Hv) as (_ & K & _).
      destruct (K n f e Hi Ho) as [K1 _]. destruct Ho as (v1 & vf & G & _). congruence.
  Qed.

  Lemma sound_step j : sound_at j -> sound_at (S j).
  Proof.
    intros IH f.
    assert (HF : forall f v w, cv_field (conv_at E j) f v x = Ok w -> sound E part chk f w) by (intros g; apply (IH g)).
    assert (HC : forall v w, is_nil v = false -> (chk = false \/ not_union f) -> convert_step E (conv_at E j) f v x = Ok w ->
       shape E part chk (fs_type f) w).
    { intros v w Nv Hu. unfold convert_step. destruct f as [o [l|ms|c|p|g|g ck]]; cbn [fs_type] in *.
      - intros H. econstructor; exact H.
      - destruct Hu as [Hu|Hu]; [|destruct Hu].
        destruct (union_resolve _ ms v) as [[m w']|] eqn:U; cbn [rbind]; [|discriminate]. intros [= <-].
        apply union_In in U as [U1 U2]. eapply sh_union; [exact U1|]. apply shape_fits; [exact Hu|].
        eapply (IH m); [exact Nv|auto|exact U2].
      - destruct Hx as (_ & _ & Hc & Ho). unfold model_convert. rewrite Hc, Ho. cbn [andb].
        destruct v; try discriminate.
        + intros H. apply model_new_sound in H as (m & -> & H); [|exact HF]. now constructor.
        + destruct (e_issub E c0 c) eqn:I; [|discriminate]. intros H.
          apply model_new_sound in H as (m' & -> & H); [|exact HF]. now constructor.
      - unfold poly_convert.
        replace (is_none v) with false by (unfold is_nil in Nv; destruct v; cbn in *; congruence).
        destruct (negb (cx_validate x) && poly_allowed E p v) eqn:A.
        { intros [= <-]. apply andb_true_iff in A as [A1 A2]. apply negb_true_iff in A1. now apply sh_poly_given. }
        destruct (negb (cx_validate x) && negb _) eqn:B; [discriminate|].
        destruct (find_model E p v) as [c|] eqn:F; cbn [rbind]; [|discriminate]. intros H.
        apply model_new_sound in H as (m' & -> & H); [|exact HF]. eapply sh_poly; eassumption.
      - intros H. apply list_convert_ok in H as (l & ws & _ & -> & H). constructor.
        induction H as [|a b l ws Hab H IHl]; [intros ? []|]. intros w [<-|Hw]; [eapply HF; exact Hab|auto].
      - intros H. apply dict_convert_ok in H as (d & ps & _ & -> & H). constructor.
        + apply NoDup_dupdate; constructor.
        + intros y w Hw. apply dupdate_In in Hw as [[]|Hw]; [|constructor].
          clear Hu Nv. induction H as [|a [y' b] l ws [Ha1 Ha2] H IHl]; [destruct Hw|].
          destruct Hw as [[= -> ->]|Hw]; [|auto]. cbn in *. split; [eapply HF; exact Ha1|eauto]. }
    assert (HV : forall v w, is_nil v = false -> chk = true -> validate_step (conv_at E j) f v x = Ok w ->
       fits E part chk f w).
    { intros v w Nv Hk. unfold validate_step. destruct Hx as (_ & _ & Hc & _). rewrite Hc.
      assert (G : not_union f -> rbind (cv_convert (conv_at E j) f v x) (validators_result (fo_validators (fs_opts f))) = Ok w ->
        fits E part chk f w).
      { intros Hu. destruct (cv_convert (conv_at E j) f v x) as [w'|] eqn:C; cbn [rbind]; [|discriminate]. intros R.
        apply validators_success in R as [-> R]. apply (IH f) in C; [|exact Nv|auto].
        destruct f as [o t]; cbn [fs_type fs_opts] in *. apply fi_some; [exact C|].
        destruct t; try (intros _; exact R). exact I. }
      destruct f as [o t]; cbn [fs_type fs_opts] in *. destruct t as [l|ms|c|p|g|g ck]; try (apply G; exact I).
      destruct (union_resolve _ ms v) as [[m w']|] eqn:U; cbn [rbind]; [|discriminate]. intros R.
      apply union_In in U as [U1 U2]. apply fi_some; [|exact I]. eapply sh_union; [exact U1|].
      eapply (IH m); eassumption. }
    split; [|split; [exact HC|exact HV]].
    intros v w. cbn [conv_at conv_step cv_field]. unfold field_step.
    destruct (check_required f v x) eqn:Q; [discriminate|].
    destruct (is_nil v) eqn:Nv.
    { intros [= <-]. apply so_nil; [exact Nv|]. intros Rq. revert Q. unfold check_required. rewrite Rq, Nv. cbn [andb].
      fold part. destruct (fo_named _), part; cbn; auto; discriminate. }
    intros H. assert (V : chk = true \/ chk = false) by (destruct chk; auto).
    destruct V as [V|V]; unfold chk in V; rewrite V in H.
    - apply so_some. eapply (IH f); try eassumption.
    - apply (IH f) in H; [|exact Nv|auto]. apply so_some. now apply shape_fits.
  Qed.

  Lemma sound_all j : sound_at j.
  Proof. induction j; [|now apply sound_step]. intros f. repeat split; intros; discriminate. Qed.
End S.

(** Model(raw) builds sound values. *)
Lemma init_sound E j c d w m : tidy_env E -> (forall c, e_issub E c c = true) ->
  kw_validate w = false -> kw_mapping w = no_mapping -> kw_convert w = true ->
  model_init E (conv_at E j) c (VDict d) (VDict []) w = Ok m ->
  sound_model E (kw_partial w) false c m.
Proof.
  intros HT Hr Hv Hm Hc. rewrite init_plain by assumption.
  set (x := kw_ctx w (VDict [])). assert (Hx : plain_ctx x) by (repeat split; assumption).
  destruct (empty_loop E HT (cv_field (conv_at E j)) (cv_pre (conv_at E j)) x Hx c NoAlias d (or_introl eq_refl)) as (_ & L2 & _).
  destruct (lo_res _) as [data|] eqn:L; cbn [rbind]; [|discriminate].
  intros [= <-]. specialize (L2 data eq_refl). unfold md_set_converted; cbn.
  constructor.
  - intros n f Hi. destruct (built_lookup _ _ _ _ n f L2 (ti_nodup E HT c) Hi) as [v0 H].
    assert (Hs := sound_all E HT Hr x Hx j). apply Hs in H. cbn in H. rewrite Hv in H. exact H.
  - intros y. apply (built_keys _ _ _ _ L2).
  - discriminate.
Qed.

(** validate() leaves sound values. *)
Lemma validate_sound E j c m w m' : tidy_env E -> (forall c, e_issub E c c = true) ->
  kw_mapping w = no_mapping -> kw_convert w = true ->
  defined_layers m -> NoDup (dkeys (md_converted m)) -> (md_converted m <> [] \/ kw_partial w = false) ->
  model_validate E (conv_at E j) c m w = (m', None) ->
  (forall n f, In (n, f) (fields_of E c) ->
     sound E (kw_partial w) true (fd_spec f) (match chain_get m' n with Some v => v | None => VUndef end)).
Proof.
  intros HT Hr Hm Hc Hd Hk Hrun H n f Hi.
  apply validate_ok in H as (data & -> & L & _); try assumption;
    [|apply (ti_nodup E HT)|apply (ti_plain E HT)|apply (ti_readonly E HT)].
  apply (loop_built E HT j c w Hm Hc m data Hd Hk) in L.
  destruct (built_lookup _ _ _ _ n f L (ti_nodup E HT c) Hi) as [v0 H].
  apply (sound_all E HT Hr _ (vctx_plain w Hm Hc m) j) in H. cbn in H. exact H.
Qed.
