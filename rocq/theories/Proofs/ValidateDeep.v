(** Validation without conversion; construction with validation. *)
From Verif.Model Require Import Py Core Export Api.
From Verif.Spec Require Import ImportSpec ValidateSpec CompoundSpec.
From Verif.Proofs Require Import DictLemmas ImportLemmas ApiLemmas ImportApi ValidateLemmas PolyLemmas ValidateMore Idem Sound ApiMore ValidateWitness.

Lemma field_validate_unconverted E k f v x w :
  not_union f -> cx_convert x = false ->
  (cv_validate (conv_at E (S k)) f v x = Ok w <->
   w = v /\ (is_compound f = true -> exists u, cv_convert (conv_at E k) f v x = Ok u) /\
   forall g, In g (fo_validators (fs_opts f)) -> passes g v).
Proof.
  intros Hu Hx. change (cv_validate (conv_at E (S k)) f v x) with (validate_step (conv_at E k) f v x).
  unfold validate_step. rewrite Hx. unfold not_union in Hu.
  assert (G : rbind (if is_compound f then rbind (cv_convert (conv_at E k) f v x) (fun _ => Ok v) else Ok v)
     (validators_result (fo_validators (fs_opts f))) = Ok w <->
     w = v /\ (is_compound f = true -> exists u, cv_convert (conv_at E k) f v x = Ok u) /\
       forall g, In g (fo_validators (fs_opts f)) -> passes g v).
  { destruct (is_compound f).
    - destruct (cv_convert (conv_at E k) f v x) as [u|e]; cbn [rbind].
      + rewrite validators_success. split; [intros [-> H]; eauto|intros (-> & _ & H); auto].
      + split; [discriminate|]. intros (_ & H & _). destruct (H eq_refl); discriminate.
    - cbn [rbind]. rewrite validators_success. split; [intros [-> H]; repeat split; auto; discriminate|intros (-> & _ & H); auto]. }
  destruct (fs_type f); try exact G. contradiction.
Qed.

Lemma union_validate_unconverted E k o ms v x w : cx_convert x = false ->
  (cv_validate (conv_at E (S k)) (FS o (TUnion ms)) v x = Ok w <->
   w = v /\ exists m u, first_open (fun m u => cv_convert (conv_at E k) m u x) ms v m /\
     cv_convert (conv_at E k) m v x = Ok u /\ cv_validate (conv_at E k) m v x = Ok v).
Proof.
  intros Hx. change (cv_validate (conv_at E (S k)) (FS o (TUnion ms)) v x) with (validate_step (conv_at E k) (FS o (TUnion ms)) v x).
  unfold validate_step. rewrite Hx. cbn [fs_type].
  destruct (union_resolve _ ms v) as [[m u]|e] eqn:U; cbn [rbind].
  - split.
    + intros H. pose proof (validate_no_convert_id _ _ _ Hx _ _ _ H) as ->. apply union_first in U as [U1 U2]. eauto 6.
    + intros (-> & m' & u' & H1 & H2 & H). assert (U' := conj H1 H2). apply union_first in U'. rewrite U in U'.
      now injection U' as -> ->.
  - split; [discriminate|]. intros (_ & m' & u' & H1 & H2 & _). assert (U' := conj H1 H2). apply union_first in U'.
    rewrite U in U'. discriminate.
Qed.

Lemma outcome_defined E fc x d n f v o : field_outcome E fc x d [] n f = o -> (forall e, o <> Fail e) ->
  value_after x f o None = Some v -> v <> VUndef.
Proof.
  intros Ho Hf. unfold field_outcome in Ho. cbn [dget] in Ho.
  destruct (supplied d n f (cx_mapping x)) as [u|]; cbn [dget] in Ho;
    (destruct (fc f _ _) as [w|e] eqn:F in Ho; [|subst o; elim (Hf e); reflexivity]);
    destruct w; subst o; cbn; try discriminate; intros [= <-]; discriminate.
Qed.

Section Init.
  Context (E : env) (HT : tidy_env E) (r : conv) (c : cid) (d : list (key * pyval)) (w : kwargs).
  Hypothesis Hd : defined_dict d.
  Hypothesis Hv : kw_validate w = true.
  Let m0 : mdata pyval := MD [] [] [] None.
  Let x := kw_ctx w (VDict []).
  Let fs := fields_of E c.
  Let Hnd : NoDup (dkeys fs) := ti_nodup E HT c.
  Let Hp : plain_fields fs := ti_plain E HT c.

  Lemma fresh_items : py_dict E (VModel c m0) = Ok [].
  Proof.
    assert (D : defined_data m0) by (intros y; discriminate).
    rewrite (model_items_dict E c m0 Hnd Hp D). f_equal. unfold model_items, model_iter.
    generalize (mc_fields (e_class E c)). intros l. induction l as [|[n f] l IH]; [reflexivity|]. cbn.
    destruct (fd_set f); exact IH.
  Qed.
  Lemma fresh_out a :
    let out := validate_fn E (cv_field r) (cv_pre r) x (e_class E c) (VModel c m0) a (VDict d) in
    (a = NoAlias \/ a = AliasConverted) ->
    (exists dc, lo_mut out = VModel c (MD [] dc [] None)) /\ forall data, lo_res out = Ok data -> NoDup (dkeys data) /\ defined_dict data.
  Proof.
    intros out Ha.
    assert (NS : no_setters fs) by (apply plain_no_setters; exact Hp).
    assert (Heff : effective_input E x fs (VModel c m0) d d).
    { change d with (dupdate d []) at 2. apply eff_validate; [exact Hv|exact NS|apply fresh_items]. }
    assert (Htd : trusted_dict E x []) by apply trusted_dict_kw.
    split.
    - unfold out, validate_fn. cbn [lo_mut]. unfold import_loop. cbn [truthy cx_trusted kw_ctx].
      unfold x. cbn [cx_validate kw_ctx cx_trusted truthy nonempty]. rewrite Hv. cbn [is_none negb andb].
      unfold mutate. rewrite mutate_fields_none by exact NS. rewrite fresh_items.
      destruct Ha as [-> | ->]; cbn [lo_mut set_converted m0 md_unsafe md_valid md_hidden]; eexists; reflexivity.
    - intros data H.
      assert (L : lo_res (import_loop E (cv_field r) (cv_pre r) x fs (VModel c m0) a (VDict d)) = Ok data).
      { revert H. unfold out, validate_fn. cbn [lo_res]. change (mc_fields (e_class E c)) with fs.
        set (lp := import_loop _ _ _ _ _ _ _ _).
        assert (F : forall errs dt, rbind (validate_model (mc_validators (e_class E c)) (lo_mut lp) fs dt)
          (fun '(d0, e) => match dupdate errs e with [] => Ok d0 | p :: l => Raise (XData (p :: l) d0) end) = Ok data ->
          errs = [] /\ data = dt).
        { intros errs dt. destruct (validate_model _ _ _ _) as [[d1 e1]|] eqn:V; cbn [rbind]; [|discriminate].
          destruct (dupdate errs e1) eqn:U; [|discriminate]. apply dupdate_nil_keys in U as [-> ->]. intros [= ->].
          split; [reflexivity|]. eapply validate_model_clean; [|exact Hnd|exact V]. apply (ti_readonly E HT). }
        destruct (lo_res lp) as [dt|e] eqn:R.
        - intros H. apply F in H as [_ ->]. reflexivity.
        - destruct e; try discriminate. intros H. apply F in H as [-> ->]. exfalso.
          unfold lp in R. apply (run_ok_of _ _ _ _ _ _ _ _ _ _ Heff Hd Hnd Htd) in R as (? & _ & R & _). now apply R. }
      split.
      + eapply (result_NoDup _ _ _ _ _ _ _ _ _ _ _ []); try eassumption; [constructor|]. left; exact L.
      + intros y G. destruct (in_dec key_dec y (dkeys fs)) as [I|I].
        * apply in_map_iff in I as ([n f] & <- & I). cbn in G.
          assert (Hh : handled x f) by (left; exact Hv).
          rewrite (data_field _ _ _ _ _ _ _ _ _ _ Heff Hd Hnd Htd data [] n f (or_introl L) I Hh) in G. cbn [dget] in G.
          eapply outcome_defined; [reflexivity| |exact G|reflexivity].
          intros e Fl. apply (success_no_errors _ _ _ _ _ _ _ _ _ _ Heff Hd Hnd Htd data (public_name n f) L).
          right. exists n, f, e. auto.
        * rewrite (data_other _ _ _ _ _ _ _ _ _ _ Heff Hd Hnd Htd data [] y (or_introl L) I) in G. discriminate.
  Qed.
End Init.

Lemma init_validated E j c d w m : tidy_env E -> (forall c, e_issub E c c = true) -> defined_dict d ->
  kw_validate w = true -> kw_convert w = true -> model_init E (conv_at E j) c (VDict d) (VDict []) w = Ok m ->
  md_unsafe m = [] /\
  forall n f, In (n, f) (fields_of E c) ->
    chain_get m n = None /\ kw_partial w = true \/
    sound E (kw_partial w) true (fd_spec f) (match chain_get m n with Some v => v | None => VUndef end).
Proof.
  intros HT Hrefl Hd Hv Hc. unfold model_init, model__convert. cbn [md_unsafe md_converted].
  rewrite truthy_dict. set (a := if nonempty d then NoAlias else AliasConverted).
  replace (if nonempty d then py_dict E (VDict d) else Ok []) with (Ok d) by (destruct d; reflexivity).
  rewrite Hv. replace (if truthy (VDict []) then VDict [] else VDict []) with (VDict []) by reflexivity.
  assert (Ha : a = NoAlias \/ a = AliasConverted) by (unfold a; destruct (nonempty d); auto).
  destruct (fresh_out E HT (conv_at E j) c d w Hd Hv a Ha) as [[dc M] D].
  destruct (validate_fn _ _ _ _ _ _ _ _) as [mut raw res] eqn:V. cbn [lo_mut lo_res] in *. subst mut.
  destruct res as [data|e]; [|discriminate]. destruct (D data eq_refl) as [N1 N2].
  cbn [md_set_converted md_unsafe md_valid md_hidden].
  destruct (model_validate E (conv_at E j) c _ _) as [m3 [e|]] eqn:Y; [discriminate|]. intros [= <-].
  assert (P : data <> [] \/ kw_partial w = false \/ data = [] /\ kw_partial w = true).
  { destruct data; [|left; discriminate]. destruct (kw_partial w); auto. }
  assert (Z : data <> [] \/ kw_partial w = false -> forall n f, In (n, f) (fields_of E c) ->
    sound E (kw_partial w) true (fd_spec f) (match chain_get m3 n with Some v => v | None => VUndef end)).
  { intros K. refine (validate_sound E j c _ _ m3 HT Hrefl _ _ _ _ _ Y); try reflexivity; try exact Hc; [|exact N1|exact K].
    repeat split; try exact N2; intros y; discriminate. }
  destruct P as [P|[P|[P1 P2]]].
  - split; [|intros n f I; right; auto].
    eapply validate_ok_clean in Y as (Y & _); [exact Y|apply (ti_nodup E HT)|apply (ti_plain E HT)| |exact N1|left; exact P|apply (ti_readonly E HT)].
    repeat split; try exact N2; intros y; discriminate.
  - split; [|intros n f I; right; auto].
    eapply validate_ok_clean in Y as (Y & _); [exact Y|apply (ti_nodup E HT)|apply (ti_plain E HT)| |exact N1|right; exact P|apply (ti_readonly E HT)].
    repeat split; try exact N2; intros y; discriminate.
  - subst data. unfold model_validate in Y. cbn [md_converted kw_partial] in Y. rewrite P2 in Y. injection Y as <-.
    split; [reflexivity|]. intros n f I. left. auto.
Qed.
