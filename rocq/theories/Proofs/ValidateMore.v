(** More about validation: sequences of model level validators, exact error reports, unions. *)
From Verif.Model Require Import Py Core Export Api.
From Verif.Spec Require Import ImportSpec ValidateSpec CompoundSpec.
From Verif.Proofs Require Import DictLemmas ImportLemmas ApiLemmas ImportApi ValidateLemmas PolyLemmas Fuel.

Lemma recorded_caught e nd : recorded e nd <-> mv_caught e = Some nd.
Proof.
  split; [destruct 1; reflexivity|]. destruct e; cbn; intros [=]; subst; constructor.
Qed.

(** The errors as the loop records them. *)
Definition note (errs : list (key * errnode)) (o : list (key * field * errnode)) : list (key * errnode) :=
  fold_left (fun acc '(n, f, nd) => dset (public_name n f) nd acc) o errs.
Definition names (o : list (key * field * errnode)) : list key := map (fun '(n, f, nd) => n) o.

Lemma loop_calls vfs mut fs : forall data errs bad d e b,
  validate_model_loop vfs mut fs data errs bad = Ok (d, e, b) <->
  exists o, call_seq vfs mut fs data d o /\ e = note errs o /\ b = bad ++ names o.
Proof.
  induction fs as [|[n f] fs IH]; intros data errs bad d e b; cbn [validate_model_loop].
  - split.
    + intros [= <- <- <-]. exists []. repeat split; [constructor|cbn; now rewrite app_nil_r].
    + intros (o & Hc & -> & ->). inversion Hc; subst. cbn. now rewrite app_nil_r.
  - assert (SK : (dget n vfs = None \/ dget n data = None \/ dget n data = Some VUndef) ->
      (validate_model_loop vfs mut fs data errs bad = Ok (d, e, b) <->
       exists o, call_seq vfs mut ((n, f) :: fs) data d o /\ e = note errs o /\ b = bad ++ names o)).
    { intros Hs. rewrite IH. split; intros (o & Hc & He & Hb); exists o; (split; [|auto]).
      - now apply cs_skip.
      - inversion Hc; subst; [assumption| |]; destruct Hs as [Hs|[Hs|Hs]]; congruence. }
    destruct (dget n data) as [v|] eqn:Gd; [|apply SK; auto].
    destruct (dget n vfs) as [vf|] eqn:Gv; [|apply SK; auto].
    destruct (is_undef v) eqn:U.
    { assert (v = VUndef) as -> by (destruct v; discriminate || reflexivity). apply SK; auto. }
    assert (Hv : v <> VUndef) by (intros ->; discriminate).
    destruct (vf mut data v) as [d1 [ex|]] eqn:V.
    + destruct (mv_caught ex) as [nd|] eqn:C.
      * rewrite IH. split.
        -- intros (o & Hc & -> & ->). exists ((n, f, nd) :: o). split; [|split; [reflexivity|cbn; now rewrite <- app_assoc]].
           eapply cs_object; eauto. now apply recorded_caught.
        -- intros (o & Hc & -> & ->). inversion Hc as [| ? ? ? ? ? ? Hs Hr | ? ? ? vf' v' ? d1' ? ? A1 A2 A3 A4 A5 | ? ? ? vf' v' ? d1' ? o' e' nd' A1 A2 A3 A4 A5 A6]; subst.
           ++ destruct Hs as [Hs|[Hs|Hs]]; congruence.
           ++ congruence.
           ++ assert (vf' = vf) as -> by congruence. assert (v' = v) as -> by congruence. rewrite V in A4.
              injection A4 as <- <-. apply recorded_caught in A5. rewrite C in A5. injection A5 as <-.
              exists o'. split; [assumption|]. split; [reflexivity|cbn; now rewrite <- app_assoc].
      * split; [discriminate|]. intros (o & Hc & _).
        inversion Hc as [| ? ? ? ? ? ? Hs Hr | ? ? ? vf' v' ? d1' ? ? A1 A2 A3 A4 A5 | ? ? ? vf' v' ? d1' ? o' e' nd' A1 A2 A3 A4 A5 A6]; subst.
        -- destruct Hs as [Hs|[Hs|Hs]]; congruence.
        -- congruence.
        -- assert (vf' = vf) as -> by congruence. assert (v' = v) as -> by congruence. rewrite V in A4.
           injection A4 as <- <-. apply recorded_caught in A5. congruence.
    + rewrite IH. split; intros (o & Hc & He & Hb); exists o; (split; [|auto]).
      * eapply cs_pass; eauto.
      * inversion Hc as [| ? ? ? ? ? ? Hs Hr | ? ? ? vf' v' ? d1' ? ? A1 A2 A3 A4 A5 | ? ? ? vf' v' ? d1' ? o' e' nd' A1 A2 A3 A4 A5 A6]; subst.
        -- destruct Hs as [Hs|[Hs|Hs]]; congruence.
        -- assert (vf' = vf) as -> by congruence. assert (v' = v) as -> by congruence. rewrite V in A4.
           injection A4 as <-. assumption.
        -- congruence.
Qed.

Lemma call_seq_names vfs mut fs d d' o : call_seq vfs mut fs d d' o ->
  forall n f nd, In (n, f, nd) o -> In (n, f) fs.
Proof. induction 1; intros n' f' nd' Hi; cbn in *; firstorder congruence. Qed.
Lemma call_seq_NoDup vfs mut fs d d' o : call_seq vfs mut fs d d' o -> NoDup (dkeys fs) -> NoDup (names o).
Proof.
  induction 1 as [| |? ? ? ? ? ? ? ? ? ? ? ? ? H IH|n f fs ? ? ? ? ? o ? ? ? ? ? ? ? H IH]; cbn; intros Hn; [constructor| | |];
    inversion Hn; subst; auto.
  constructor; [|auto]. intros K. apply in_map_iff in K as ([[n' f'] nd'] & E1 & K). subst n'.
  apply (call_seq_names _ _ _ _ _ _ H) in K. apply (in_map fst) in K. contradiction.
Qed.

Lemma note_keys o errs s : In s (dkeys (note errs o)) <->
  In s (dkeys errs) \/ exists n f nd, In (n, f, nd) o /\ s = public_name n f.
Proof.
  unfold note; revert errs; induction o as [|[[n f] nd] o IH]; intros errs; cbn [fold_left In].
  - firstorder.
  - rewrite IH, dkeys_dset_in. split.
    + intros [[->|H]|(n' & f' & nd' & H & ->)]; [right; exists n, f, nd; auto|auto|right; exists n', f', nd'; auto].
    + intros [H|(n' & f' & nd' & [[= -> -> ->]|H] & ->)]; auto. right; eauto.
Qed.
Lemma note_get o errs s nd : dget s (note errs o) = Some nd ->
  dget s errs = Some nd \/ exists n f, In (n, f, nd) o /\ s = public_name n f.
Proof.
  unfold note; revert errs; induction o as [|[[n f] nd'] o IH]; intros errs; cbn [fold_left In]; [auto|].
  intros H. apply IH in H as [H|(n' & f' & H & ->)]; [|right; exists n', f'; auto].
  rewrite dget_dset in H. destruct (key_eqb_spec s (public_name n f)) as [->|_]; [|auto].
  injection H as ->. right; exists n, f; auto.
Qed.

Lemma pop_all_some bad d d' : NoDup (dkeys d) -> pop_all bad d = Ok d' ->
  (forall n, In n bad -> In n (dkeys d)) /\ (forall y, dget y d' = if kmem y bad then None else dget y d).
Proof.
  revert d; induction bad as [|n bad IH]; intros d Hn; cbn.
  - intros [= <-]. split; [intros ? []|auto].
  - destruct (dmem n d) eqn:M; [|discriminate]. intros H.
    apply IH in H as [H1 H2]; [|now apply NoDup_ddel]. split.
    + intros y [<-|Hy]; [now apply dmem_In|]. apply H1 in Hy. eapply dkeys_ddel_in; exact Hy.
    + intros y. rewrite H2, dget_ddel by assumption. destruct (key_eqb y n); cbn; [|reflexivity]. now destruct (kmem y bad).
Qed.

(** The model level validators, whatever they do to the data. *)
Lemma model_validators_calls vfs mut fs data d' errs :
  validate_model vfs mut fs data = Ok (d', errs) ->
  exists d1 o, call_seq vfs mut fs data d1 o /\
    (NoDup (dkeys d1) -> forall y, dget y d' = if kmem y (map (fun '(n, _, _) => n) o) then None else dget y d1) /\
    (forall s, In s (dkeys errs) <-> exists n f nd, In (n, f, nd) o /\ s = public_name n f) /\
    (forall s nd, dget s errs = Some nd -> exists n f, In (n, f, nd) o /\ s = public_name n f).
Proof.
  unfold validate_model. destruct (validate_model_loop vfs mut fs data [] []) as [[[d1 e1] b]|] eqn:L; cbn [rbind]; [|discriminate].
  apply loop_calls in L as (o & Hc & -> & ->). cbn [app].
  destruct (pop_all (names o) d1) as [d2|] eqn:P; cbn [rbind]; [|discriminate]. intros [= <- <-].
  exists d1, o. split; [exact Hc|]. split; [|split].
  - intros Hn. now apply (pop_all_some _ _ _ Hn P).
  - intros s. rewrite note_keys. split; [intros [[]|H]; exact H|auto].
  - intros s nd H. apply note_get in H as [H|H]; [discriminate|exact H].
Qed.

(** Conversely the calls determine the outcome. *)
Lemma model_validators_run vfs mut fs data d1 o : NoDup (dkeys fs) -> call_seq vfs mut fs data d1 o ->
  NoDup (dkeys d1) -> (forall n f nd, In (n, f, nd) o -> In n (dkeys d1)) ->
  exists d' errs, validate_model vfs mut fs data = Ok (d', errs).
Proof.
  intros Hf Hc Hn Hi. unfold validate_model.
  assert (L : validate_model_loop vfs mut fs data [] [] = Ok (d1, note [] o, names o)).
  { apply loop_calls. exists o. auto. }
  rewrite L. cbn [rbind].
  destruct (pop_all_ok (names o) d1) as (d2 & -> & _).
  - eapply call_seq_NoDup; eassumption.
  - exact Hn.
  - intros n K. apply in_map_iff in K as ([[n' f] nd] & <- & K). eapply Hi; exact K.
  - cbn [rbind]. eauto.
Qed.

(** A failing validation reports exactly: undeclared keys (strict), fields that fail, fields whose model
    level validator objects. *)
Lemma validate_fail_exact E r c m w m' errs pd :
  NoDup (dkeys (fields_of E c)) -> plain_fields (fields_of E c) -> defined_layers m ->
  NoDup (dkeys (md_converted m)) -> (md_converted m <> [] \/ kw_partial w = false) ->
  readonly_validators (mc_validators (e_class E c)) ->
  model_validate E r c m w = (m', Some (XData errs pd)) ->
  exists data0,
    (forall n f, In (n, f) (fields_of E c) -> dget n data0 =
       value_after (vctx m w) (fd_spec f) (field_outcome E (cv_field r) (vctx m w) (vinput E c m) [] n (fd_spec f)) None) /\
    (forall s, In s (dkeys errs) <->
       (kw_strict w = true /\ rogue_key (fields_of E c) (kw_mapping w) (vinput E c m) s) \/
       (exists n f e, In (n, f) (fields_of E c) /\ fails E (cv_field r) (vctx m w) (vinput E c m) [] n f e /\ s = public_name n f) \/
       (exists n f e, In (n, f) (fields_of E c) /\ objects (mc_validators (e_class E c)) (vmut E c m) data0 n e /\ s = public_name n f)) /\
    (forall n f, In (n, f) (fields_of E c) ->
       (exists e, objects (mc_validators (e_class E c)) (vmut E c m) data0 n e) /\ chain_get m' n = dget n (md_valid m) \/
       (forall e, ~ objects (mc_validators (e_class E c)) (vmut E c m) data0 n e) /\
         chain_get m' n = match dget n data0 with Some v => Some v | None => dget n (md_valid m) end).
Proof.
  intros Hnd Hp Hd Hk Hr Hro H.
  pose proof (validate_fail E r c m w Hnd Hp Hd Hk Hr m' errs pd H) as [V ->].
  destruct (vres_fail E r c m w Hnd Hp Hd Hk Hro errs pd V) as (errs0 & data0 & Hl & Hpd & K1 & K2 & K3).
  exists data0. split; [|split].
  - intros n f Hi. eapply loop_data_value; eassumption.
  - intros s. rewrite K1.
    rewrite (loop_data_errs E r c m w Hnd Hp Hd Hk errs0 data0 s Hl). unfold reported.
    cbn [cx_strict cx_mapping vctx vkw kw_ctx kw_strict kw_mapping].
    split.
    + intros [[A|(n & f & e & A1 & A2 & A3 & A4)]|B]; [auto|right; left; exists n, f, e; auto|auto].
    + intros [A|[(n & f & e & A1 & A2 & A3)|B]]; [auto| |auto].
      left; right. exists n, f, e. repeat split; auto.
      eapply no_setters_handled; [apply plain_no_setters; exact Hp|exact A1].
  - intros n f Hi.
    assert (G : forall y, chain_get (MD [] [] (dupdate (md_valid m) pd) (hidden_after m)) y =
              match dget y pd with Some v => Some v | None => dget y (md_valid m) end).
    { intros y. unfold chain_get; cbn. now rewrite dget_dupdate. }
    assert (Hdata : NoDup (dkeys data0)) by (eapply loop_data_NoDup; eassumption).
    assert (D : (exists e, objects (mc_validators (e_class E c)) (vmut E c m) data0 n e) \/
                (forall e, ~ objects (mc_validators (e_class E c)) (vmut E c m) data0 n e)).
    { unfold objects. destruct (dget n data0) as [v|] eqn:Gd; [|right; intros e (v & vf & A & _); discriminate].
      destruct (dget n (mc_validators (e_class E c))) as [vf|] eqn:Gv; [|right; intros e (v' & vf & _ & _ & A & _); discriminate].
      destruct (is_undef v) eqn:U; [right; intros e (v' & vf' & A & B & _); destruct v; discriminate || congruence|].
      destruct (snd (vf (vmut E c m) data0 v)) as [e|] eqn:S.
      - left. exists e, v, vf. repeat split; auto. intros ->; discriminate.
      - right. intros e (v' & vf' & A & _ & B & C). congruence. }
    destruct D as [[e Ho]|Hno]; [left|right].
    + split; [eauto|]. rewrite G, (K2 n f e Hi Ho). reflexivity.
    + split; [exact Hno|]. rewrite G. rewrite (K3 n); [reflexivity|]. intros f' e _. apply Hno.
Qed.

(** Unions: the value kept has passed the validators of the member that accepted it. *)
(** A validated value is the converted one. *)
Lemma validate_is_convert E x j : cx_convert x = true -> forall f v w, cv_validate (conv_at E j) f v x = Ok w -> cv_convert (conv_at E j) f v x = Ok w.
Proof.
  intros Hc. induction j as [|j IH]; intros f v w; [discriminate|].
  assert (G : rbind (cv_convert (conv_at E j) f v x) (validators_result (fo_validators (fs_opts f))) = Ok w ->
    cv_convert (conv_at E (S j)) f v x = Ok w).
  { destruct (cv_convert (conv_at E j) f v x) as [w'|] eqn:C; cbn [rbind]; [|discriminate]. intros R.
    apply validators_success in R as [-> _]. destruct (conv_at_mono E j (S j)) as [_ M _ _]; [lia|].
    destruct (M f v x) as [M1|M1]; congruence. }
  revert G. cbn [conv_at conv_step cv_validate]. unfold validate_step. rewrite Hc.
  intros G. destruct (fs_type f) as [l|ms|c|p|g|g ck] eqn:Ef; try exact G.
  destruct (union_resolve _ ms v) as [[m w']|] eqn:U; cbn [rbind]; [|discriminate]. intros H. apply IH in H.
  pose proof U as U'. apply union_In in U' as [_ U']. assert (w' = w) as -> by congruence.
  cbn [conv_step cv_convert]. unfold convert_step. rewrite Ef, U. reflexivity.
Qed.

Lemma union_validated E j o ms v x w : cx_validate x = true -> cx_convert x = true ->
  cv_field (conv_at E (S (S j))) (FS o (TUnion ms)) v x = Ok w ->
  is_nil v = true /\ w = v \/
  exists m, first_open (fun m u => cv_convert (conv_at E j) m u x) ms v m /\ cv_convert (conv_at E j) m v x = Ok w /\
    cv_validate (conv_at E j) m v x = Ok w /\ (not_union m -> forall g, In g (fo_validators (fs_opts m)) -> passes g w).
Proof.
  intros Hv Hc. cbn [conv_at conv_step cv_field]. unfold field_step.
  destruct (check_required _ v x); [discriminate|].
  destruct (is_nil v); [intros [= ->]; auto|]. rewrite Hv.
  cbn [conv_step cv_validate]. unfold validate_step at 1. cbn [fs_type].
  destruct (union_resolve _ ms v) as [[m w']|] eqn:U; cbn [rbind]; [|discriminate].
  intros R. right. exists m. apply union_first in U as [U1 U2]. split; [exact U1|].
  split; [now apply validate_is_convert|]. split; [exact R|]. intros Hu.
  destruct j as [|j]; [discriminate|]. revert R. cbn [conv_at conv_step cv_validate]. unfold validate_step. rewrite Hc.
  destruct (fs_type m) eqn:Em; try (destruct (cv_convert (conv_at E j) m v x); cbn [rbind]; [|discriminate];
    intros R; apply validators_success in R as [-> R]; exact R).
  unfold not_union in Hu. rewrite Em in Hu. destruct Hu.
Qed.
