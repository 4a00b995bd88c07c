(** Adding a field to an existing class. *)
From Verif.Model Require Import Py Core Export Meta Append.
From Verif.Spec Require Import MetaSpec AppendSpec.
From Verif.Proofs Require Import DictLemmas MetaHeap MetaClass MetaFacts MetaOrder MetaOthers AppendExport.
From Coq Require Import Lia.

Lemma cupd_length l : forall n f, length (cupd l n f) = length l.
Proof. induction l as [|k r IH]; intros [|n] f; cbn; auto. Qed.
Lemma cupd_eq l : forall n f, nth_error (cupd l n f) n = option_map f (nth_error l n).
Proof. induction l as [|k r IH]; intros [|n] f; cbn; auto. Qed.
Lemma cupd_neq l : forall n m f, n <> m -> nth_error (cupd l n f) m = nth_error l m.
Proof. induction l as [|k r IH]; intros [|n] [|m] f N; cbn; auto; congruence. Qed.

Lemma inside_chain h a b d : inside h a b -> inside h b d -> inside h a d.
Proof. intros I J. induction I as [a o i E K|a o i b E K I IH]; eapply inside_deep; eauto. Qed.

Section Append.
  Context (P : program) (W : wf P) (c : cid) (kc : cls) (Kc : class_at P c = Some kc)
    (x : key) (a : addr) (U : unused P a).

  Let h := p_heap P.
  Let h' := setup (length h) h a true c.
  Let P' := append_field P c x a.
  Let kc' := put_field x a kc.

  Lemma P'_is : P' = Prog h' (cupd (p_classes P) (N.to_nat c) (put_field x a)).
  Proof using Kc. unfold P', append_field. now rewrite Kc. Qed.

  Lemma a_range : a < length h.
  Proof using U. destruct U as ((o & E & _) & _). apply nth_error_Some. unfold h. congruence. Qed.

  Lemma h'_kinds : same_kinds h h'.
  Proof using W U. apply setup_same_kinds; [exact (w_ordered P W)| |]; exact a_range. Qed.
  Lemma h'_len : length h' = length h.
  Proof using W U. exact (same_kinds_length _ _ h'_kinds). Qed.

  Lemma h'_spec b : (b = a /\ nth_error h' b = option_map (set_up true c) (nth_error h b)) \/
    (inside h a b /\ nth_error h' b = option_map (set_up false c) (nth_error h b)) \/
    (b <> a /\ ~ inside h a b /\ nth_error h' b = nth_error h b).
  Proof using W U. apply setup_spec; [exact (w_ordered P W)| |]; exact a_range. Qed.

  Lemma inside_elem b d : inside h b d -> is_element P d.
  Proof using. clear. intros I. apply inside_element in I. destruct I as (e & o & E & K). exists e, o. auto. Qed.

  (** Objects of the classes. *)
  Lemma kept_obj b : in_schema P b -> nth_error h' b = nth_error h b.
  Proof using W U.
    intros S. destruct (h'_spec b) as [[-> _]|[[I _]|(_ & _ & E)]]; [|exfalso|exact E].
    - destruct U as (_ & N & _). contradiction.
    - apply inside_elem in I. now apply (w_top P W b).
  Qed.

  Lemma kept_read b : in_schema P b -> elements_owned c (read (length h) h b) (read (length h') h' b).
  Proof using W U.
    intros S.
    assert (b < length h) as L by (destruct S as (k & y & e & Ik & Ie & <-); now apply (w_range P W k y)).
    rewrite h'_len. apply read_elements; [exact (w_ordered P W)|exact L|exact L|now apply kept_obj|].
    intros d J. destruct (h'_spec d) as [[-> _]|[[I E]|(_ & _ & E)]].
    - exfalso. apply inside_elem in J. now destruct U as (_ & _ & N).
    - right. split; [exact E|]. intros d' D.
      destruct (h'_spec d') as [[-> _]|[[_ E']|(_ & N & _)]].
      + exfalso. apply inside_elem in D. now destruct U as (_ & _ & N).
      + exact E'.
      + exfalso. apply N. eapply inside_chain; eassumption.
    - now left.
  Qed.

  Lemma kept_read_own b : own_elements P a -> in_schema P b -> read (length h') h' b = read (length h) h b.
  Proof using W U.
    intros O S. rewrite h'_len. apply read_frame; [now apply kept_obj|]. intros d J.
    destruct (h'_spec d) as [[-> _]|[[I _]|(_ & _ & E)]]; [exfalso|exfalso|exact E].
    - apply inside_elem in J. now destruct U as (_ & _ & N).
    - exact (O d b I S J).
  Qed.

  Lemma new_read : read (length h') h' a = rebrand true c (read (length h) h a).
  Proof using W U.
    rewrite h'_len. apply read_set_up; [exact (w_ordered P W)|exact a_range|exact a_range| |].
    - destruct (h'_spec a) as [[_ E]|[[I _]|(N & _)]]; [exact E| |congruence].
      exfalso. apply inside_elem in I. now destruct U as (_ & _ & N).
    - intros b I. destruct (h'_spec b) as [[-> _]|[[_ E]|(_ & N & _)]]; [|exact E|contradiction].
      exfalso. apply inside_elem in I. now destruct U as (_ & _ & N).
  Qed.

  (** Classes. *)
  Lemma c_at : class_at P' c = Some kc'.
  Proof using Kc. rewrite P'_is. unfold class_at in *. cbn [p_classes]. now rewrite cupd_eq, Kc. Qed.
  Lemma other_at d : d <> c -> class_at P' d = class_at P d.
  Proof using Kc.
    intros N. rewrite P'_is. unfold class_at. cbn [p_classes]. apply cupd_neq. intros E. apply N.
    apply Nnat.N2Nat.inj. now symmetry.
  Qed.

  Lemma c_schema y e : dget y (cl_fields kc) = Some e -> in_schema P (en_type e).
  Proof using Kc. intros G. exists kc, y, e. split; [now apply (class_at_In P c)|]. split; [now apply dget_In|reflexivity]. Qed.

  Lemma appended : field_of P' c x = Some (rebrand_field c (field_object P a)).
  Proof using W Kc U.
    rewrite (field_of_class P' c kc' x c_at). cbn [kc' put_field cl_fields]. rewrite dget_dset_eq. cbn [option_map].
    rewrite P'_is. cbn [p_heap]. unfold field_at, rebrand_field, field_object. cbn [en_type en_get en_set fd_spec fd_get fd_set].
    now rewrite new_read.
  Qed.

  Lemma names_after : names_of P' c = if kmem x (names_of P c) then names_of P c else names_of P c ++ [x].
  Proof using W Kc.
    rewrite (names_of_class P' c kc' c_at), (names_of_class P c kc Kc). cbn [kc' put_field cl_fields].
    destruct (kmem x (dkeys (cl_fields kc))) eqn:E.
    - apply kmem_In in E. now apply dkeys_dset_mem.
    - apply kmem_nIn in E. rewrite dkeys_dset_new by exact E. unfold dkeys. now rewrite map_app.
  Qed.

  Lemma other_fields d y f : (d = c -> y <> x) -> field_of P d y = Some f -> exists f', field_of P' d y = Some f' /\
     elements_owned c (fd_spec f) (fd_spec f') /\ fd_get f' = fd_get f /\ fd_set f' = fd_set f.
  Proof using W Kc U.
    intros Ny G. destruct (class_at P d) as [k|] eqn:K; [|rewrite (field_of_none P d y K) in G; discriminate].
    rewrite (field_of_class P d k y K) in G. destruct (dget y (cl_fields k)) as [e|] eqn:D; [|discriminate].
    injection G as <-.
    assert (in_schema P (en_type e)) as S.
    { exists k, y, e. split; [now apply (class_at_In P d)|]. split; [now apply dget_In|reflexivity]. }
    assert (field_of P' d y = Some (field_at h' e)) as ->.
    { destruct (N.eq_dec d c) as [->|N].
      - rewrite (field_of_class P' c kc' y c_at). cbn [kc' put_field cl_fields].
        rewrite dget_dset_neq by now apply Ny. assert (k = kc) as Ek by congruence. subst k. rewrite D, P'_is. reflexivity.
      - rewrite (field_of_class P' d k y) by now rewrite other_at. rewrite D, P'_is. reflexivity. }
    eexists. split; [reflexivity|]. cbn. split; [now apply kept_read|auto].
  Qed.

  Lemma other_names d : d <> c -> names_of P' d = names_of P d.
  Proof using Kc.
    intros N. pose proof (other_at d N) as E. destruct (class_at P d) as [k|] eqn:K.
    - now rewrite (names_of_class P' d k E), (names_of_class P d k K).
    - unfold names_of, env_of. cbn. now rewrite K, E.
  Qed.

  Lemma class_rest d : let k := e_class (env_of P) d in let k' := e_class (env_of P') d in
    mc_validators k' = mc_validators k /\ mc_roles k' = mc_roles k /\ mc_level k' = mc_level k /\ mc_claim k' = mc_claim k.
  Proof using Kc.
    unfold env_of. cbn [e_class]. destruct (N.eq_dec d c) as [->|N].
    - rewrite c_at, Kc. cbn. auto.
    - rewrite (other_at d N). destruct (class_at P d); cbn; auto.
  Qed.

  Lemma bases_same d : option_map cl_bases (class_at P' d) = option_map cl_bases (class_at P d).
  Proof using Kc. destruct (N.eq_dec d c) as [->|N]; [now rewrite c_at, Kc|now rewrite other_at]. Qed.

  Lemma issub_same n : forall d e, issub n P' d e = issub n P d e.
  Proof using Kc.
    induction n as [|n IH]; intros d e; [reflexivity|]. cbn [issub]. pose proof (bases_same d) as B.
    destruct (class_at P' d) as [k'|], (class_at P d) as [k|]; try discriminate B; [|reflexivity].
    cbn in B. injection B as ->. f_equal. induction (cl_bases k) as [|b l IHl]; [reflexivity|]. cbn. now rewrite IH, IHl.
  Qed.
  Lemma classes_len : length (p_classes P') = length (p_classes P).
  Proof using Kc. rewrite P'_is. cbn. apply cupd_length. Qed.
  Lemma direct_same d : direct_subs P' d = direct_subs P d.
  Proof using Kc.
    unfold direct_subs. rewrite classes_len. apply filter_ext. intros e. pose proof (bases_same e) as B.
    destruct (class_at P' e) as [k'|], (class_at P e) as [k|]; try discriminate B; [|reflexivity].
    cbn in B. now injection B as ->.
  Qed.
  Lemma subs_same n : forall d, all_subs n P' d = all_subs n P d.
  Proof using Kc.
    induction n as [|n IH]; intros d; [reflexivity|]. cbn [all_subs]. rewrite direct_same.
    apply flat_map_ext. intros e. now rewrite IH.
  Qed.
  Lemma hierarchy : (forall d e, e_issub (env_of P') d e = e_issub (env_of P) d e) /\
    forall d, e_subs (env_of P') d = e_subs (env_of P) d.
  Proof using Kc. cbn. rewrite classes_len. split; [apply issub_same|apply subs_same]. Qed.

  (** No class is changed if the element types are not shared. *)
  Lemma map_entries k : own_elements P a -> In k (p_classes P) ->
    map (fun p => (fst p, field_at h' (snd p))) (cl_fields k) = map (fun p => (fst p, field_at h (snd p))) (cl_fields k).
  Proof using W U.
    intros O Ik. apply map_ext_in. intros [y e] Ie. cbn. unfold field_at.
    rewrite kept_read_own; [reflexivity|exact O|]. exists k, y, e. auto.
  Qed.
  Lemma other_class d : own_elements P a -> d <> c -> e_class (env_of P') d = e_class (env_of P) d.
  Proof using W Kc U.
    intros O N. unfold env_of. cbn [e_class]. rewrite (other_at d N). destruct (class_at P d) as [k|] eqn:K; [|reflexivity].
    unfold class_of. rewrite P'_is. cbn [p_heap]. rewrite map_entries; [reflexivity|exact O|now apply (class_at_In P d)].
  Qed.
  Lemma this_class : own_elements P a -> field_of P c x = None ->
    e_class (env_of P') c = let k := e_class (env_of P) c in
      MC (mc_fields k ++ [(x, rebrand_field c (field_object P a))]) (mc_validators k) (mc_roles k) (mc_level k) (mc_claim k).
  Proof using W Kc U.
    intros O N. unfold env_of. cbn [e_class]. rewrite c_at, Kc. unfold class_of. cbn [kc' put_field cl_fields cl_opts cl_validators cl_claim mc_fields mc_validators mc_roles mc_level mc_claim].
    rewrite (field_of_class P c kc x Kc) in N.
    assert (dget x (cl_fields kc) = None) as N' by (destruct (dget x (cl_fields kc)); [discriminate|reflexivity]).
    apply dget_None_keys in N'. rewrite dkeys_dset_new by exact N'. rewrite map_app, P'_is. cbn [p_heap map fst snd].
    rewrite map_entries; [|exact O|now apply (class_at_In P c)]. unfold field_at at 2, rebrand_field, field_object.
    cbn [en_type en_get en_set fd_spec fd_get fd_set]. now rewrite new_read.
  Qed.

  Theorem export_unchanged cx : own_elements P a -> field_of P c x = None -> getters_lack P c x ->
    (get_export_level (env_of P) (fd_spec (rebrand_field c (field_object P a))) cx <= DEFAULT)%Z ->
    forall n f v, lacks c x v -> export_at (env_of P') n f v cx = export_at (env_of P) n f v cx.
  Proof using W Kc U.
    intros O N G. apply export_same.
    - apply hierarchy.
    - intros d. now apply other_class.
    - now apply this_class.
    - exact N.
    - reflexivity.
    - intros d y f g m w. apply G.
  Qed.

  (** ** The invariant *)
  Lemma class_cases n k : nth_error (p_classes P') n = Some k ->
    (n = N.to_nat c /\ k = kc') \/ (n <> N.to_nat c /\ nth_error (p_classes P) n = Some k).
  Proof using Kc.
    intros E. rewrite P'_is in E. cbn [p_classes] in E. destruct (Nat.eq_dec n (N.to_nat c)) as [->|N].
    - left. split; [reflexivity|]. rewrite cupd_eq in E. unfold class_at in Kc. rewrite Kc in E. cbn in E. now injection E.
    - right. split; [exact N|]. rewrite cupd_neq in E by congruence. exact E.
  Qed.
  Lemma entry_cases k y e : In k (p_classes P') -> In (y, e) (cl_fields k) ->
    (y = x /\ e = En a None None) \/ exists k0, In k0 (p_classes P) /\ In (y, e) (cl_fields k0).
  Proof using W Kc.
    intros Ik Ie. apply In_nth_error in Ik. destruct Ik as (n & E). apply class_cases in E.
    destruct E as [[_ ->]|[_ E]]; [|right; exists k; split; [now apply nth_error_In in E|exact Ie]].
    cbn [kc' put_field cl_fields] in Ie.
    apply In_dget in Ie; [|apply NoDup_dset, (w_nodup P W), (class_at_In P c), Kc].
    rewrite dget_dset in Ie. destruct (key_eqb_spec y x) as [->|N]; [left; split; congruence|right].
    exists kc. split; [now apply (class_at_In P c)|now apply dget_In].
  Qed.

  Lemma append_wf : field_of P c x = None -> wf P'.
  Proof using W Kc U.
    intros New.
    assert (~ In x (dkeys (cl_fields kc))) as Nx.
    { apply dget_None_keys. rewrite (field_of_class P c kc x Kc) in New. destruct (dget x (cl_fields kc)); [discriminate|reflexivity]. }
    assert (forall k0, In k0 (p_classes P) -> exists k0', In k0' (p_classes P') /\ forall p, In p (cl_fields k0) -> In p (cl_fields k0')) as Up.
    { intros k0 I. apply In_nth_error in I. destruct I as (n & E). destruct (Nat.eq_dec n (N.to_nat c)) as [->|N].
      - unfold class_at in Kc. assert (k0 = kc) as -> by congruence. exists kc'. split; [now apply (class_at_In P' c), c_at|].
        intros p I. cbn [kc' put_field cl_fields]. rewrite dkeys_dset_new by exact Nx. apply in_or_app. now left.
      - exists k0. split; [|auto]. apply nth_error_In with (n := n). rewrite P'_is. cbn [p_classes]. rewrite cupd_neq by congruence. exact E. }
    assert (p_heap P' = h') as HP by now rewrite P'_is.
    assert (pos_at h' a = Z.of_nat a) as Pa.
    { rewrite (same_kinds_pos h h' a h'_kinds). destruct U as ((o & E & Po) & _). unfold pos_at, h. now rewrite E. }
    constructor; rewrite ?HP.
    - exact (same_kinds_ordered _ _ h'_kinds (w_ordered P W)).
    - intros k y e Ik Ie. rewrite h'_len. destruct (entry_cases k y e Ik Ie) as [[_ ->]|(k0 & I & J)]; [exact a_range|].
      now apply (w_range P W k0 y).
    - intros k Ik. apply In_nth_error in Ik. destruct Ik as (n & E). apply class_cases in E.
      destruct E as [[_ ->]|[_ E]]; [|apply nth_error_In in E; now apply (w_nodup P W)].
      apply NoDup_dset, (w_nodup P W), (class_at_In P c), Kc.
    - intros k Ik. apply In_nth_error in Ik. destruct Ik as (n & E). apply class_cases in E.
      destruct E as [[_ ->]|[_ E]]; [|apply nth_error_In in E; now apply (w_vnodup P W)].
      exact (w_vnodup P W kc (class_at_In P c kc Kc)).
    - intros b (k & y & e & Ik & Ie & <-) (d & o & E & K). rewrite HP in E.
      destruct (same_kinds_get _ _ _ _ (same_kinds_sym _ _ h'_kinds) E) as (o' & E' & K' & _).
      assert (is_element P (en_type e)) as El by (exists d, o'; split; [exact E'|congruence]).
      destruct (entry_cases k y e Ik Ie) as [[_ ->]|(k0 & I & J)].
      + now destruct U as (_ & _ & N).
      + apply (w_top P W (en_type e)); [now exists k0, y, e|exact El].
    - intros n k y e Ik Ie. destruct (class_cases n k Ik) as [[-> ->]|[_ Io]].
      + cbn [kc' put_field cl_fields] in Ie. rewrite dkeys_dset_new in Ie by exact Nx. apply in_app_or in Ie.
        destruct Ie as [Ie|[Ie|[]]].
        * destruct (w_set P W (N.to_nat c) kc y e Kc Ie) as (o & E & R). exists o. split; [|exact R].
          rewrite kept_obj; [exact E|]. exists kc, y, e. split; [now apply (class_at_In P c)|auto].
        * injection Ie as <- <-. cbn. destruct U as ((o & E & _) & _ & Ne).
          destruct (h'_spec a) as [[_ Ea]|[[I _]|(N & _)]]; [| |congruence].
          -- fold h in E. rewrite E in Ea. cbn in Ea. exists (set_up true c o). split; [exact Ea|]. split; [reflexivity|].
             cbn. now rewrite Nnat.N2Nat.id.
          -- exfalso. now apply inside_elem in I.
      + destruct (w_set P W n k y e Io Ie) as (o & E & R). exists o. split; [|exact R].
        rewrite kept_obj; [exact E|]. exists k, y, e. split; [now apply nth_error_In in Io|auto].
    - intros k y e Ik Ie. rewrite (same_kinds_pos h h' _ h'_kinds).
      destruct (entry_cases k y e Ik Ie) as [[-> ->]|(k0 & I & J)].
      + exists k, (En a None None). split; [exact Ik|]. split; [exact Ie|]. cbn.
        rewrite <- (same_kinds_pos h h' _ h'_kinds). now rewrite Pa.
      + destruct (w_origin P W k0 y e I J) as (k1 & e1 & I1 & J1 & E1).
        destruct (Up k1 I1) as (k1' & I1' & Inc). exists k1', e1. split; [exact I1'|]. split; [now apply Inc|exact E1].
    - intros k y e k2 y2 e2 Ik Ie Ik2 Ie2 E.
      destruct (entry_cases k y e Ik Ie) as [[-> ->]|(k0 & I & J)], (entry_cases k2 y2 e2 Ik2 Ie2) as [[-> ->]|(k3 & I3 & J3)].
      + reflexivity.
      + exfalso. destruct U as (_ & N & _). apply N. exists k3, y2, e2. auto.
      + exfalso. destruct U as (_ & N & _). apply N. exists k0, y, e. auto.
      + exact (w_addr P W k0 y e k3 y2 e2 I J I3 J3 E).
    - intros n k b Ik Ib. destruct (class_cases n k Ik) as [[-> ->]|[_ Io]].
      + exact (w_bases P W (N.to_nat c) kc b Kc Ib).
      + exact (w_bases P W n k b Io Ib).
  Qed.
End Append.

Lemma grown_wf P : grown P -> wf P.
Proof.
  induction 1 as [|P o t M IH Hi|P bases attrs own claim M IH B CB|P c x a M IH K N U].
  - exact program0_wf.
  - now apply new_field_wf.
  - now apply define_wf.
  - destruct (class_at P c) as [k|] eqn:Kc; [|congruence]. now apply (append_wf P IH c k Kc x a U).
Qed.

Lemma made_grown P : made P -> grown P.
Proof. induction 1; [apply grown_start|now apply grown_type|now apply grown_class]. Qed.

(** ** The statements *)
Section Statements.
  Context (P : program) (c : cid) (x : key) (a : addr) (G : grown P) (K : class_at P c <> None).

  Lemma c_class : exists k, class_at P c = Some k.
  Proof using K. destruct (class_at P c); [eauto|congruence]. Qed.

  Theorem new_field_appended : unused P a -> field_of (append_field P c x a) c x = Some (rebrand_field c (field_object P a)).
  Proof using G K. intros U. destruct c_class as (k & E). now apply (appended P (grown_wf P G) c k). Qed.

  Theorem names_appended :
    (~ In x (names_of P c) -> names_of (append_field P c x a) c = names_of P c ++ [x]) /\
    (In x (names_of P c) -> names_of (append_field P c x a) c = names_of P c).
  Proof using G K.
    destruct c_class as (k & E). rewrite (names_after P (grown_wf P G) c k E). split; intros I.
    - apply kmem_nIn in I. now rewrite I.
    - apply kmem_In in I. now rewrite I.
  Qed.

  Theorem other_fields_appended d y f : unused P a -> (d = c -> y <> x) -> field_of P d y = Some f ->
    exists f', field_of (append_field P c x a) d y = Some f' /\
      elements_owned c (fd_spec f) (fd_spec f') /\ fd_get f' = fd_get f /\ fd_set f' = fd_set f.
  Proof using G K. intros U. destruct c_class as (k & E). now apply (other_fields P (grown_wf P G) c k). Qed.

  Theorem other_names_appended d : d <> c -> names_of (append_field P c x a) d = names_of P d.
  Proof using G K. destruct c_class as (k & E). now apply (other_names P c k). Qed.

  Theorem other_class_appended d : unused P a -> own_elements P a -> d <> c ->
    e_class (env_of (append_field P c x a)) d = e_class (env_of P) d.
  Proof using G K. intros U. destruct c_class as (k & E). now apply (other_class P (grown_wf P G) c k). Qed.

  Theorem rest_appended :
    (forall d, let k := e_class (env_of P) d in let k' := e_class (env_of (append_field P c x a)) d in
       mc_validators k' = mc_validators k /\ mc_roles k' = mc_roles k /\
       mc_level k' = mc_level k /\ mc_claim k' = mc_claim k) /\
    (forall d e, e_issub (env_of (append_field P c x a)) d e = e_issub (env_of P) d e) /\
    (forall d, e_subs (env_of (append_field P c x a)) d = e_subs (env_of P) d).
  Proof using G K.
    destruct c_class as (k & E). split; [|exact (hierarchy P c k E x a)]. exact (class_rest P c k E x a).
  Qed.

  Theorem export_appended cx n f v : field_of P c x = None -> unused P a -> own_elements P a ->
    getters_lack P c x ->
    (get_export_level (env_of P) (fd_spec (rebrand_field c (field_object P a))) cx <= DEFAULT)%Z ->
    lacks c x v ->
    export_at (env_of (append_field P c x a)) n f v cx = export_at (env_of P) n f v cx.
  Proof using G K.
    intros N U O Ge L La. destruct c_class as (k & E). now apply (export_unchanged P (grown_wf P G) c k E x a U).
  Qed.
End Statements.
