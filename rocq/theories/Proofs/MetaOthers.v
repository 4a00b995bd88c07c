(** What a class statement does to the other classes; options; the subclass relation. *)
From Verif.Model Require Import Py Core Export Meta.
From Verif.Spec Require Import MetaSpec.
From Verif.Proofs Require Import DictLemmas MetaHeap MetaClass MetaFacts MetaOrder.
From Coq Require Import Lia.

(** ** Other classes *)
Lemma other_classes_wf P bases attrs own claim c : wf P ->
  (forall b, In b bases -> class_at P b <> None) -> class_body P attrs -> class_at P c <> None ->
  let P' := define_class P bases attrs own claim in
  names_of P' c = names_of P c /\
  (forall x f, field_of P c x = Some f -> exists f', field_of P' c x = Some f' /\
     elements_owned (next_class P) (fd_spec f) (fd_spec f') /\ fd_get f' = fd_get f /\ fd_set f' = fd_set f) /\
  mc_validators (e_class (env_of P') c) = mc_validators (e_class (env_of P) c) /\
  mc_roles (e_class (env_of P') c) = mc_roles (e_class (env_of P) c) /\
  mc_level (e_class (env_of P') c) = mc_level (e_class (env_of P) c) /\
  mc_claim (e_class (env_of P') c) = mc_claim (e_class (env_of P) c).
Proof.
  intros W B CB K P'.
  destruct (class_at P c) as [k|] eqn:Kc; [|congruence]. clear K.
  pose proof (old_class_at P W bases attrs own claim B CB c k Kc) as Kc'. fold P' in Kc'.
  split; [|split].
  - now rewrite (names_of_class P c k Kc), (names_of_class P' c k Kc').
  - intros x f G. rewrite (field_of_class P c k x Kc) in G. rewrite (field_of_class P' c k x Kc').
    destruct (dget x (cl_fields k)) as [e|] eqn:D; [|discriminate]. cbn in *. injection G as <-.
    eexists. split; [reflexivity|]. cbn. split; [|split; reflexivity].
    apply (old_read P W bases attrs own claim B CB).
    apply (In_schema P W bases attrs own claim B CB k x); [now apply (class_at_In P c)|now apply dget_In].
  - unfold env_of. cbn. rewrite Kc, Kc'. auto.
Qed.

Theorem other_classes P bases attrs own claim c : made P ->
  (forall b, In b bases -> class_at P b <> None) -> class_body P attrs -> class_at P c <> None ->
  let P' := define_class P bases attrs own claim in
  names_of P' c = names_of P c /\
  (forall x f, field_of P c x = Some f -> exists f', field_of P' c x = Some f' /\
     elements_owned (next_class P) (fd_spec f) (fd_spec f') /\ fd_get f' = fd_get f /\ fd_set f' = fd_set f) /\
  mc_validators (e_class (env_of P') c) = mc_validators (e_class (env_of P) c) /\
  mc_roles (e_class (env_of P') c) = mc_roles (e_class (env_of P) c) /\
  mc_level (e_class (env_of P') c) = mc_level (e_class (env_of P) c) /\
  mc_claim (e_class (env_of P') c) = mc_claim (e_class (env_of P) c).
Proof. intros M. now apply other_classes_wf, made_wf. Qed.

Lemma elements_owned_plain c f f' : elements_owned c f f' -> plain f -> f' = f.
Proof. destruct 1; cbn; auto; contradiction. Qed.

Lemma elements_owned_opts c f f' : elements_owned c f f' -> fs_opts f' = fs_opts f.
Proof. destruct 1; reflexivity. Qed.

Lemma class_eq_fields P P' c k k' : class_at P c = Some k -> class_at P' c = Some k' -> k' = k ->
  NoDup (dkeys (cl_fields k)) ->
  (forall x, field_of P' c x = field_of P c x) -> e_class (env_of P') c = e_class (env_of P) c.
Proof.
  intros K K' -> N E. unfold env_of. cbn. rewrite K, K'. unfold class_of. f_equal.
  apply map_ext_in. intros [x e] I. cbn. f_equal.
  specialize (E x). rewrite (field_of_class P c k x K), (field_of_class P' c k x K') in E.
  rewrite (In_dget x e) in E by assumption. cbn in E. congruence.
Qed.

Theorem plain_classes P bases attrs own claim c : made P ->
  (forall b, In b bases -> class_at P b <> None) -> class_body P attrs -> class_at P c <> None ->
  (forall x f, field_of P c x = Some f -> plain (fd_spec f)) ->
  e_class (env_of (define_class P bases attrs own claim)) c = e_class (env_of P) c.
Proof.
  intros M B CB K Pl. pose proof (made_wf P M) as W.
  destruct (other_classes P bases attrs own claim c M B CB K) as (_ & Fx & _).
  destruct (class_at P c) as [k|] eqn:Kc; [|congruence].
  pose proof (old_class_at P W bases attrs own claim B CB c k Kc) as Kc'.
  eapply class_eq_fields; [exact Kc|exact Kc'|reflexivity|apply (w_nodup P W); now apply (class_at_In P c)|].
  intros x. destruct (field_of P c x) as [f|] eqn:G.
  - destruct (Fx x f G) as (f' & -> & E & Eg & Es). f_equal.
    apply elements_owned_plain in E; [|now apply (Pl x)]. destruct f, f'; cbn in *. congruence.
  - rewrite (field_of_class P c k x Kc) in G. rewrite (field_of_class _ c k x Kc').
    destruct (dget x (cl_fields k)); [discriminate|reflexivity].
Qed.

Theorem no_shared_elements P bases attrs own claim c : made P ->
  (forall b, In b bases -> class_at P b <> None) -> class_body P attrs -> class_at P c <> None ->
  (forall x f, inherits P bases x f -> ~ In x (own_names attrs) -> plain (fd_spec f)) ->
  (forall x t a b d, In (x, t) attrs -> declared_obj t = Some a -> inside (p_heap P) a b ->
     in_schema P d -> ~ inside (p_heap P) d b) ->
  e_class (env_of (define_class P bases attrs own claim)) c = e_class (env_of P) c.
Proof.
  intros M B CB K Pl Un. pose proof (made_wf P M) as W.
  destruct (class_at P c) as [k|] eqn:Kc; [|congruence].
  pose proof (old_class_at P W bases attrs own claim B CB c k Kc) as Kc'.
  pose proof (class_at_In _ _ _ Kc) as Ik.
  eapply class_eq_fields; [exact Kc|exact Kc'|reflexivity|now apply (w_nodup P W)|].
  intros x. rewrite (field_of_class P c k x Kc), (field_of_class _ c k x Kc').
  destruct (dget x (cl_fields k)) as [e|] eqn:D; [|reflexivity]. cbn [option_map]. f_equal.
  unfold field_at. f_equal. rewrite (P'_eq P W bases attrs own claim B CB). cbn [p_heap].
  set (s := fold_left add_attr attrs (fold_left (add_base P) (rev bases) (start P))).
  set (H := ac_heap s). set (fs := sort_fields H (ac_fields s)). set (H' := setup_all (next_class P) H fs).
  assert (in_schema P (en_type e)) as S by (apply (In_schema P W bases attrs own claim B CB k x); [exact Ik|now apply dget_In]).
  assert (en_type e < length (p_heap P)) as L by (apply (w_range P W k x); [exact Ik|now apply dget_In]).
  pose proof (H'_len P W bases attrs own claim B CB) as EL. fold s H fs H' in EL.
  rewrite EL, <- (read_H_old P W bases attrs own claim B CB (en_type e) L).
  fold s H.
  apply read_frame.
  - destruct (old_obj P W bases attrs own claim B CB _ S) as [_ E]. fold s H fs H' in E. rewrite E.
    symmetry. exact (H_old P W bases attrs own claim B CB _ L).
  - intros b J.
    assert (forall a b, inside H a b -> a < length (p_heap P) -> inside (p_heap P) a b) as Hin.
    { intros a d I. induction I as [a o i E Ki|a o i d E Ki I IH]; intros La;
        pose proof (H_old P W bases attrs own claim B CB a La) as Ho; fold s H in Ho; rewrite Ho in E.
      - eapply inside_here; eassumption.
      - eapply inside_deep; [eassumption|eassumption|]. apply IH. pose proof (w_ordered P W a o i E Ki). lia. }
    destruct (H'_spec P W bases attrs own claim B CB b) as [[I _]|[(_ & (t & It & Jt) & _)|(_ & _ & E)]].
    + exfalso. exact (T_not_inside P W bases attrs own claim B CB (en_type e) b I J).
    + exfalso. apply (T_In P W bases attrs own claim B CB) in It. destruct It as (y & e' & Ie & <-).
      apply (fs_In P W bases attrs own claim B CB) in Ie.
      destruct (F_cases P W bases attrs own claim B CB y e' Ie) as [O|(N & e0 & E0 & C)].
      * destruct O as (t & It & O). pose proof (own_range P W bases attrs own claim B CB y e' (ex_intro _ t (conj It O))) as Lo.
        apply (Un y t (en_type e') b (en_type e)).
        -- exact It.
        -- now apply own_entry_obj.
        -- now apply Hin.
        -- exact S.
        -- now apply Hin.
      * assert (plain (fd_spec (field_at (p_heap P) e0))) as Pe.
        { apply (Pl y).
          - apply (inherits_first P W bases attrs own claim B CB). eauto.
          - intros I. apply own_names_In in I. destruct I as (t & a & It & Dt). apply N in It. congruence. }
        destruct (first_entry_schema P W bases attrs own claim B CB y e0 E0) as (k0 & Ik0 & Ie0).
        pose proof (w_range P W k0 y e0 Ik0 Ie0) as L0.
        destruct C as (C & _).
        destruct (nth_error (p_heap P) (en_type e0)) as [o|] eqn:Eo; [|apply nth_error_None in Eo; lia].
        assert (inner_of (ob_kind o) = None) as Io.
        { cbn in Pe. unfold plain in Pe. destruct (length (p_heap P)); [lia|]. cbn in Pe. rewrite Eo in Pe. cbn in Pe.
          destruct (ob_kind o); cbn in *; tauto. }
        fold s in Jt, C. fold H in Jt, C. inversion Jt; subst; congruence.
    + exact E.
Qed.

(** Attributes that are neither fields nor validators. *)
Theorem other_attributes P bases attrs own claim :
  define_class P bases attrs own claim =
  define_class P bases (filter (fun p => match snd p with AOther _ => false | _ => true end) attrs) own claim.
Proof.
  unfold define_class.
  assert (forall s, fold_left add_attr attrs s =
    fold_left add_attr (filter (fun p => match snd p with AOther _ => false | _ => true end) attrs) s) as E.
  { induction attrs as [|[x t] l IH]; intros s; [reflexivity|]. cbn. destruct t; cbn; apply IH. }
  rewrite <- !E. reflexivity.
Qed.

(** ** Set-up *)
Lemma set_up_everywhere_wf P c x f : wf P -> field_of P c x = Some f ->
  fo_named (fs_opts (fd_spec f)) = true /\ fo_owner (fs_opts (fd_spec f)) = Some c.
Proof.
  intros W G.
  destruct (class_at P c) as [k|] eqn:K; [|rewrite (field_of_none P c x K) in G; discriminate].
  rewrite (field_of_class P c k x K) in G.
  destruct (dget x (cl_fields k)) as [e|] eqn:D; [|discriminate]. cbn in G. injection G as <-. cbn.
  unfold class_at in K. apply dget_In in D. destruct (w_set P W _ _ _ _ K D) as (o & E & A1 & A2).
  rewrite Nnat.N2Nat.id in A2.
  assert (length (p_heap P) <> 0) as L.
  { intros Z. destruct (p_heap P); [destruct (en_type e); discriminate|discriminate]. }
  destruct (length (p_heap P)); [congruence|]. cbn. now rewrite E.
Qed.

Theorem set_up_everywhere P c x f : made P -> field_of P c x = Some f ->
  fo_named (fs_opts (fd_spec f)) = true /\ fo_owner (fs_opts (fd_spec f)) = Some c.
Proof. intros M. now apply set_up_everywhere_wf, made_wf. Qed.

(** ** Options *)
Lemma add_option_level own : forall m, options_body own ->
  so_level (fold_left add_option own m) =
  match find (fun o => match o with OLevel _ => true | _ => false end) own with
  | Some (OLevel l) => l
  | _ => so_level m
  end.
Proof.
  intros m [N _]. revert m. induction own as [|o own IH]; intros m; [reflexivity|].
  cbn [fold_left find]. inversion N as [|? ? N1 N2]; subst. rewrite (IH N2).
  destruct o; try reflexivity. cbn.
  destruct (find _ own) as [o|] eqn:Fd; [|reflexivity]. exfalso.
  apply find_some in Fd. destruct Fd as [I E]. destruct o; try discriminate. apply N1. cbn.
  apply in_map_iff. eexists. split; [|exact I]. reflexivity.
Qed.

Lemma add_option_roles own : forall m, options_body own -> forall x,
  dget x (so_roles (fold_left add_option own m)) =
  match find (fun o => match o with ORoles _ => true | _ => false end) own with
  | Some (ORoles r) => match dlast x r with Some f => Some f | None => dget x (so_roles m) end
  | _ => dget x (so_roles m)
  end.
Proof.
  intros m [N _] x. revert m. induction own as [|o own IH]; intros m; [reflexivity|].
  cbn [fold_left find]. inversion N as [|? ? N1 N2]; subst. rewrite (IH N2).
  destruct o; try reflexivity. cbn.
  destruct (find _ own) as [o|] eqn:Fd; [|apply dget_dupdate_last]. exfalso.
  apply find_some in Fd. destruct Fd as [I E]. destruct o; try discriminate. apply N1. cbn.
  apply in_map_iff. eexists. split; [|exact I]. reflexivity.
Qed.

Lemma when_none_fold own : forall r, NoDup (map optname own) ->
  fold_left (fun r o => match o with OWhenNone b => b | _ => r end) own r
  = match find (fun o => match o with OWhenNone _ => true | _ => false end) own with
    | Some (OWhenNone b) => b
    | _ => r
    end.
Proof.
  induction own as [|o own IH]; intros r N; [reflexivity|].
  cbn [fold_left find]. inversion N as [|? ? N1 N2]; subst. rewrite (IH _ N2).
  destruct o; try reflexivity. cbn.
  destruct (find _ own) as [o|] eqn:Fd; [|reflexivity]. exfalso.
  apply find_some in Fd. destruct Fd as [I E]. destruct o; try discriminate. apply N1. cbn.
  apply in_map_iff. eexists. split; [|exact I]. reflexivity.
Qed.

Lemma find_unique {A} (f : A -> bool) (l : list A) a : In a l -> f a = true ->
  (forall b, In b l -> f b = true -> b = a) -> find f l = Some a.
Proof.
  intros I E U. destruct (find f l) as [b|] eqn:Fd.
  - apply find_some in Fd. destruct Fd as [Ib Eb]. now rewrite (U b Ib Eb).
  - pose proof (find_none f l Fd a I). congruence.
Qed.

Lemma NoDup_map_inj {A B} (f : A -> B) (l : list A) a b : NoDup (map f l) -> In a l -> In b l -> f a = f b -> a = b.
Proof.
  induction l as [|x l IH]; cbn; intros N Ia Ib E; [contradiction|]. inversion N as [|? ? N1 N2]; subst.
  destruct Ia as [->|Ia], Ib as [->|Ib]; auto.
  - exfalso. apply N1. rewrite E. now apply in_map.
  - exfalso. apply N1. rewrite <- E. now apply in_map.
Qed.

Section Options.
  Context (P : program) (bases : list cid) (attrs : list (key * attr)) (own : list optmember)
    (claim : option (pyval -> res bool)).
  Context (M : made P) (B : forall b, In b bases -> class_at P b <> None) (CB : class_body P attrs)
    (OB : options_body own).
  Let P' := define_class P bases attrs own claim.
  Let c := next_class P.

  Lemma leftmost_level : mc_level (leftmost_class P bases) = so_level (base_options P bases).
  Proof using.
    unfold leftmost_class, base_options. clear - P bases. destruct bases as [|b bs]; [reflexivity|].
    unfold env_of. cbn. destruct (class_at P b); reflexivity.
  Qed.
  Lemma leftmost_roles : mc_roles (leftmost_class P bases) = so_roles (base_options P bases).
  Proof using.
    unfold leftmost_class, base_options. clear - P bases. destruct bases as [|b bs]; [reflexivity|].
    unfold env_of. cbn. destruct (class_at P b); reflexivity.
  Qed.

  Lemma new_level : mc_level (e_class (env_of P') c) = so_level (read_options (base_options P bases) own).
  Proof using M B CB.
    pose proof (made_wf P M) as W.
    pose proof (new_class_at P W bases attrs own claim B CB) as K. fold P' c in K.
    unfold env_of. cbn [e_class]. rewrite K. cbn [mc_level class_of cl_opts].
    exact (proj2 (define_options P W bases attrs own claim B CB)).
  Qed.
  Lemma new_roles : mc_roles (e_class (env_of P') c) = so_roles (read_options (base_options P bases) own).
  Proof using M B CB.
    pose proof (made_wf P M) as W.
    pose proof (new_class_at P W bases attrs own claim B CB) as K. fold P' c in K.
    unfold env_of. cbn [e_class]. rewrite K. cbn [mc_roles class_of cl_opts].
    exact (proj1 (define_options P W bases attrs own claim B CB)).
  Qed.

  Lemma unique_of (o : optmember) (g : optmember -> bool) : In o own -> g o = true ->
    (forall o', g o' = true -> optname o' = optname o) -> find g own = Some o.
  Proof using OB.
    intros I E U. apply find_unique; [exact I|exact E|]. intros b Ib Eb. destruct OB as [N _].
    apply (NoDup_map_inj optname own); auto.
  Qed.

  Lemma find_absent (g : optmember -> bool) : (forall o, In o own -> g o = false) -> find g own = None.
  Proof using.
    clear - own. induction own as [|o l IH]; intros H; [reflexivity|]. cbn. rewrite (H o (or_introl eq_refl)).
    apply IH. intros; apply H; now right.
  Qed.

  Theorem level_when_none b : In (OWhenNone (Some b)) own ->
    mc_level (e_class (env_of P') c) = if b then DEFAULT else NONEMPTY.
  Proof using M B CB OB.
    intros I. rewrite new_level. unfold read_options, when_none. cbn [so_level].
    rewrite when_none_fold by exact (proj1 OB).
    rewrite (unique_of _ _ I); [now destruct b|reflexivity|]. intros [| | | | |]; cbn; congruence.
  Qed.

  Lemma no_when_none : (forall b, ~ In (OWhenNone (Some b)) own) -> when_none own = None.
  Proof using OB.
    intros N. unfold when_none. rewrite when_none_fold by exact (proj1 OB).
    destruct (find _ own) as [o|] eqn:Fd; [|reflexivity]. apply find_some in Fd. destruct Fd as [I E].
    destruct o as [| | |[b|]| |]; try reflexivity. now apply N in I.
  Qed.

  Theorem level_own l : In (OLevel l) own -> (forall b, ~ In (OWhenNone (Some b)) own) ->
    mc_level (e_class (env_of P') c) = l.
  Proof using M B CB OB.
    intros I N. rewrite new_level. unfold read_options. cbn [so_level]. rewrite (no_when_none N).
    rewrite (add_option_level own _ OB).
    rewrite (unique_of _ _ I); [reflexivity|reflexivity|]. intros [| | | | |]; cbn; congruence.
  Qed.

  Theorem level_inherited : (forall l, ~ In (OLevel l) own) -> (forall b, ~ In (OWhenNone (Some b)) own) ->
    mc_level (e_class (env_of P') c) = mc_level (leftmost_class P bases).
  Proof using M B CB OB.
    intros NL N. rewrite new_level. unfold read_options. cbn [so_level]. rewrite (no_when_none N).
    rewrite (add_option_level own _ OB), leftmost_level.
    rewrite find_absent; [reflexivity|]. intros [| |l| | |] I; try reflexivity. now apply NL in I.
  Qed.

  Theorem roles_own r x f : In (ORoles r) own -> NoDup (dkeys r) -> dget x r = Some f ->
    dget x (mc_roles (e_class (env_of P') c)) = Some f.
  Proof using M B CB OB.
    intros I Nr G. rewrite new_roles. unfold read_options. cbn [so_roles].
    rewrite (add_option_roles own _ OB).
    rewrite (unique_of _ _ I); [now rewrite dlast_dget, G|reflexivity|]. intros [| | | | |]; cbn; congruence.
  Qed.

  Theorem roles_inherited x : (forall r, In (ORoles r) own -> dget x r = None) ->
    dget x (mc_roles (e_class (env_of P') c)) = dget x (mc_roles (leftmost_class P bases)).
  Proof using M B CB OB.
    intros N. rewrite new_roles. unfold read_options. cbn [so_roles].
    rewrite (add_option_roles own _ OB), leftmost_roles.
    destruct (find _ own) as [o|] eqn:Fd; [|reflexivity]. apply find_some in Fd. destruct Fd as [I E].
    destruct o as [|r| | | |]; try reflexivity. specialize (N r I).
    apply dget_None_keys in N. apply dlast_None in N. now rewrite N.
  Qed.
End Options.

(** ** Subclasses *)
Lemma derived_le P c d : wf P -> derived P c d -> N.to_nat d <= N.to_nat c.
Proof.
  intros W. induction 1 as [c|c b d k K I D IH]; [lia|].
  pose proof (w_bases P W _ _ _ K I). lia.
Qed.

Lemma issub_derived P n : forall c d, issub n P c d = true -> derived P c d.
Proof.
  induction n as [|n IH]; intros c d; cbn.
  - rewrite orb_false_r. intros E. apply N.eqb_eq in E. subst. constructor.
  - intros E. apply orb_true_iff in E. destruct E as [E|E].
    + apply N.eqb_eq in E. subst. constructor.
    + destruct (class_at P c) as [k|] eqn:K; [|discriminate]. apply existsb_exists in E.
      destruct E as (b & I & E). eapply derived_base; eauto.
Qed.

Lemma derived_issub P : wf P -> forall c d, derived P c d -> forall n, N.to_nat c <= n -> issub n P c d = true.
Proof.
  intros W c d D. induction D as [c|c b d k K I D IH]; intros n L.
  - destruct n; cbn; now rewrite N.eqb_refl.
  - pose proof (w_bases P W _ _ _ K I) as Lb. destruct n as [|n]; [lia|]. cbn. apply orb_true_iff. right.
    rewrite K. apply existsb_exists. exists b. split; [exact I|]. apply IH. lia.
Qed.

Lemma issubclass_spec_wf P c d : wf P -> class_at P c <> None ->
  (e_issub (env_of P) c d = true <-> derived P c d).
Proof.
  intros W K. cbn. split.
  - apply issub_derived.
  - intros D. apply derived_issub; [exact W|exact D|]. unfold class_at in K. apply nth_error_Some in K. lia.
Qed.

Theorem issubclass_spec P c d : made P -> class_at P c <> None ->
  (e_issub (env_of P) c d = true <-> derived P c d).
Proof. intros M. now apply issubclass_spec_wf, made_wf. Qed.

Lemma direct_subs_spec P c d : In d (direct_subs P c) <-> exists k, class_at P d = Some k /\ In c (cl_bases k).
Proof.
  unfold direct_subs. rewrite filter_In. split.
  - intros [_ E]. destruct (class_at P d) as [k|]; [|discriminate]. exists k. split; [reflexivity|].
    apply existsb_exists in E. destruct E as (b & I & E). apply N.eqb_eq in E. now subst.
  - intros (k & K & I). split.
    + apply in_map_iff. exists (N.to_nat d). split; [apply Nnat.N2Nat.id|]. apply in_seq.
      assert (N.to_nat d < length (p_classes P)) by (apply nth_error_Some; unfold class_at in K; congruence). lia.
    + rewrite K. apply existsb_exists. exists c. split; [exact I|apply N.eqb_refl].
Qed.

Lemma derived_last P c d : derived P d c -> d <> c ->
  exists d1, In d1 (direct_subs P c) /\ derived P d d1.
Proof.
  intros D. induction D as [c|d b c k K I D IH]; intros N; [congruence|].
  destruct (N.eq_dec b c) as [->|Nb].
  - exists d. split; [|constructor]. apply direct_subs_spec. eauto.
  - destruct (IH Nb) as (d1 & I1 & D1). exists d1. split; [exact I1|]. eapply derived_base; eauto.
Qed.

Lemma derived_trans P a b d : derived P a b -> derived P b d -> derived P a d.
Proof. intros D. induction D; auto. intros. eapply derived_base; eauto. Qed.

Lemma all_subs_complete P : wf P -> forall n c d, derived P d c -> d <> c ->
  N.to_nat d - N.to_nat c <= n -> In d (all_subs n P c).
Proof.
  intros W. induction n as [|n IH]; intros c d D N L.
  - pose proof (derived_le P d c W D). assert (N.to_nat d = N.to_nat c) by lia. apply Nnat.N2Nat.inj in H0. congruence.
  - destruct (derived_last P c d D N) as (d1 & I1 & D1). cbn. apply in_flat_map. exists d1. split; [exact I1|].
    destruct (N.eq_dec d d1) as [->|N1]; [now left|]. right. apply IH; auto.
    apply direct_subs_spec in I1. destruct I1 as (k & K & I). pose proof (w_bases P W _ _ _ K I). lia.
Qed.

Lemma all_subs_sound P : wf P -> forall n c d, In d (all_subs n P c) -> derived P d c /\ d <> c.
Proof.
  intros W. induction n as [|n IH]; intros c d I; [contradiction|]. cbn in I. apply in_flat_map in I.
  destruct I as (d1 & I1 & J). apply direct_subs_spec in I1. destruct I1 as (k & K & Ib).
  pose proof (w_bases P W _ _ _ K Ib) as Lb. fold (N.to_nat c) in Lb.
  assert (derived P d1 c) as D1 by (eapply derived_base; [exact K|exact Ib|constructor]).
  destruct J as [<-|J].
  - split; [exact D1|]. intros ->. lia.
  - destruct (IH d1 d J) as [D N]. split; [eapply derived_trans; eassumption|].
    intros ->. apply (derived_le P _ _ W) in D. lia.
Qed.

Lemma all_subclasses_spec_wf P c d : wf P -> class_at P d <> None ->
  (In d (e_subs (env_of P) c) <-> derived P d c /\ d <> c).
Proof.
  intros W K. cbn. split.
  - now apply all_subs_sound.
  - intros [D N]. apply all_subs_complete; auto. unfold class_at in K. apply nth_error_Some in K. lia.
Qed.

Theorem all_subclasses_spec P c d : made P -> class_at P d <> None ->
  (In d (e_subs (env_of P) c) <-> derived P d c /\ d <> c).
Proof. intros M. now apply all_subclasses_spec_wf, made_wf. Qed.
