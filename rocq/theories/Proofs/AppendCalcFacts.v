(** Adding fields to existing classes. *)
From Coq Require Import Lia PeanoNat Bool.
From Verif.Model Require Import Py Core Build Export Api FieldCopy SetterObj AppendCalc.
From Verif.Spec Require Import SetterObjSpec AppendCalcSpec.
From Verif.Proofs Require Import DictLemmas FieldCopyFacts SetterObjFacts.

Lemma plain_In s c n : is_plain s c n = true <-> In (c, n) (as_plain s).
Proof.
  unfold is_plain. rewrite existsb_exists. split.
  - intros ([d x] & I & H). apply andb_true_iff in H. destruct H as [H H']. apply Nat.eqb_eq in H. apply key_eqb_eq in H'. simpl in *. now subst.
  - intros I. exists (c, n). split; [exact I|]. simpl. now rewrite Nat.eqb_refl, key_eqb_refl.
Qed.
Lemma map_get {A B} (f : key -> A -> B) n l : dget n (map (fun p : key * A => (fst p, f (fst p) (snd p))) l) = option_map (f n) (dget n l).
Proof.
  induction l as [|[y z] l IH]; [reflexivity|]. simpl. destruct (key_eqb n y) eqn:Q; [|exact IH]. apply key_eqb_eq in Q. now subst.
Qed.
Lemma instance_get s c n : dget n (instance_fields s c) =
  option_map (fun f => if is_plain s c n then Fld (fd_spec f) None (option_map (fun _ => store n) (fd_set f)) else f) (dget n (fields_of (as_base s) c)).
Proof.
  unfold instance_fields.
  apply (map_get (fun x f => if is_plain s c x then Fld (fd_spec f) None (option_map (fun _ => store x) (fd_set f)) else f)).
Qed.
Lemma append_addresses s c n a d : c < length (ss_classes (as_base s)) ->
  addresses (as_base (append_any s c n a)) d = if Nat.eqb d c then dset n a (addresses (as_base s) d) else addresses (as_base s) d.
Proof.
  intros L. unfold addresses. cbn [append_any as_base ss_classes]. destruct (Nat.eqb_spec d c) as [->|D]; [now rewrite upd_same|]. rewrite upd_other; [reflexivity|congruence].
Qed.
Lemma append_object s c n a b : a < length (ss_objs (as_base s)) ->
  sf_at (ss_objs (as_base (append_any s c n a))) b = if Nat.eqb b a then adopt c (sf_at (ss_objs (as_base s)) b) else sf_at (ss_objs (as_base s)) b.
Proof. intros L. cbn [append_any as_base ss_objs]. now apply adopt_one. Qed.

(** The new field. *)
Theorem appended s c n a : can_append s c a -> let f := sf_at (ss_objs (as_base s)) a in let s' := append_any s c n a in
  exists g, dget n (instance_fields s' c) = Some (Fld (fd_spec g) None (option_map (fun _ => store n) (fd_set f))) /\ owned_by c f g.
Proof.
  intros [Lc La] f s'. exists (adopt c f). split; [|apply adopt_owned].
  pose proof (append_addresses s c n a c Lc) as A. pose proof (append_object s c n a a La) as O. fold s' in A, O. rewrite Nat.eqb_refl in A, O.
  rewrite instance_get, fields_get, A, dget_dset_eq. cbn [option_map]. rewrite O.
  assert (P : is_plain s' c n = true) by (apply plain_In; now left). rewrite P. reflexivity.
Qed.
(** The same, with what its setter does. *)
Theorem appended_full s c n a : can_append s c a -> let f := sf_at (ss_objs (as_base s)) a in let s' := append_any s c n a in
  exists g st, dget n (instance_fields s' c) = Some (Fld (fd_spec g) None (option_map (fun _ => st) (fd_set f))) /\ owned_by c f g /\
    forall d m v, st (VModel d m) v = (VModel d (MD (md_unsafe m) (dset n v (md_converted m)) (md_valid m) (md_hidden m)), None).
Proof. intros H f s'. destruct (appended s c n a H) as (g & G & O). exists g, (store n). split; [exact G|]. split; [exact O|]. reflexivity. Qed.
(** All other fields. *)
Theorem others s c n a d x : can_append s c a -> fresh s a -> (d, x) <> (c, n) ->
  dget x (instance_fields (append_any s c n a) d) = dget x (instance_fields s d).
Proof.
  intros [Lc La] F D. rewrite !instance_get, !fields_get.
  assert (A : dget x (addresses (as_base (append_any s c n a)) d) = dget x (addresses (as_base s) d)).
  { rewrite append_addresses by assumption. destruct (Nat.eqb_spec d c) as [->|]; [|reflexivity]. apply dget_dset_neq. congruence. }
  assert (P : is_plain (append_any s c n a) d x = is_plain s d x).
  { unfold is_plain. cbn [append_any as_plain existsb fst snd]. destruct (Nat.eqb_spec c d) as [->|]; [|reflexivity].
    destruct (key_eqb_spec n x) as [->|]; [congruence|reflexivity]. }
  rewrite A, P. destruct (dget x (addresses (as_base s) d)) as [b|] eqn:G; [|reflexivity]. cbn [option_map].
  rewrite append_object by assumption. destruct (Nat.eqb_spec b a) as [->|]; [|reflexivity].
  elim (F d). apply dget_In in G. now apply (in_map snd) in G.
Qed.
(** Values of the new field are read from and written to the instance's data. *)
Theorem behaves s c n a E r m : can_append s c a -> let f := sf_at (ss_objs (as_base s)) a in let s' := append_any s c n a in
  mc_fields (e_class E (N.of_nat c)) = instance_fields s' c ->
  model_getitem E (N.of_nat c) m n =
    match chain_get m n with
    | Some v => if is_undef v then Raise (XPy EUndefinedValueError) else Ok v
    | None => Raise (XPy EUndefinedValueError)
    end /\
  exists g, owned_by c f g /\ forall v w, cv_pre r (fd_spec g) v = Ok w ->
    model_setitem E r (N.of_nat c) m n v = (MD (md_unsafe m) (dset n w (md_converted m)) (md_valid m) (md_hidden m), None).
Proof.
  intros H f s' M. destruct (appended s c n a H) as (g & G & O). fold f s' in G, O. split.
  - unfold model_getitem. rewrite M, G. reflexivity.
  - exists g. split; [exact O|]. intros v w P. unfold model_setitem. rewrite M, G. cbn [fd_get fd_spec]. rewrite P. reflexivity.
Qed.
(** Classes derived later. *)
Theorem derived_later s c n a : can_append s c a -> well_placed (as_base s) -> added_to_classes s -> NoDup (dkeys (addresses (as_base s) c)) ->
  let s' := append_any s c n a in let d := length (ss_classes (as_base s)) in let s2 := astep s' (AStep (SClass [c] [])) in
  exists g, dget n (instance_fields s2 d) = Some g /\ owned_by d (sf_at (ss_objs (as_base s)) a) g.
Proof.
  intros [Lc La] W Ad N s' d s2.
  assert (W' : well_placed (as_base s')).
  { intros e x b. unfold s'. rewrite append_addresses by assumption. cbn [append_any as_base ss_objs]. rewrite adopt_len.
    destruct (Nat.eqb e c); [|apply W]. intros I. apply (in_map snd) in I. apply KeyCacheFacts.values_dset in I. cbn [snd] in I. destruct I as [->|I]; [exact La|].
    apply in_map_iff in I. destruct I as ([y z] & E & I). simpl in E. subst z. exact (W _ _ _ I). }
  assert (Ld : length (ss_classes (as_base s')) = d) by (apply upd_len).
  assert (P : is_plain s2 d n = false).
  { destruct (is_plain s2 d n) eqn:Q; [|reflexivity]. apply plain_In in Q. cbn in Q. destruct Q as [Q|Q]; [inversion Q; unfold d in *; lia|].
    specialize (Ad _ _ Q). unfold d in Ad. lia. }
  rewrite instance_get, P. cbn [s2 astep as_base sstep]. rewrite <- Ld.
  assert (Q := new_class_fields (as_base s') [c] [] n W').
  assert (Hn : forall b, In b [c] -> NoDup (dkeys (addresses (as_base s') b))).
  { intros b [<-|[]]. unfold s'. rewrite append_addresses by assumption. rewrite Nat.eqb_refl. now apply NoDup_dset. }
  specialize (Q Hn (fun x a (I : In (x, a) []) => match I with end) (NoDup_nil _)). cbv zeta in Q. cbn [dget map first_having] in Q.
  pose proof (append_addresses s c n a c Lc) as A'. pose proof (append_object s c n a a La) as O'. fold s' in A', O'. rewrite Nat.eqb_refl in A', O'.
  rewrite fields_get, A', dget_dset_eq in Q. cbn [option_map] in Q. rewrite O' in Q.
  destruct (dget n (fields_of (class_statement (as_base s') [c] []) (length (ss_classes (as_base s'))))) as [g|]; [|contradiction].
  exists g. split; [reflexivity|]. destruct Q as (A & B & C & O). cbn in O. unfold owned_by. rewrite A, B. cbn [adopt fd_get fd_set].
  split; [reflexivity|]. split; [reflexivity|]. split; [exact C|].
  destruct (sf_at (ss_objs (as_base s)) a) as [[o t] g0 s0]. cbn in O |- *. destruct t; exact O.
Qed.

(** ** Programs *)
Definition orderly (s : astate) : Prop :=
  well_placed (as_base s) /\ added_to_classes s /\ forall c, NoDup (dkeys (addresses (as_base s) c)).
Lemma nodup_update {A} (e : list (key * A)) : forall d, NoDup (dkeys d) -> NoDup (dkeys (dupdate d e)).
Proof. induction e as [|[x v] e IH]; intros d N; [exact N|]. change (dupdate d ((x, v) :: e)) with (dupdate (dset x v d) e). apply IH. now apply NoDup_dset. Qed.
Lemma inherit_nodup bases : forall objs fs, NoDup (dkeys fs) -> NoDup (dkeys (snd (inherit_all objs fs bases))).
Proof.
  induction bases as [|b r IH]; intros objs fs N; simpl; [exact N|]. destruct (copy_all objs b) as [o c]. apply IH. now apply nodup_update.
Qed.
Lemma class_count s bases own : length (ss_classes (class_statement s bases own)) = length (ss_classes s) + 1.
Proof. unfold class_statement. destruct (inherit_all (ss_objs s) [] (map (addresses s) (rev bases))). cbn. now rewrite app_length. Qed.
Lemma append_placed s c n a : can_append s c a -> well_placed (as_base s) -> well_placed (as_base (append_any s c n a)).
Proof.
  intros [Lc La] W e x b. rewrite append_addresses by assumption. cbn [append_any as_base ss_objs]. rewrite adopt_len.
  destruct (Nat.eqb e c); [|apply W]. intros I. apply (in_map snd) in I. apply KeyCacheFacts.values_dset in I. cbn [snd] in I. destruct I as [->|I]; [exact La|].
  apply in_map_iff in I. destruct I as ([y z] & E & I). simpl in E. subst z. exact (W _ _ _ I).
Qed.
Lemma step_orderly s e : orderly s -> match e with AStep e => possible (as_base s) e | AAppend c _ a => can_append s c a end -> orderly (astep s e).
Proof.
  intros (W & A & N) P. destruct e as [e|c n a]; cbn [astep].
  - split; [now apply sstep_placed|]. split.
    + intros c n I. specialize (A _ _ I). destruct (sstep_class (as_base s) e c P A) as [_ L]. exact L.
    + intros c. cbn [as_base]. destruct e as [f|bases own|a g]; cbn [sstep]; [exact (N c)| |exact (N c)].
      unfold addresses, class_statement. pose proof (inherit_nodup (map (addresses (as_base s)) (rev bases)) (ss_objs (as_base s)) [] (NoDup_nil _)) as D.
      destruct (inherit_all (ss_objs (as_base s)) [] (map (addresses (as_base s)) (rev bases))) as [o fs]. cbn [ss_classes snd] in *.
      destruct (Nat.lt_ge_cases c (length (ss_classes (as_base s)))) as [L|L]; [rewrite app_nth1 by assumption; exact (N c)|].
      destruct (Nat.eq_dec c (length (ss_classes (as_base s)))) as [->|Q]; [rewrite nth_new; now apply nodup_update|].
      rewrite nth_overflow; [constructor|]. rewrite app_length. simpl. lia.
  - split; [now apply append_placed|]. destruct P as [Lc La]. split.
    + intros d x I. cbn [append_any as_base ss_classes]. rewrite upd_len. destruct I as [I|I]; [inversion I; now subst|exact (A _ _ I)].
    + intros d. rewrite append_addresses by assumption. destruct (Nat.eqb d c); [apply NoDup_dset|]; apply N.
Qed.
Theorem programs es : forall s, orderly s -> sensible s es -> orderly (arun s es).
Proof. induction es as [|e r IH]; intros s O R; [exact O|]. destruct R as [R R']. exact (IH _ (step_orderly _ _ O R) R'). Qed.
Theorem all_programs es : sensible (AS (SS [] []) []) es -> let s := arun (AS (SS [] []) []) es in
  well_placed (as_base s) /\ added_to_classes s /\ forall c, NoDup (dkeys (addresses (as_base s) c)).
Proof.
  intros R. apply programs; [|exact R]. split; [intros [|c] n a []|]. split; [intros c n []|]. intros [|c]; constructor.
Qed.
(** The added computed field is computed for classes derived later only. *)
Theorem late_getter s c n a g : can_append s c a -> well_placed (as_base s) -> added_to_classes s -> NoDup (dkeys (addresses (as_base s) c)) ->
  fd_get (sf_at (ss_objs (as_base s)) a) = Some g ->
  let d := length (ss_classes (as_base s)) in let s2 := arun s [AAppend c n a; AStep (SClass [c] [])] in
  (exists f, dget n (instance_fields s2 c) = Some f /\ fd_get f = None) /\
  (exists f, dget n (instance_fields s2 d) = Some f /\ fd_get f = Some g).
Proof.
  intros H W A N G d s2. split.
  - destruct (appended s c n a H) as (f & F & _). destruct H as [Lc La].
    pose proof (append_placed s c n a (conj Lc La) W) as W'. rewrite instance_get in F |- *.
    assert (K : is_plain s2 c n = true) by (apply plain_In; now left). rewrite K.
    assert (U : fields_of (as_base s2) c = fields_of (as_base (append_any s c n a)) c).
    { change (as_base s2) with (srun (as_base (append_any s c n a)) [SClass [c] []]). apply untouched; [exact W'| | |].
      - split; [intros x b []|exact I].
      - cbn [append_any as_base ss_classes]. now rewrite upd_len.
      - intros b _. constructor; [intros [x []]|constructor]. }
    rewrite U. destruct (dget n (fields_of (as_base (append_any s c n a)) c)) as [f0|]; [|discriminate]. cbn [option_map]. eexists. split; reflexivity.
  - destruct (derived_later s c n a H W A N) as (f & F & O). exists f. split; [exact F|]. destruct O as [O _]. now rewrite O.
Qed.
(** Membership goes by the schema. *)
Theorem member s c n a E m : can_append s c a -> let f := sf_at (ss_objs (as_base s)) a in let s' := append_any s c n a in
  mc_fields (e_class E (N.of_nat c)) = instance_fields s' c ->
  contains s' c E m n =
    match fd_get f with
    | Some _ => true
    | None => match chain_get m n with Some v => negb (is_undef v) | None => false end
    end.
Proof.
  intros H f s' M. destruct (behaves s c n a E (conv_at E 0) m H M) as [G _]. unfold contains. rewrite G. destruct H as [Lc La].
  pose proof (append_addresses s c n a c Lc) as A'. pose proof (append_object s c n a a La) as O'. fold s' in A', O'. rewrite Nat.eqb_refl in A', O'.
  rewrite fields_get, A', dget_dset_eq. cbn [option_map]. rewrite O'. cbn [adopt fd_get]. unfold chain_mem. fold f.
  destruct (fd_get f) as [g|]; simpl; [apply orb_true_r|]. rewrite orb_false_r. destruct (chain_get m n) as [v|]; [|reflexivity]. now destruct (is_undef v).
Qed.
