(** Setters of computed fields. *)
From Coq Require Import Lia PeanoNat.
From Verif.Model Require Import Py Core Build Export Api FieldCopy SetterObj.
From Verif.Spec Require Import SetterObjSpec.
From Verif.Proofs Require Import DictLemmas FieldCopyFacts.
From Verif.Proofs Require KeyCacheFacts.

Lemma copy_spec fs : forall objs o c, copy_all objs fs = (o, c) ->
  (exists ext, o = objs ++ ext) /\ map fst c = map fst fs /\ NoDup (map snd c) /\
  (forall b, In b (map snd c) -> length objs <= b < length o) /\
  (forall n b, In (n, b) c -> exists a, In (n, a) fs /\ (a < length objs -> sf_at o b = sf_at objs a)).
Proof.
  induction fs as [|[n a] r IH]; intros objs o c; simpl.
  - intros H; inversion H; subst. split; [exists []; now rewrite app_nil_r|]. split; [reflexivity|]. split; [constructor|].
    split; intros; simpl in *; contradiction.
  - destruct (copy_all (objs ++ [sf_at objs a]) r) as [o' r'] eqn:C. intros H; inversion H; subst.
    destruct (IH _ _ _ C) as ([ext X] & F & N & B & S). rewrite app_length in B. simpl in B.
    assert (L : length o = length objs + 1 + length ext) by (rewrite X, !app_length; simpl; lia).
    split; [exists (sf_at objs a :: ext); rewrite X, <- app_assoc; reflexivity|].
    split; [simpl; now rewrite F|]. split; [|split].
    + simpl. constructor; [|exact N]. intros I. specialize (B _ I). lia.
    + simpl. intros b [<-|I]; [lia|]. specialize (B _ I). lia.
    + intros x b [E|I].
      * inversion E; subst. exists a. split; [now left|]. intros _. unfold sf_at at 1. rewrite <- app_assoc.
        rewrite app_nth2 by lia. now rewrite Nat.sub_diag.
      * destruct (S _ _ I) as (a' & I' & K). exists a'. split; [now right|]. intros Q. rewrite K by (rewrite app_length; simpl; lia).
        unfold sf_at. now rewrite app_nth1 by lia.
Qed.
Lemma inherit_spec bases : forall objs fs o fs', inherit_all objs fs bases = (o, fs') ->
  (forall b, In b (map snd fs) -> b < length objs) -> NoDup (map snd fs) ->
  (exists ext, o = objs ++ ext) /\ NoDup (map snd fs') /\
  (forall b, In b (map snd fs') -> In b (map snd fs) \/ length objs <= b < length o).
Proof.
  induction bases as [|b r IH]; intros objs fs o fs'; simpl.
  - intros H L N. inversion H; subst. split; [exists []; now rewrite app_nil_r|]. auto.
  - destruct (copy_all objs b) as [o1 c] eqn:C. intros H L N.
    destruct (copy_spec _ _ _ _ C) as ([ext X] & _ & M & B & _).
    assert (Len : length objs <= length o1) by (rewrite X, app_length; lia).
    destruct (IH _ _ _ _ H) as ([ext' X'] & N' & B').
    + intros w I. apply KeyCacheFacts.values_dupdate in I. destruct I as [I|I]; [specialize (L _ I); lia|specialize (B _ I); lia].
    + apply KeyCacheFacts.nodup_dupdate; [assumption|assumption|]. intros w I J. specialize (L _ I). specialize (B _ J). lia.
    + split; [exists (ext ++ ext'); now rewrite X', X, app_assoc|]. split; [exact N'|].
      assert (Len' : length o1 <= length o) by (rewrite X', app_length; lia).
      intros w I. destruct (B' _ I) as [Q|Q]; [|right; lia]. apply KeyCacheFacts.values_dupdate in Q. destruct Q as [Q|Q]; [now left|]. specialize (B _ Q). right; lia.
Qed.

Lemma first_app {A} n (ds es : list (list (key * A))) : first_having n (ds ++ es) = match first_having n ds with Some v => Some v | None => first_having n es end.
Proof. induction ds as [|d r IH]; [reflexivity|]. simpl. destruct (dget n d); [reflexivity|exact IH]. Qed.
Lemma inherit_get n bases : forall objs fs o fs', inherit_all objs fs bases = (o, fs') ->
  Forall (fun b => NoDup (dkeys b) /\ forall a, In a (map snd b) -> a < length objs) bases ->
  match first_having n (rev bases) with
  | Some a => exists a', dget n fs' = Some a' /\ a' < length o /\ sf_at o a' = sf_at objs a
  | None => dget n fs' = dget n fs
  end.
Proof.
  induction bases as [|b r IH]; intros objs fs o fs'; simpl.
  - intros H _. now inversion H.
  - destruct (copy_all objs b) as [o1 c] eqn:C. intros H F. inversion F as [|b' r' [Nb Lb] Fr]; subst b' r'.
    destruct (copy_spec _ _ _ _ C) as ([ext X] & Fst & M & B & K).
    assert (Nc : NoDup (dkeys c)) by (unfold dkeys; rewrite Fst; exact Nb).
    assert (Old : forall a, a < length objs -> sf_at o1 a = sf_at objs a) by (intros a La; unfold sf_at; rewrite X; now apply app_nth1).
    assert (Fr' : Forall (fun b => NoDup (dkeys b) /\ forall a, In a (map snd b) -> a < length o1) r).
    { eapply Forall_impl; [|exact Fr]. intros d [Nd Ld]. split; [exact Nd|]. intros a I. specialize (Ld _ I). rewrite X, app_length. lia. }
    specialize (IH _ _ _ _ H Fr'). rewrite first_app.
    destruct (first_having n (rev r)) as [a|] eqn:Q.
    + destruct IH as (a' & G & L & E). exists a'. split; [exact G|]. split; [exact L|]. rewrite E. apply Old.
      clear - Q Fr. apply Forall_rev in Fr. induction Fr as [|d l [_ Ld] Fl IHl]; [discriminate|]. simpl in Q.
      destruct (dget n d) as [v|] eqn:G; [|now apply IHl]. inversion Q; subst. apply Ld. apply dget_In in G. now apply (in_map snd) in G.
    + simpl. destruct (dget n b) as [a|] eqn:D.
      * assert (In n (dkeys c)) as J by (unfold dkeys; rewrite Fst; apply dget_keys; congruence).
        apply dget_keys in J. destruct (dget n c) as [a'|] eqn:D'; [|congruence].
        assert (G : dget n (dupdate fs c) = Some a') by (rewrite dget_dupdate by assumption; now rewrite D').
        exists a'. split; [now rewrite IH|].
        assert (La' : a' < length o1) by (apply B; apply dget_In in D'; now apply (in_map snd) in D').
        assert (Pre : exists e2, o = o1 ++ e2).
        { clear - H. revert H. generalize (dupdate fs c). clear fs. revert o1. induction r as [|d r IH]; intros o1 fs; simpl.
          - intros H; inversion H. exists []. now rewrite app_nil_r.
          - destruct (copy_all o1 d) as [o2 c2] eqn:C2. intros H. destruct (copy_spec _ _ _ _ C2) as ([e X] & _).
            destruct (IH _ _ H) as [e' X']. exists (e ++ e'). now rewrite X', X, app_assoc. }
        destruct Pre as [e2 ->]. split; [rewrite app_length; lia|]. unfold sf_at at 1. rewrite app_nth1 by assumption. fold (sf_at o1 a').
        destruct (K n a' (dget_In _ _ _ D')) as (a2 & I2 & E). apply (In_dget _ _ _ Nb) in I2. rewrite D in I2. inversion I2; subst a2.
        apply E. apply Lb. apply dget_In in D. now apply (in_map snd) in D.
      * rewrite IH. rewrite dget_dupdate by assumption. assert (N : dget n c = None); [|now rewrite N].
        apply dget_None_keys. unfold dkeys. rewrite Fst. now apply dget_None_keys.
Qed.

Lemma adopt_twice c f : adopt c (adopt c f) = adopt c f.
Proof.
  unfold adopt. simpl. f_equal. destruct f as [sp g st]. cbn [fd_spec].
  assert (Q : forall b b' sp, set_up_field b (N.of_nat c) (set_up_field b' (N.of_nat c) sp) = set_up_field b (N.of_nat c) sp); [|apply Q].
  clear. fix IH 3. intros b b' [o t]. cbn [set_up_field fs_opts]. destruct t; cbn; try reflexivity; now rewrite IH.
Qed.
Lemma adopt_len c objs p : length (adopt_at c objs p) = length objs.
Proof. apply upd_len. Qed.
Lemma adopt_one c objs n a b : a < length objs -> sf_at (adopt_at c objs (n, a)) b = if Nat.eqb b a then adopt c (sf_at objs b) else sf_at objs b.
Proof.
  intros L. unfold adopt_at, sf_at. simpl. destruct (Nat.eqb_spec b a) as [->|N]; [rewrite upd_same by assumption; reflexivity|]. apply upd_other; lia.
Qed.
Lemma adopt_all c fs : forall objs, (forall a, In a (map snd fs) -> a < length objs) ->
  length (fold_left (adopt_at c) fs objs) = length objs /\
  (forall b, ~ In b (map snd fs) -> sf_at (fold_left (adopt_at c) fs objs) b = sf_at objs b) /\
  (forall b, In b (map snd fs) -> sf_at (fold_left (adopt_at c) fs objs) b = adopt c (sf_at objs b)).
Proof.
  induction fs as [|[n a] r IH]; intros objs L; simpl.
  - repeat split; intros; contradiction.
  - assert (La : a < length objs) by (apply L; now left).
    destruct (IH (adopt_at c objs (n, a))) as (A & B & C); [intros b I; rewrite adopt_len; apply L; now right|].
    rewrite adopt_len in A. split; [exact A|]. split.
    + intros b N. rewrite B by tauto. rewrite adopt_one by assumption. destruct (Nat.eqb_spec b a); [subst; tauto|reflexivity].
    + intros b I. destruct (in_dec Nat.eq_dec b (map snd r)) as [J|J].
      * rewrite C by assumption. rewrite adopt_one by assumption. destruct (Nat.eqb b a); [apply adopt_twice|reflexivity].
      * rewrite B by assumption. rewrite adopt_one by assumption. destruct I as [->|I]; [now rewrite Nat.eqb_refl|contradiction].
Qed.

Lemma own_range (s : sstate) (own : list (key * nat)) : (forall n a, In (n, a) own -> a < length (ss_objs s)) -> forall a, In a (map snd own) -> a < length (ss_objs s).
Proof. intros R a I. apply in_map_iff in I. destruct I as ([n b] & <- & I). exact (R _ _ I). Qed.

Lemma class_spec s bases own : (forall n a, In (n, a) own -> a < length (ss_objs s)) ->
  let s' := class_statement s bases own in
  exists fs, ss_classes s' = ss_classes s ++ [fs] /\
    length (ss_objs s) <= length (ss_objs s') /\
    (forall b, In b (map snd fs) -> b < length (ss_objs s')) /\
    (forall b, b < length (ss_objs s) -> In b (map snd fs) -> In b (map snd own)) /\
    (forall b, b < length (ss_objs s) -> ~ In b (map snd own) -> sf_at (ss_objs s') b = sf_at (ss_objs s) b).
Proof.
  intros R. cbn zeta. unfold class_statement. destruct (inherit_all (ss_objs s) [] (map (addresses s) (rev bases))) as [o fs] eqn:I.
  destruct (inherit_spec _ _ _ _ _ I) as ([ext X] & N & B); [intros b []|constructor|].
  assert (Len : length (ss_objs s) <= length o) by (rewrite X, app_length; lia).
  assert (V : forall b, In b (map snd (dupdate fs own)) -> b < length o).
  { intros b Q. apply KeyCacheFacts.values_dupdate in Q. destruct Q as [Q|Q]; [destruct (B _ Q) as [[]|]; lia|].
    specialize (own_range s own R _ Q). lia. }
  destruct (adopt_all (length (ss_classes s)) (dupdate fs own) o V) as (L & K & D).
  assert (W : forall b, b < length (ss_objs s) -> In b (map snd (dupdate fs own)) -> In b (map snd own)).
  { intros b Lb Q. apply KeyCacheFacts.values_dupdate in Q. destruct Q as [Q|Q]; [|exact Q]. destruct (B _ Q) as [[]|Q']. lia. }
  exists (dupdate fs own). cbn [ss_objs ss_classes]. split; [reflexivity|]. split; [now rewrite L|].
  split; [intros b Q; rewrite L; now apply V|]. split; [exact W|].
  intros b Lb Q. rewrite K; [|intros Z; apply Q, W; assumption]. rewrite X. unfold sf_at. now rewrite app_nth1.
Qed.

Lemma fields_map {A B} (f : A -> B) n l : dget n (map (fun p : key * A => (fst p, f (snd p))) l) = option_map f (dget n l).
Proof. induction l as [|[y z] l IH]; [reflexivity|]. simpl. destruct (key_eqb n y); [reflexivity|exact IH]. Qed.
Lemma fields_get s c n : dget n (fields_of s c) = option_map (sf_at (ss_objs s)) (dget n (addresses s c)).
Proof. apply (fields_map (sf_at (ss_objs s))). Qed.
Lemma first_fields n s bases : first_having n (map (fields_of s) bases) = option_map (sf_at (ss_objs s)) (first_having n (map (addresses s) bases)).
Proof. induction bases as [|b r IH]; [reflexivity|]. simpl. rewrite fields_get. destruct (dget n (addresses s b)); [reflexivity|exact IH]. Qed.

Theorem class_fields s bases own n : well_placed s -> (forall b, In b bases -> NoDup (dkeys (addresses s b))) ->
  (forall x a, In (x, a) own -> a < length (ss_objs s)) -> NoDup (dkeys own) ->
  let s' := class_statement s bases own in let c := length (ss_classes s) in
  dget n (fields_of s' c) = option_map (adopt c)
    match dget n own with Some a => Some (sf_at (ss_objs s) a) | None => first_having n (map (fields_of s) bases) end.
Proof.
  intros S Nb R N s' c. rewrite first_fields, fields_get. unfold s', c, addresses at 1, class_statement.
  destruct (inherit_all (ss_objs s) [] (map (addresses s) (rev bases))) as [o fs] eqn:I. cbn [ss_objs ss_classes]. rewrite nth_new.
  assert (F : Forall (fun b => NoDup (dkeys b) /\ forall a, In a (map snd b) -> a < length (ss_objs s)) (map (addresses s) (rev bases))).
  { apply Forall_forall. intros d D. apply in_map_iff in D. destruct D as (b & <- & D). apply in_rev in D. split; [now apply Nb|].
    intros a A. apply in_map_iff in A. destruct A as ([x y] & <- & A). exact (S _ _ _ A). }
  pose proof (inherit_get n _ _ _ _ _ I F) as G. rewrite map_rev, rev_involutive in G.
  destruct (inherit_spec _ _ _ _ _ I) as ([ext X] & _ & B); [intros b []|constructor|].
  assert (V : forall w, In w (map snd (dupdate fs own)) -> w < length o).
  { intros w Q. apply KeyCacheFacts.values_dupdate in Q. destruct Q as [Q|Q]; [destruct (B _ Q) as [[]|]; lia|].
    apply in_map_iff in Q. destruct Q as ([y z] & <- & Q). specialize (R _ _ Q). rewrite X, app_length. simpl. lia. }
  destruct (adopt_all (length (ss_classes s)) (dupdate fs own) o V) as (_ & _ & Sp).
  destruct (dget n (dupdate fs own)) as [a1|] eqn:D1.
  - simpl. rewrite Sp by (apply dget_In in D1; now apply (in_map snd) in D1). rewrite dget_dupdate in D1 by assumption.
    destruct (dget n own) as [a|] eqn:D.
    + inversion D1; subst a1. simpl. assert (La : a < length (ss_objs s)) by (eapply R; eapply dget_In; exact D).
      rewrite X. unfold sf_at. now rewrite app_nth1.
    + destruct (first_having n (map (addresses s) bases)) as [a|].
      * destruct G as (a' & Q & _ & E). rewrite Q in D1. inversion D1; subst. simpl. now rewrite E.
      * rewrite G in D1. discriminate.
  - rewrite dget_dupdate in D1 by assumption. destruct (dget n own) as [a|] eqn:D; [discriminate|].
    destruct (first_having n (map (addresses s) bases)) as [a|]; [|reflexivity]. destruct G as (a' & Q & _). congruence.
Qed.
Lemma adopt_owned c f : owned_by c f (adopt c f).
Proof.
  destruct f as [[o t] g st]. unfold owned_by, adopt. cbn. repeat split; try reflexivity. destruct t; reflexivity || exact I.
Qed.
Theorem new_class_fields s bases own n : well_placed s -> (forall b, In b bases -> NoDup (dkeys (addresses s b))) ->
  (forall x a, In (x, a) own -> a < length (ss_objs s)) -> NoDup (dkeys own) ->
  let s' := class_statement s bases own in let c := length (ss_classes s) in
  match match dget n own with Some a => Some (sf_at (ss_objs s) a) | None => first_having n (map (fields_of s) bases) end, dget n (fields_of s' c) with
  | Some f, Some g => owned_by c f g
  | None, None => True
  | _, _ => False
  end.
Proof.
  intros S Nb R N s' c. unfold s', c. rewrite (class_fields s bases own n S Nb R N).
  destruct (match dget n own with Some a => Some (sf_at (ss_objs s) a) | None => first_having n (map (fields_of s) bases) end); simpl; [apply adopt_owned|exact I].
Qed.

(** ** Later events *)
Lemma sstep_keeps s e a : possible s e -> a < length (ss_objs s) -> ~ touches a e -> sf_at (ss_objs (sstep s e)) a = sf_at (ss_objs s) a.
Proof.
  intros R La N. destruct e as [f|bases own|b g]; cbn [sstep ss_objs].
  - unfold sf_at. now rewrite app_nth1.
  - destruct (class_spec s bases own R) as (fs & _ & _ & _ & _ & K).
    apply K; [assumption|]. intros Q. apply N. apply in_map_iff in Q. destruct Q as ([n b] & <- & Q). now exists n.
  - unfold sf_at. simpl in N. rewrite upd_other; [reflexivity|congruence].
Qed.
Lemma sstep_class s e c : possible s e -> c < length (ss_classes s) -> addresses (sstep s e) c = addresses s c /\ c < length (ss_classes (sstep s e)).
Proof.
  intros R L. destruct e as [f|bases own|b x]; cbn [sstep]; try (split; [reflexivity|exact L]).
  destruct (class_spec s bases own R) as (fs & C & _). unfold addresses. rewrite C. split; [now apply app_nth1|]. rewrite app_length. lia.
Qed.
Lemma sstep_placed s e : well_placed s -> possible s e -> well_placed (sstep s e).
Proof.
  intros S R c n a. destruct e as [f|bases own|b x].
  - intros I. cbn [sstep ss_objs]. rewrite app_length. specialize (S c n a I). lia.
  - cbn [sstep]. destruct (class_spec s bases own R) as (fs & C & L & B & _). unfold addresses. rewrite C. intros I.
    destruct (Nat.lt_ge_cases c (length (ss_classes s))) as [Q|Q].
    + rewrite app_nth1 in I by assumption. specialize (S c n a I). lia.
    + destruct (Nat.eq_dec c (length (ss_classes s))) as [->|D].
      * rewrite nth_new in I. apply B. now apply (in_map snd) in I.
      * rewrite nth_overflow in I; [contradiction|]. rewrite app_length. simpl. lia.
  - intros I. cbn [sstep ss_objs]. rewrite upd_len. exact (S c n a I).
Qed.
Theorem placed_run es : forall s, well_placed s -> all_possible s es -> well_placed (srun s es).
Proof. induction es as [|e r IH]; intros s S R; [exact S|]. destruct R as [R R']. exact (IH _ (sstep_placed _ _ S R) R'). Qed.
Theorem untouched es : forall s c, well_placed s -> all_possible s es -> c < length (ss_classes s) ->
  (forall a, has_object s c a -> Forall (fun e => ~ touches a e) es) -> fields_of (srun s es) c = fields_of s c.
Proof.
  induction es as [|e r IH]; intros s c S R L D; [reflexivity|]. destruct R as [R R']. change (srun s (e :: r)) with (srun (sstep s e) r).
  destruct (sstep_class s e c R L) as [C L']. rewrite IH; [|now apply sstep_placed|assumption|assumption|].
  - unfold fields_of. rewrite C. apply map_ext_in. intros [n a] I. simpl. f_equal. apply sstep_keeps; [assumption|exact (S _ _ _ I)|].
    specialize (D a). assert (Q : has_object s c a) by (now apply (in_map snd) in I). specialize (D Q). now inversion D.
  - intros a I. unfold has_object in I. rewrite C in I. specialize (D _ I). now inversion D.
Qed.

Theorem setter_effect s c n a g : a < length (ss_objs s) ->
  dget n (fields_of (sstep s (SSetter a g)) c) =
  match dget n (addresses s c), dget n (fields_of s c) with
  | Some b, Some f => Some (if Nat.eqb b a then Fld (fd_spec f) (fd_get f) (Some g) else f)
  | _, _ => None
  end.
Proof.
  intros L. rewrite !fields_get. change (addresses (sstep s (SSetter a g)) c) with (addresses s c).
  destruct (dget n (addresses s c)) as [b|]; [|reflexivity]. simpl. f_equal. unfold sf_at.
  destruct (Nat.eqb_spec b a) as [->|D]; [now rewrite upd_same|]. now rewrite upd_other by congruence.
Qed.

(** Base and derived class are independent. *)
Theorem apart s bases own : well_placed s -> (forall n a, In (n, a) own -> a < length (ss_objs s)) ->
  let s' := class_statement s bases own in let c := length (ss_classes s) in
  forall es, all_possible s' es ->
  (Forall (fun e => forall a, touches a e -> a < length (ss_objs s) /\ ~ In a (map snd own)) es -> fields_of (srun s' es) c = fields_of s' c) /\
  (Forall (fun e => forall a, touches a e -> has_object s' c a /\ ~ In a (map snd own)) es ->
     forall b, b < c -> fields_of (srun s' es) b = fields_of s' b).
Proof.
  intros S R s' c es P. destruct (class_spec s bases own R) as (fs & C & L & B & W & K). fold s' in C, L, B, K.
  assert (S' : well_placed s') by exact (sstep_placed s (SClass bases own) S R).
  assert (Lc : c < length (ss_classes s')) by (rewrite C, app_length; unfold c; simpl; lia).
  split; intros F.
  - apply untouched; try assumption. intros a I. eapply Forall_impl; [|exact F]. intros e T X. destruct (T _ X) as [La N].
    apply N, W; [exact La|]. unfold has_object, addresses in I. rewrite C in I. unfold c in I. now rewrite nth_new in I.
  - intros b Lb. apply untouched; try assumption; [lia|]. intros a I. eapply Forall_impl; [|exact F]. intros e T X. destruct (T _ X) as [J N].
    unfold has_object, addresses in I, J. rewrite C in I, J. unfold c in J. rewrite nth_new in J. rewrite app_nth1 in I by (unfold c in Lb; lia).
    apply N, W; [|exact J]. apply in_map_iff in I. destruct I as ([y z] & <- & I). exact (S _ _ _ I).
Qed.

(** A setter for an inherited computed field, given in the class body. *)
Theorem leaks s b n a g : well_placed s -> NoDup (dkeys (addresses s b)) -> b < length (ss_classes s) -> dget n (addresses s b) = Some a ->
  let d := length (ss_classes s) in let s' := srun s [SSetter a g; SClass [b] [(n, a)]] in
  dget n (fields_of s' b) = option_map (fun f => Fld (set_up_field true (N.of_nat d) (fd_spec f)) (fd_get f) (Some g)) (dget n (fields_of s b)) /\
  dget n (fields_of s' d) = dget n (fields_of s' b).
Proof.
  intros S Nb L G d s'. assert (La : a < length (ss_objs s)) by (eapply S; eapply dget_In; exact G).
  set (s1 := sstep s (SSetter a g)). assert (L1 : length (ss_objs s1) = length (ss_objs s)) by apply upd_len.
  assert (S1 : well_placed s1) by (apply sstep_placed; [exact S|exact La]).
  assert (R : forall x y, In (x, y) [(n, a)] -> y < length (ss_objs s1)) by (intros x y [E|[]]; inversion E; subst; lia).
  assert (Ad : dget n (addresses s' b) = Some a).
  { change s' with (sstep s1 (SClass [b] [(n, a)])). rewrite (proj1 (sstep_class s1 (SClass [b] [(n, a)]) b R L)). exact G. }
  assert (D : dget n (fields_of s' d) = Some (adopt d (sf_at (ss_objs s1) a))).
  { change s' with (class_statement s1 [b] [(n, a)]). change d with (length (ss_classes s1)). rewrite class_fields; try assumption.
    - simpl. now rewrite key_eqb_refl.
    - intros x [<-|[]]. exact Nb.
    - simpl. constructor; [intros []|constructor]. }
  assert (O : sf_at (ss_objs s') a = adopt d (sf_at (ss_objs s1) a)).
  { change s' with (class_statement s1 [b] [(n, a)]). unfold class_statement.
    destruct (inherit_all (ss_objs s1) [] (map (addresses s1) (rev [b]))) as [o fs] eqn:I. cbn [ss_objs].
    destruct (inherit_spec _ _ _ _ _ I) as ([ext X] & _ & B); [intros w []|constructor|].
    destruct (adopt_all (length (ss_classes s1)) (dupdate fs [(n, a)]) o) as (_ & _ & Sp).
    - intros w Q. apply KeyCacheFacts.values_dupdate in Q. destruct Q as [Q|[<-|[]]]; [destruct (B _ Q) as [[]|]; lia|].
      simpl. rewrite X, app_length. lia.
    - rewrite Sp.
      + rewrite X. change d with (length (ss_classes s1)). f_equal. unfold sf_at. apply app_nth1. lia.
      + change (dupdate fs [(n, a)]) with (dset n a fs). apply (in_map snd _ (n, a)). apply dget_In. apply dget_dset_eq. }
  split; [|rewrite D, fields_get, Ad; simpl; now rewrite O].
  rewrite !fields_get, Ad, G. simpl. rewrite O. unfold adopt, s1. cbn [sstep ss_objs]. unfold sf_at. rewrite upd_same by assumption. reflexivity.
Qed.

(** So instances of the base can be assigned to, and the base's field has the derived class's export level. *)
Theorem leaks_out s b n a g f : well_placed s -> NoDup (dkeys (addresses s b)) -> b < length (ss_classes s) ->
  dget n (addresses s b) = Some a -> dget n (fields_of s b) = Some f -> fd_get f <> None ->
  let d := length (ss_classes s) in let s' := srun s [SSetter a g; SClass [b] [(n, a)]] in
  exists f', dget n (fields_of s' b) = Some f' /\
  (forall E x, fo_level (fs_opts (fd_spec f)) = None -> ec_level x = None ->
     get_export_level E (fd_spec f') x = mc_level (e_class E (N.of_nat d))) /\
  (forall E r m v w, mc_fields (e_class E (N.of_nat b)) = fields_of s' b -> cv_pre r (fd_spec f') v = Ok w ->
     snd (model_setitem E r (N.of_nat b) m n v) = snd (g (VModel (N.of_nat b) m) w)).
Proof.
  intros S Nb L G F Hg d s'. destruct (leaks s b n a g S Nb L G) as [H _]. fold s' in H. rewrite F in H. cbn [option_map] in H.
  eexists. split; [exact H|]. split.
  - intros E x Lv Lx. unfold get_export_level. cbn [fd_spec]. destruct (fd_spec f) as [o t]. cbn [set_up_field fs_opts fo_owner fo_level] in *. now rewrite Lv, Lx.
  - intros E r m v w M P. unfold model_setitem. rewrite M, H. cbn [fd_get fd_set fd_spec] in *. destruct (fd_get f); [|contradiction].
    rewrite P. destruct (g (VModel (N.of_nat b) m) w) as [v' oe]. reflexivity.
Qed.
