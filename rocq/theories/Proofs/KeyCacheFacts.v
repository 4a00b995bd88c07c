(** When the names of a field take effect. *)
From Coq Require Import Lia PeanoNat.
From Verif.Model Require Import Py Core FieldCopy KeyCache.
From Verif.Spec Require Import KeyCacheSpec.
From Verif.Proofs Require Import DictLemmas FieldCopyFacts.

(** ** Up to date classes *)
Definition up_to_date (s : kstate) (c : nat) : Prop := forall n a, In (n, a) (class_at s c) ->
  kf_setup (kf_at (ks_objs s) a) = Some (n, input_keys n (kf_spec (kf_at (ks_objs s) a)) no_mapping).

Lemma first_alt E raw n ks : find_alt E (VDict raw) n ks = Ok (first_key raw n ks).
Proof.
  induction ks as [|x r IH]; [reflexivity|]. cbn [find_alt first_key py_contains py_getitem].
  destruct (key_true x && negb (key_eqb x n)); [|exact IH]. cbn [andb]. unfold dmem.
  destruct (dget x raw) eqn:D; [reflexivity|exact IH].
Qed.
Lemma taken E raw n ks :
  (if is_undef (atom_value E (VDict raw) n) then find_alt E (VDict raw) n ks else Ok (atom_value E (VDict raw) n)) = Ok (value_of raw n ks).
Proof.
  unfold atom_value, value_of. cbn [py_getitem]. rewrite first_alt. destruct (dget n raw) as [v|]; [|reflexivity]. destruct (is_undef v); reflexivity.
Qed.
Lemma keys_now o n m : kf_setup o = Some (n, input_keys n (kf_spec o) no_mapping) -> get_input_keys o m = input_keys n (kf_spec o) m.
Proof. intros H. unfold get_input_keys. rewrite H. destruct m as [[|x l] [|y r]]; reflexivity. Qed.
Lemma plain_get s c n f : dget n (plain_fields s c) = Some f -> exists a, dget n (class_at s c) = Some a /\ fd_spec f = kf_spec (kf_at (ks_objs s) a).
Proof.
  unfold plain_fields. induction (class_at s c) as [|[x a] r IH]; simpl; [discriminate|].
  destruct (key_eqb n x); [|exact IH]. intros H. inversion H. now exists a.
Qed.
Lemma up_as_declared s c : up_to_date s c -> as_declared s c.
Proof.
  intros U. split.
  - intros E m raw n f H. destruct (plain_get _ _ _ _ H) as (a & A & ->). rewrite taken. unfold class_value. rewrite A.
    rewrite (keys_now _ n); [reflexivity|]. apply U. now apply dget_In.
  - intros m raw. unfold class_rogues, all_input_keys, valid_input_keys, plain_fields. f_equal.
    assert (Q : forall l, (forall n a, In (n, a) l -> kf_setup (kf_at (ks_objs s) a) = Some (n, input_keys n (kf_spec (kf_at (ks_objs s) a)) no_mapping)) ->
      flat_map (fun p => get_input_keys (kf_at (ks_objs s) (snd p)) no_mapping) l =
      flat_map (fun p => input_keys (fst p) (fd_spec (snd p)) no_mapping)
        (map (fun p => (fst p, Fld (kf_spec (kf_at (ks_objs s) (snd p))) None None)) l)).
    { induction l as [|[n a] l IH]; intros H; [reflexivity|]. cbn [flat_map map fst snd fd_spec]. f_equal.
      - apply keys_now. apply H. now left.
      - apply IH. intros x b I. apply H. now right. }
    now rewrite (Q _ U).
Qed.

(** ** Class statements *)
Lemma copy_spec fs : forall objs o c, copy_fields objs fs = (o, c) ->
  (exists ext, o = objs ++ ext) /\ map fst c = map fst fs /\ NoDup (map snd c) /\
  (forall b, In b (map snd c) -> length objs <= b < length o) /\
  (forall n b, In (n, b) c -> exists a, In (n, a) fs /\ (a < length objs -> kf_at o b = kf_at objs a)).
Proof.
  induction fs as [|[n a] r IH]; intros objs o c; simpl.
  - intros H; inversion H; subst. split; [exists []; now rewrite app_nil_r|]. split; [reflexivity|]. split; [constructor|].
    split; intros; simpl in *; contradiction.
  - destruct (copy_fields (objs ++ [kf_at objs a]) r) as [o' r'] eqn:C. intros H; inversion H; subst.
    destruct (IH _ _ _ C) as ([ext X] & F & N & B & S). rewrite app_length in B. simpl in B.
    assert (L : length o = length objs + 1 + length ext) by (rewrite X, !app_length; simpl; lia).
    split; [exists (kf_at objs a :: ext); rewrite X, <- app_assoc; reflexivity|].
    split; [simpl; now rewrite F|]. split; [|split].
    + simpl. constructor; [|exact N]. intros I. specialize (B _ I). lia.
    + simpl. intros b [<-|I]; [lia|]. specialize (B _ I). lia.
    + intros x b [E|I].
      * inversion E; subst. exists a. split; [now left|]. intros _. unfold kf_at at 1. rewrite <- app_assoc.
        rewrite app_nth2 by lia. now rewrite Nat.sub_diag.
      * destruct (S _ _ I) as (a' & I' & K). exists a'. split; [now right|]. intros Q. rewrite K by (rewrite app_length; simpl; lia).
        unfold kf_at. now rewrite app_nth1 by lia.
Qed.
Lemma values_dset {A} x (v : A) d w : In w (map snd (dset x v d)) -> w = v \/ In w (map snd d).
Proof.
  induction d as [|[y z] r IH]; simpl; [intros [<-|[]]; now left|].
  destruct (key_eqb x y); simpl; intros [<-|I]; auto. destruct (IH I); auto.
Qed.
Lemma nodup_dset {A} x (v : A) d : NoDup (map snd d) -> ~ In v (map snd d) -> NoDup (map snd (dset x v d)).
Proof.
  induction d as [|[y z] r IH]; simpl; intros N I; [constructor; [intros []|constructor]|].
  inversion N; subst. destruct (key_eqb x y); simpl.
  - constructor; [tauto|assumption].
  - constructor; [|apply IH; tauto]. intros Q. apply values_dset in Q. destruct Q as [->|Q]; tauto.
Qed.
Lemma values_dupdate {A} (e : list (key * A)) : forall d w, In w (map snd (dupdate d e)) -> In w (map snd d) \/ In w (map snd e).
Proof.
  induction e as [|[x v] e IH]; intros d w; [now left|]. change (dupdate d ((x, v) :: e)) with (dupdate (dset x v d) e).
  intros I. destruct (IH _ _ I) as [Q|Q]; [|now right; right]. apply values_dset in Q. simpl. destruct Q as [->|Q]; auto.
Qed.
Lemma nodup_dupdate {A} (e : list (key * A)) : forall d, NoDup (map snd d) -> NoDup (map snd e) ->
  (forall w, In w (map snd d) -> ~ In w (map snd e)) -> NoDup (map snd (dupdate d e)).
Proof.
  induction e as [|[x v] e IH]; intros d N M D; [exact N|]. change (dupdate d ((x, v) :: e)) with (dupdate (dset x v d) e).
  simpl in M. inversion M; subst. apply IH.
  - apply nodup_dset; [assumption|]. intros I. apply (D _ I). now left.
  - assumption.
  - intros w I J. apply values_dset in I. destruct I as [->|I]; [contradiction|]. apply (D _ I). now right.
Qed.
Lemma inherit_spec bases : forall objs fs o fs', inherit objs fs bases = (o, fs') ->
  (forall b, In b (map snd fs) -> b < length objs) -> NoDup (map snd fs) ->
  (exists ext, o = objs ++ ext) /\ NoDup (map snd fs') /\
  (forall b, In b (map snd fs') -> In b (map snd fs) \/ length objs <= b < length o).
Proof.
  induction bases as [|b r IH]; intros objs fs o fs'; simpl.
  - intros H L N. inversion H; subst. split; [exists []; now rewrite app_nil_r|]. auto.
  - destruct (copy_fields objs b) as [o1 c] eqn:C. intros H L N.
    destruct (copy_spec _ _ _ _ C) as ([ext X] & _ & M & B & _).
    assert (Len : length objs <= length o1) by (rewrite X, app_length; lia).
    destruct (IH _ _ _ _ H) as ([ext' X'] & N' & B').
    + intros w I. apply values_dupdate in I. destruct I as [I|I]; [specialize (L _ I); lia|specialize (B _ I); lia].
    + apply nodup_dupdate; [assumption|assumption|]. intros w I J. specialize (L _ I). specialize (B _ J). lia.
    + split; [exists (ext ++ ext'); now rewrite X', X, app_assoc|]. split; [exact N'|].
      assert (Len' : length o1 <= length o) by (rewrite X', app_length; lia).
      intros w I. destruct (B' _ I) as [Q|Q]; [|right; lia]. apply values_dupdate in Q. destruct Q as [Q|Q]; [now left|]. specialize (B _ Q). right; lia.
Qed.

Lemma set_up_len objs p : length (set_up objs p) = length objs.
Proof. apply upd_len. Qed.
Lemma set_up_at objs n a b : a < length objs -> kf_at (set_up objs (n, a)) b =
  if Nat.eqb b a then KF (kf_spec (kf_at objs b)) (Some (n, input_keys n (kf_spec (kf_at objs b)) no_mapping)) else kf_at objs b.
Proof.
  intros L. unfold set_up, kf_at. simpl. destruct (Nat.eqb_spec b a) as [->|N]; [rewrite upd_same by assumption; reflexivity|]. apply upd_other; lia.
Qed.
Lemma set_all fs : forall objs, (forall a, In a (map snd fs) -> a < length objs) ->
  length (fold_left set_up fs objs) = length objs /\
  (forall b, kf_spec (kf_at (fold_left set_up fs objs) b) = kf_spec (kf_at objs b)) /\
  (forall b, ~ In b (map snd fs) -> kf_at (fold_left set_up fs objs) b = kf_at objs b) /\
  (NoDup (map snd fs) -> forall n a, In (n, a) fs ->
     kf_setup (kf_at (fold_left set_up fs objs) a) = Some (n, input_keys n (kf_spec (kf_at objs a)) no_mapping)).
Proof.
  induction fs as [|[n a] r IH]; intros objs L; simpl.
  - repeat split; intros; contradiction.
  - assert (La : a < length objs) by (apply L; now left).
    destruct (IH (set_up objs (n, a))) as (A & B & C & D); [intros b I; rewrite set_up_len; apply L; now right|].
    rewrite set_up_len in A. split; [exact A|]. split; [|split].
    + intros b. rewrite B, set_up_at by assumption. now destruct (Nat.eqb b a).
    + intros b N. rewrite C by tauto. rewrite set_up_at by assumption. destruct (Nat.eqb_spec b a); [subst; tauto|reflexivity].
    + intros N x b I. inversion N; subst. destruct I as [I|I].
      * inversion I; subst. rewrite C by assumption. rewrite set_up_at by assumption. now rewrite Nat.eqb_refl.
      * rewrite (D H2 x b I). rewrite set_up_at by assumption. now destruct (Nat.eqb b a).
Qed.

Lemma declare_spec s bases own : (forall n a, In (n, a) own -> a < length (ks_objs s)) ->
  let s' := declare s bases own in
  exists ext fs, length (ks_objs s') = length (ks_objs s ++ ext) /\
    (forall b, kf_spec (kf_at (ks_objs s') b) = kf_spec (kf_at (ks_objs s ++ ext) b)) /\
    ks_classes s' = ks_classes s ++ [fs] /\
    (forall b, In b (map snd fs) -> b < length (ks_objs s')) /\
    (forall b, b < length (ks_objs s) -> In b (map snd fs) -> In b (map snd own)) /\
    (forall b, b < length (ks_objs s) -> ~ In b (map snd own) -> kf_at (ks_objs s') b = kf_at (ks_objs s) b) /\
    (NoDup (map snd own) -> forall n a, In (n, a) fs ->
       kf_setup (kf_at (ks_objs s') a) = Some (n, input_keys n (kf_spec (kf_at (ks_objs s') a)) no_mapping)).
Proof.
  intros R. cbn zeta. unfold declare. destruct (inherit (ks_objs s) [] (map (class_at s) (rev bases))) as [o fs] eqn:I.
  destruct (inherit_spec _ _ _ _ _ I) as ([ext X] & N & B); [intros b []|constructor|].
  assert (Len : length (ks_objs s) <= length o) by (rewrite X, app_length; lia).
  assert (V : forall b, In b (map snd (dupdate fs own)) -> b < length o).
  { intros b Q. apply values_dupdate in Q. destruct Q as [Q|Q]; [destruct (B _ Q) as [[]|]; lia|].
    apply in_map_iff in Q. destruct Q as ([n a] & <- & Q). specialize (R _ _ Q). simpl. lia. }
  destruct (set_all (dupdate fs own) o V) as (L & S & K & D).
  assert (W : forall b, b < length (ks_objs s) -> In b (map snd (dupdate fs own)) -> In b (map snd own)).
  { intros b Lb Q. apply values_dupdate in Q. destruct Q as [Q|Q]; [|exact Q]. destruct (B _ Q) as [[]|Q']. lia. }
  exists ext, (dupdate fs own). cbn [ks_objs ks_classes]. split; [now rewrite L, X|]. split; [intros b; now rewrite S, X|]. split; [reflexivity|].
  split; [intros b Q; rewrite L; now apply V|]. split; [exact W|]. split.
  - intros b Lb Q. rewrite K; [|intros Z; apply Q, W; assumption]. rewrite X. unfold kf_at. now rewrite app_nth1.
  - intros M n a Q. rewrite S. apply D; [|exact Q]. apply nodup_dupdate; [exact N|exact M|].
    intros w J J'. destruct (B _ J) as [[]|J'']. apply in_map_iff in J'. destruct J' as ([x y] & <- & J'). specialize (R _ _ J'). simpl in J''. lia.
Qed.

Lemma class_old s fs c : c < length (ks_classes s) -> nth c (ks_classes s ++ [fs]) [] = class_at s c.
Proof. intros L. unfold class_at. now apply app_nth1. Qed.

Theorem new_class s bases own : (forall n a, In (n, a) own -> a < length (ks_objs s)) -> NoDup (map snd own) ->
  as_declared (declare s bases own) (length (ks_classes s)).
Proof.
  intros R N. apply up_as_declared. destruct (declare_spec s bases own R) as (ext & fs & _ & _ & C & _ & _ & _ & D).
  intros n a I. apply (D N). unfold class_at in I. rewrite C, nth_new in I. exact I.
Qed.

(** ** Later events *)
Lemma step_keeps s e c a : sound s -> in_range s e -> c < length (ks_classes s) -> In a (objects s c) -> ~ redeclares a e ->
  kf_setup (kf_at (ks_objs (kstep s e)) a) = kf_setup (kf_at (ks_objs s) a) /\
  (~ renames a e -> kf_at (ks_objs (kstep s e)) a = kf_at (ks_objs s) a).
Proof.
  intros S R L I N. assert (La : a < length (ks_objs s)).
  { apply in_map_iff in I. destruct I as ([n b] & <- & I). exact (S _ _ _ I). }
  destruct e as [f|bases own|b x|b l]; cbn [kstep ks_objs].
  - unfold kf_at. now rewrite app_nth1.
  - destruct (declare_spec s bases own R) as (ext & fs & _ & _ & _ & _ & _ & K & _).
    rewrite K; [now split|assumption|]. intros Q. apply N. apply in_map_iff in Q. destruct Q as ([n b] & <- & Q). now exists n.
  - simpl in R. unfold kf_at. destruct (Nat.eq_dec b a) as [->|D].
    + rewrite upd_same by assumption. split; [reflexivity|]. intros Z. now elim Z.
    + now rewrite upd_other.
  - simpl in R. unfold kf_at. destruct (Nat.eq_dec b a) as [->|D].
    + rewrite upd_same by assumption. split; [reflexivity|]. intros Z. now elim Z.
    + now rewrite upd_other.
Qed.
Lemma step_class s e c : in_range s e -> c < length (ks_classes s) -> class_at (kstep s e) c = class_at s c /\ c < length (ks_classes (kstep s e)).
Proof.
  intros R L. destruct e as [f|bases own|b x|b l]; cbn [kstep]; try (split; [reflexivity|exact L]).
  destruct (declare_spec s bases own R) as (ext & fs & _ & _ & C & _). unfold class_at. rewrite C. split; [now apply app_nth1|]. rewrite app_length. lia.
Qed.
Lemma step_sound s e : sound s -> in_range s e -> sound (kstep s e).
Proof.
  intros S R c n a. destruct e as [f|bases own|b x|b l].
  - intros I. cbn [kstep ks_objs]. rewrite app_length. specialize (S c n a I). lia.
  - cbn [kstep]. destruct (declare_spec s bases own R) as (ext & fs & L & _ & C & B & _). unfold class_at. rewrite C. intros I.
    destruct (Nat.lt_ge_cases c (length (ks_classes s))) as [Q|Q].
    + rewrite app_nth1 in I by assumption. specialize (S c n a I). rewrite L, app_length. lia.
    + destruct (Nat.eq_dec c (length (ks_classes s))) as [->|D].
      * rewrite nth_new in I. apply B. now apply (in_map snd) in I.
      * rewrite nth_overflow in I; [contradiction|]. rewrite app_length. simpl. lia.
  - intros I. cbn [kstep ks_objs]. rewrite upd_len. exact (S c n a I).
  - intros I. cbn [kstep ks_objs]. rewrite upd_len. exact (S c n a I).
Qed.
Lemma run_keeps es : forall s c, sound s -> all_in_range s es -> c < length (ks_classes s) ->
  (forall a, In a (objects s c) -> Forall (fun e => ~ redeclares a e) es) ->
  class_at (krun s es) c = class_at s c /\
  (forall a, In a (objects s c) -> kf_setup (kf_at (ks_objs (krun s es)) a) = kf_setup (kf_at (ks_objs s) a) /\
     (Forall (fun e => ~ renames a e) es -> kf_at (ks_objs (krun s es)) a = kf_at (ks_objs s) a)).
Proof.
  induction es as [|e r IH]; intros s c S R L D; [now split|].
  destruct R as [R R']. change (krun s (e :: r)) with (krun (kstep s e) r).
  destruct (step_class s e c R L) as [C L'].
  destruct (IH (kstep s e) c) as [A B]; [now apply step_sound|assumption|assumption| |].
  - intros a I. unfold objects in I. rewrite C in I. specialize (D _ I). now inversion D.
  - split; [now rewrite A|]. intros a I. assert (I' : In a (objects (kstep s e) c)) by (unfold objects; now rewrite C).
    pose proof (D _ I) as Da. inversion Da; subst. destruct (step_keeps s e c a S R L I H1) as [K K']. destruct (B _ I') as [Q Q'].
    split; [now rewrite Q|]. intros F. inversion F; subst. rewrite Q' by assumption. now apply K'.
Qed.

Lemma flat_ext {A B} (f g : A -> list B) l : (forall x, In x l -> f x = g x) -> flat_map f l = flat_map g l.
Proof. induction l as [|x l IH]; intros H; [reflexivity|]. simpl. rewrite H by now left. f_equal. apply IH. intros y I. apply H. now right. Qed.
Lemma get_object s c n a : dget n (class_at s c) = Some a -> In a (objects s c).
Proof. intros H. apply dget_In in H. now apply (in_map snd) in H. Qed.

Theorem stays es s c : sound s -> all_in_range s es -> c < length (ks_classes s) ->
  (forall a, In a (objects s c) -> Forall (fun e => ~ redeclares a e /\ ~ renames a e) es) ->
  plain_fields (krun s es) c = plain_fields s c /\
  (forall m raw n, class_value (krun s es) c m raw n = class_value s c m raw n) /\
  (forall m raw, class_rogues (krun s es) c m raw = class_rogues s c m raw) /\
  (forall n, class_output (krun s es) c n = class_output s c n).
Proof.
  intros S R L D. destruct (run_keeps es s c S R L) as [C K].
  { intros a I. eapply Forall_impl; [|exact (D _ I)]. intros e Q; apply Q. }
  assert (Q : forall a, In a (objects s c) -> kf_at (ks_objs (krun s es)) a = kf_at (ks_objs s) a).
  { intros a I. apply K; [exact I|]. eapply Forall_impl; [|exact (D _ I)]. intros e Z; apply Z. }
  repeat split.
  - unfold plain_fields. rewrite C. apply map_ext_in. intros [n a] I. simpl. rewrite Q; [reflexivity|]. now apply (in_map snd) in I.
  - intros m raw n. unfold class_value. rewrite C. destruct (dget n (class_at s c)) as [a|] eqn:G; [|reflexivity]. rewrite Q; [reflexivity|]. eapply get_object; exact G.
  - intros m raw. unfold class_rogues. rewrite C.
    rewrite (flat_ext _ (fun p => get_input_keys (kf_at (ks_objs s) (snd p)) no_mapping)); [reflexivity|].
    intros [n a] I. simpl. rewrite Q; [reflexivity|]. now apply (in_map snd) in I.
  - intros n. unfold class_output. rewrite C. destruct (dget n (class_at s c)) as [a|] eqn:G; [|reflexivity]. simpl. rewrite Q; [reflexivity|]. eapply get_object; exact G.
Qed.

Theorem names_late es s c : sound s -> all_in_range s es -> c < length (ks_classes s) ->
  (forall a, In a (objects s c) -> Forall (fun e => ~ redeclares a e) es) ->
  (forall raw n, class_value (krun s es) c no_mapping raw n = class_value s c no_mapping raw n) /\
  (forall m raw, class_rogues (krun s es) c m raw = class_rogues s c m raw).
Proof.
  intros S R L D. destruct (run_keeps es s c S R L D) as [C K]. split.
  - intros raw n. unfold class_value. rewrite C. destruct (dget n (class_at s c)) as [a|] eqn:G; [|reflexivity].
    unfold get_input_keys. destruct (K a) as [-> _]; [eapply get_object; exact G|reflexivity].
  - intros m raw. unfold class_rogues. rewrite C.
    rewrite (flat_ext _ (fun p => get_input_keys (kf_at (ks_objs s) (snd p)) no_mapping)); [reflexivity|].
    intros [n a] I. simpl. unfold get_input_keys. destruct (K a) as [-> _]; [now apply (in_map snd) in I|reflexivity].
Qed.
(** With a mapping, the names are the present ones. *)
Theorem names_mapped es s bases own c : let s1 := declare s bases own in
  sound s -> (forall n a, In (n, a) own -> a < length (ks_objs s)) -> NoDup (map snd own) -> c = length (ks_classes s) ->
  all_in_range s1 es -> (forall a, In a (objects s1 c) -> Forall (fun e => ~ redeclares a e) es) ->
  forall E m raw n f, any_mapping m = true -> dget n (plain_fields (krun s1 es) c) = Some f ->
    (if is_undef (atom_value E (VDict raw) n) then find_alt E (VDict raw) n (input_keys n (fd_spec f) m) else Ok (atom_value E (VDict raw) n))
    = Ok (class_value (krun s1 es) c m raw n).
Proof.
  intros s1 S O N -> R D E m raw n f M F.
  assert (S1 : sound s1) by exact (step_sound s (KClass bases own) S O).
  destruct (declare_spec s bases own O) as (ext & fs & _ & _ & C & _ & _ & _ & U). fold s1 in C, U. specialize (U N).
  assert (L : length (ks_classes s) < length (ks_classes s1)) by (rewrite C, app_length; simpl; lia).
  destruct (run_keeps es s1 _ S1 R L D) as [A K].
  destruct (plain_get _ _ _ _ F) as (a & G & ->). rewrite taken. unfold class_value. rewrite G.
  rewrite A in G. destruct (K a) as [Q _]; [eapply get_object; exact G|].
  unfold get_input_keys. rewrite Q. rewrite (U n a).
  - now rewrite M.
  - apply dget_In in G. unfold class_at in G. rewrite C, nth_new in G. exact G.
Qed.

Theorem output_follows s c n a x : dget n (class_at s c) = Some a -> a < length (ks_objs s) -> key_true x = true ->
  class_output (kstep s (KSname a (Some x))) c n = Some x.
Proof.
  intros G L T. unfold class_output. change (class_at (kstep s (KSname a (Some x))) c) with (class_at s c). rewrite G. cbn [option_map kstep ks_objs].
  unfold kf_at. rewrite upd_same by assumption. unfold sname_of, with_sname. simpl. now rewrite T.
Qed.
(** Export and strict import disagree afterwards. *)
Theorem no_way_back s c n a x v : sound s -> up_to_date s c -> c < length (ks_classes s) -> dget n (class_at s c) = Some a -> key_true x = true ->
  ~ In x (valid_input_keys (plain_fields s c)) ->
  let s' := kstep s (KSname a (Some x)) in
  class_output s' c n = Some x /\ class_value s' c no_mapping [(x, v)] n = VUndef /\ class_rogues s' c no_mapping [(x, v)] = [x].
Proof.
  intros S U L G T N s'. assert (La : a < length (ks_objs s)) by (eapply S; eapply dget_In; exact G).
  split; [now apply output_follows|].
  destruct (names_late [KSname a (Some x)] s c S) as [V R]; [split; [exact La|exact I]|exact L| |].
  { intros b _. constructor; [intros []|constructor]. }
  change (krun s [KSname a (Some x)]) with s' in V, R. rewrite V, R.
  destruct (up_as_declared s c U) as [_ W]. rewrite W. split.
  - assert (K : ~ In x (input_keys n (kf_spec (kf_at (ks_objs s) a)) no_mapping)).
    { intros Q. apply N. unfold valid_input_keys. apply in_flat_map. exists (n, Fld (kf_spec (kf_at (ks_objs s) a)) None None). split; [|exact Q].
      unfold plain_fields. apply in_map_iff. exists (n, a). split; [reflexivity|now apply dget_In]. }
    unfold class_value. rewrite G. rewrite (keys_now _ n); [|apply U; now apply dget_In].
    unfold value_of. cbn [dget]. destruct (key_eqb_spec n x) as [->|D]; [elim K; now left|].
    revert K. generalize (input_keys n (kf_spec (kf_at (ks_objs s) a)) no_mapping). induction l as [|y l IH]; intros K; [reflexivity|].
    cbn [first_key dget]. destruct (key_eqb_spec y x) as [->|Y]; [elim K; now left|].
    destruct (key_true y && negb (key_eqb y n)); apply IH; intros Q; apply K; now right.
  - unfold all_input_keys. simpl flat_map. rewrite app_nil_r. cbn [dkeys map fst filter].
    destruct (kmem x (valid_input_keys (plain_fields s c))) eqn:Q; [apply kmem_In in Q; contradiction|reflexivity].
Qed.

(** Deriving takes the present names. *)
Lemma dupdate_out {A} n (e : list (key * A)) : forall d, ~ In n (dkeys e) -> dget n (dupdate d e) = dget n d.
Proof.
  induction e as [|[y z] e IH]; intros d I; [reflexivity|]. change (dupdate d ((y, z) :: e)) with (dupdate (dset y z d) e).
  simpl in I. rewrite IH by tauto. apply dget_dset_neq. intros ->. tauto.
Qed.
Lemma first_app {A} n (ds es : list (list (key * A))) : first_with n (ds ++ es) = match first_with n ds with Some v => Some v | None => first_with n es end.
Proof. induction ds as [|d r IH]; [reflexivity|]. simpl. destruct (dget n d); [reflexivity|exact IH]. Qed.
Lemma inherit_get n bases : forall objs fs o fs', inherit objs fs bases = (o, fs') ->
  Forall (fun b => NoDup (dkeys b) /\ forall a, In a (map snd b) -> a < length objs) bases ->
  match first_with n (rev bases) with
  | Some a => exists a', dget n fs' = Some a' /\ a' < length o /\ kf_at o a' = kf_at objs a
  | None => dget n fs' = dget n fs
  end.
Proof.
  induction bases as [|b r IH]; intros objs fs o fs'; simpl.
  - intros H _. now inversion H.
  - destruct (copy_fields objs b) as [o1 c] eqn:C. intros H F. inversion F as [|b' r' [Nb Lb] Fr]; subst b' r'.
    destruct (copy_spec _ _ _ _ C) as ([ext X] & Fst & M & B & K).
    assert (Nc : NoDup (dkeys c)) by (unfold dkeys; rewrite Fst; exact Nb).
    assert (Old : forall a, a < length objs -> kf_at o1 a = kf_at objs a) by (intros a La; unfold kf_at; rewrite X; now apply app_nth1).
    assert (Fr' : Forall (fun b => NoDup (dkeys b) /\ forall a, In a (map snd b) -> a < length o1) r).
    { eapply Forall_impl; [|exact Fr]. intros d [Nd Ld]. split; [exact Nd|]. intros a I. specialize (Ld _ I). rewrite X, app_length. lia. }
    specialize (IH _ _ _ _ H Fr'). rewrite first_app.
    destruct (first_with n (rev r)) as [a|] eqn:Q.
    + destruct IH as (a' & G & L & E). exists a'. split; [exact G|]. split; [exact L|]. rewrite E. apply Old.
      clear - Q Fr. apply Forall_rev in Fr. induction Fr as [|d l [_ Ld] Fl IHl]; [discriminate|]. simpl in Q.
      destruct (dget n d) as [v|] eqn:G; [|now apply IHl]. inversion Q; subst. apply Ld. apply dget_In in G. now apply (in_map snd) in G.
    + simpl. destruct (dget n b) as [a|] eqn:D.
      * assert (In n (dkeys c)) as J by (unfold dkeys; rewrite Fst; apply dget_keys; congruence).
        apply dget_keys in J. destruct (dget n c) as [a'|] eqn:D'; [|congruence].
        assert (G : dget n (dupdate fs c) = Some a') by (rewrite dget_dupdate by assumption; now rewrite D').
        exists a'. split; [now rewrite IH|].
        assert (La' : a' < length o1) by (apply B; apply dget_In in D'; now apply (in_map snd) in D').
        assert (Pre : exists e2, o = o1 ++ e2).
        { clear - H. revert H. generalize (dupdate fs c). clear fs. revert o1. induction r as [|d r IH]; intros o1 fs; simpl.
          - intros H; inversion H. exists []. now rewrite app_nil_r.
          - destruct (copy_fields o1 d) as [o2 c2] eqn:C2. intros H. destruct (copy_spec _ _ _ _ C2) as ([e X] & _).
            destruct (IH _ _ H) as [e' X']. exists (e ++ e'). now rewrite X', X, app_assoc. }
        destruct Pre as [e2 ->]. split; [rewrite app_length; lia|]. unfold kf_at at 1. rewrite app_nth1 by assumption. fold (kf_at o1 a').
        destruct (K n a' (dget_In _ _ _ D')) as (a2 & I2 & E). apply (In_dget _ _ _ Nb) in I2. rewrite D in I2. inversion I2; subst a2.
        apply E. apply Lb. apply dget_In in D. now apply (in_map snd) in D.
      * rewrite IH. rewrite dget_dupdate by assumption. assert (N : dget n c = None); [|now rewrite N].
        apply dget_None_keys. unfold dkeys. rewrite Fst. now apply dget_None_keys.
Qed.
Lemma plain_map n s l : dget n (map (fun p : key * nat => (fst p, Fld (kf_spec (kf_at (ks_objs s) (snd p))) None None)) l) =
  option_map (fun a => Fld (kf_spec (kf_at (ks_objs s) a)) None None) (dget n l).
Proof. induction l as [|[y z] l IHl]; [reflexivity|]. simpl. destruct (key_eqb n y); [reflexivity|exact IHl]. Qed.
Lemma first_plain n s bases : first_with n (map (plain_fields s) bases) =
  option_map (fun a => Fld (kf_spec (kf_at (ks_objs s) a)) None None) (first_with n (map (class_at s) bases)).
Proof.
  induction bases as [|b r IH]; [reflexivity|]. simpl. unfold plain_fields at 1. rewrite plain_map. destruct (dget n (class_at s b)); [reflexivity|exact IH].
Qed.

Theorem derived s bases own n : sound s -> (forall b, In b bases -> NoDup (dkeys (class_at s b))) ->
  (forall x a, In (x, a) own -> a < length (ks_objs s)) -> NoDup (dkeys own) ->
  let s' := declare s bases own in let c := length (ks_classes s) in
  dget n (plain_fields s' c) =
  match dget n own with
  | Some a => Some (Fld (kf_spec (kf_at (ks_objs s) a)) None None)
  | None => first_with n (map (plain_fields s) bases)
  end.
Proof.
  intros S Nb R N s' c. rewrite first_plain. unfold plain_fields. rewrite plain_map. unfold s', c, class_at at 1, declare.
  destruct (inherit (ks_objs s) [] (map (class_at s) (rev bases))) as [o fs] eqn:I. cbn [ks_objs ks_classes]. rewrite nth_new.
  assert (F : Forall (fun b => NoDup (dkeys b) /\ forall a, In a (map snd b) -> a < length (ks_objs s)) (map (class_at s) (rev bases))).
  { apply Forall_forall. intros d D. apply in_map_iff in D. destruct D as (b & <- & D). apply in_rev in D. split; [now apply Nb|].
    intros a A. apply in_map_iff in A. destruct A as ([x y] & <- & A). exact (S _ _ _ A). }
  pose proof (inherit_get n _ _ _ _ _ I F) as G. rewrite map_rev, rev_involutive in G.
  destruct (inherit_spec _ _ _ _ _ I) as ([ext X] & _ & B); [intros b []|constructor|].
  assert (V : forall w, In w (map snd (dupdate fs own)) -> w < length o).
  { intros w Q. apply values_dupdate in Q. destruct Q as [Q|Q]; [destruct (B _ Q) as [[]|]; lia|].
    apply in_map_iff in Q. destruct Q as ([y z] & <- & Q). specialize (R _ _ Q). rewrite X, app_length. simpl. lia. }
  destruct (set_all (dupdate fs own) o V) as (_ & Sp & _).
  rewrite dget_dupdate by assumption. destruct (dget n own) as [a|] eqn:D.
  - simpl. rewrite Sp. assert (La : a < length (ks_objs s)) by (eapply R; eapply dget_In; exact D).
    rewrite X. unfold kf_at. now rewrite app_nth1.
  - destruct (first_with n (map (class_at s) bases)) as [a|].
    + destruct G as (a' & -> & _ & E). simpl. now rewrite Sp, E.
    + rewrite G. reflexivity.
Qed.
Theorem assigned s a b : a < length (ks_objs s) ->
  (forall x, names (kf_spec (kf_at (ks_objs (kstep s (KSname a x))) b)) =
     if Nat.eqb b a then (x, snd (names (kf_spec (kf_at (ks_objs s) b)))) else names (kf_spec (kf_at (ks_objs s) b))) /\
  (forall l, names (kf_spec (kf_at (ks_objs (kstep s (KFrom a l))) b)) =
     if Nat.eqb b a then (fst (names (kf_spec (kf_at (ks_objs s) b))), l) else names (kf_spec (kf_at (ks_objs s) b))).
Proof.
  intros L. split; intros x; cbn [kstep ks_objs]; unfold kf_at;
  (destruct (Nat.eqb_spec b a) as [->|D]; [rewrite upd_same by assumption; reflexivity|rewrite upd_other by lia; reflexivity]).
Qed.

Theorem lost s0 bases own n a x v : sound s0 -> (forall y b, In (y, b) own -> b < length (ks_objs s0)) -> NoDup (map snd own) ->
  let s := declare s0 bases own in let c := length (ks_classes s0) in
  dget n (class_at s c) = Some a -> key_true x = true -> ~ In x (valid_input_keys (plain_fields s c)) ->
  let s' := kstep s (KSname a (Some x)) in
  class_output s' c n = Some x /\ class_value s' c no_mapping [(x, v)] n = VUndef /\ class_rogues s' c no_mapping [(x, v)] = [x].
Proof.
  intros S R N s c G T K. destruct (declare_spec s0 bases own R) as (ext & fs & _ & _ & C & _ & _ & _ & U). fold s in C, U.
  apply no_way_back; [exact (step_sound s0 (KClass bases own) S R)| | |exact G|exact T|exact K].
  - intros y b I. apply (U N). unfold class_at in I. unfold c in I. rewrite C, nth_new in I. exact I.
  - unfold c. rewrite C, app_length. simpl. lia.
Qed.

Open Scope string_scope.
Open Scope list_scope.
Lemma reused : exists es n v, all_in_range (KS [] []) es /\ In n (dkeys (class_at (krun (KS [] []) es) 0)) /\
  class_rogues (krun (KS [] []) es) 0 no_mapping [(n, v)] = [n].
Proof.
  exists [KNew (kf_spec kf_none); KClass [] [(k "one", 0)]; KClass [] [(k "two", 0)]], (k "one"), VNone.
  split; [|split; [now left|vm_compute; reflexivity]].
  repeat split; simpl; intros n a [H|[]]; inversion H; auto.
Qed.
