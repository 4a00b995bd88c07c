(** Field objects are what their history says. *)
From Coq Require Import Lia PeanoNat.
From Verif.Model Require Import Py Core Types FieldCopy.
From Verif.Spec Require Import FieldCopySpec.
Open Scope string_scope.
Open Scope list_scope.

Lemma upd_len {A} n (f : A -> A) l : length (upd_at n f l) = length l.
Proof. revert n; induction l as [|x l IH]; intros [|n]; simpl; congruence. Qed.
Lemma upd_same {A} n (f : A -> A) l d : n < length l -> nth n (upd_at n f l) d = f (nth n l d).
Proof. revert n; induction l as [|x l IH]; intros [|n] H; simpl in *; try lia; [reflexivity|]. apply IH; lia. Qed.
Lemma upd_other {A} n m (f : A -> A) l d : n <> m -> nth m (upd_at n f l) d = nth m l d.
Proof.
  revert n m; induction l as [|x l IH]; intros [|n] [|m] H; simpl in *; try reflexivity; try lia. apply IH; lia.
Qed.
Lemma nth_old {A} (l : list A) x n d : n < length l -> nth n (l ++ [x]) d = nth n l d.
Proof. intros H. now apply app_nth1. Qed.
Lemma nth_new {A} (l : list A) x d : nth (length l) (l ++ [x]) d = x.
Proof. rewrite app_nth2 by lia. now rewrite Nat.sub_diag. Qed.

Lemma origin_made h : proper h -> forall a, a < made_by h -> origin h a < made_by h /\ origin h a <= a.
Proof.
  induction h as [|e r IH]; intros P a L; [simpl in L; lia|].
  destruct e as [kw g|b|b x v|b f]; simpl in *.
  - destruct (Nat.eqb_spec a (made_by r)); [lia|]. destruct (IH P a); lia.
  - destruct P as [B P]. destruct (Nat.eqb_spec a (made_by r)); [destruct (IH P b B); lia|]. destruct (IH P a); lia.
  - destruct P as [B P]. now apply IH.
  - destruct P as [B P]. now apply IH.
Qed.
Lemma origin_origin h : proper h -> forall a, a < made_by h -> origin h (origin h a) = origin h a.
Proof.
  induction h as [|e r IH]; intros P a L; [simpl in L; lia|].
  destruct e as [kw g|b|b x v|b f]; simpl in *.
  - destruct (Nat.eqb_spec a (made_by r)) as [->|N]; [now rewrite Nat.eqb_refl|].
    destruct (origin_made r P a) as [X _]; [lia|]. destruct (Nat.eqb_spec (origin r a) (made_by r)); [lia|]. apply IH; [assumption|lia].
  - destruct P as [B P]. destruct (Nat.eqb_spec a (made_by r)) as [->|N].
    + destruct (origin_made r P b B) as [X _]. destruct (Nat.eqb_spec (origin r b) (made_by r)); [lia|]. now apply IH.
    + destruct (origin_made r P a) as [X _]; [lia|]. destruct (Nat.eqb_spec (origin r a) (made_by r)); [lia|]. apply IH; [assumption|lia].
  - destruct P as [B P]. now apply IH.
  - destruct P as [B P]. now apply IH.
Qed.

Section Facts.
  Context (own : list key).
  Local Notation after := (after own).
  Lemma after_cons e r : after (e :: r) = field_step own (after r) e.
  Proof. unfold FieldCopySpec.after, field_run. simpl. now rewrite fold_left_app. Qed.

  Record tracked (h : list fevent) (s : fheap) : Prop := {
    tr_len : length (fh_objs s) = made_by h;
    tr_attrs : forall a, a < made_by h -> ff_attrs (fld_at s a) = attrs_of h a;
    tr_self : forall a, a < made_by h -> ff_self (fld_at s a) = origin h a;
    tr_lt : forall a, a < made_by h -> ff_list (fld_at s a) < length (fh_lists s);
    tr_same : forall a b, a < made_by h -> b < made_by h -> (ff_list (fld_at s a) = ff_list (fld_at s b) <-> origin h a = origin h b);
    tr_list : forall a, a < made_by h ->
      nth (ff_list (fld_at s a)) (fh_lists s) [] = map (VBound (origin h a)) own ++ map VGiven (given_to h (origin h a)) }.

  Lemma tracks h : proper h -> tracked h (after h).
  Proof.
    induction h as [|e r IH]; intros P.
    - split; simpl; intros; try reflexivity; lia.
    - rewrite after_cons. generalize dependent (after r). intros s IH.
      destruct e as [kw g|b|b x v|b f]; simpl in P.
      + destruct (IH P) as [L A S T M N]. pose proof (origin_made r P) as O.
        assert (W : forall a, a < made_by r -> fld_at (field_new own s kw g) a = fld_at s a).
        { intros a H. unfold fld_at; simpl. apply nth_old. now rewrite L. }
        assert (V : fld_at (field_new own s kw g) (made_by r) = FFld kw (length (fh_lists s)) (made_by r)).
        { unfold fld_at; simpl. rewrite <- L. now rewrite nth_new. }
        split; cbn [field_step made_by].
        * simpl. rewrite app_length; simpl. lia.
        * intros a H. simpl. destruct (Nat.eqb_spec a (made_by r)) as [->|Q]; [now rewrite V|]. rewrite W by lia. apply A; lia.
        * intros a H. simpl. destruct (Nat.eqb_spec a (made_by r)) as [->|Q]; [now rewrite V|]. rewrite W by lia. apply S; lia.
        * intros a H. simpl fh_lists. rewrite app_length; simpl length.
          destruct (Nat.eqb_spec a (made_by r)) as [->|Q]; [rewrite V; simpl; lia|]. rewrite W by lia. specialize (T a). lia.
        * intros a c H K. simpl.
          destruct (Nat.eqb_spec a (made_by r)) as [->|Q], (Nat.eqb_spec c (made_by r)) as [->|R].
          -- tauto.
          -- rewrite V, W by lia. simpl. specialize (T c). specialize (O c). split; intros; lia.
          -- rewrite V, W by lia. simpl. specialize (T a). specialize (O a). split; intros; lia.
          -- rewrite !W by lia. apply M; lia.
        * intros a H. simpl origin. simpl given_to. simpl fh_lists.
          destruct (Nat.eqb_spec a (made_by r)) as [->|Q].
          -- rewrite V, Nat.eqb_refl. simpl ff_list. rewrite nth_new. now rewrite L.
          -- rewrite W by lia. destruct (Nat.eqb_spec (origin r a) (made_by r)) as [E|E]; [specialize (O a); lia|].
             rewrite nth_old by (apply T; lia). apply N; lia.
      + destruct P as [B P]. destruct (IH P) as [L A S T M N].
        assert (W : forall a, a < made_by r -> fld_at (field_copy s b) a = fld_at s a).
        { intros a H. unfold fld_at; simpl. apply nth_old. now rewrite L. }
        assert (V : fld_at (field_copy s b) (made_by r) = fld_at s b).
        { unfold fld_at at 1; simpl. rewrite <- L. now rewrite nth_new. }
        split; cbn [field_step made_by].
        * simpl. rewrite app_length; simpl. lia.
        * intros a H. simpl. destruct (Nat.eqb_spec a (made_by r)) as [->|Q]; [rewrite V; auto|]. rewrite W by lia. apply A; lia.
        * intros a H. simpl. destruct (Nat.eqb_spec a (made_by r)) as [->|Q]; [rewrite V; auto|]. rewrite W by lia. apply S; lia.
        * intros a H. simpl fh_lists. destruct (Nat.eqb_spec a (made_by r)) as [->|Q]; [rewrite V; auto|]. rewrite W by lia. apply T; lia.
        * intros a c H K. simpl.
          destruct (Nat.eqb_spec a (made_by r)) as [->|Q], (Nat.eqb_spec c (made_by r)) as [->|R].
          -- tauto.
          -- rewrite V, W by lia. apply M; lia.
          -- rewrite V, W by lia. apply M; lia.
          -- rewrite !W by lia. apply M; lia.
        * intros a H. simpl origin. simpl given_to. simpl fh_lists.
          destruct (Nat.eqb_spec a (made_by r)) as [->|Q]; [rewrite V; auto|]. rewrite W by lia. apply N; lia.
      + destruct P as [B P]. destruct (IH P) as [L A S T M N].
        assert (W : forall a, fld_at (field_assign s b x v) a =
          if Nat.eqb a b then FFld (dset x v (ff_attrs (fld_at s a))) (ff_list (fld_at s a)) (ff_self (fld_at s a)) else fld_at s a).
        { intros a. unfold fld_at; simpl. destruct (Nat.eqb_spec a b) as [->|Q]; [rewrite upd_same by lia; reflexivity|]. apply upd_other; lia. }
        split; cbn [field_step made_by].
        * simpl. rewrite upd_len. exact L.
        * intros a H. simpl. rewrite W. destruct (Nat.eqb_spec a b); simpl; now rewrite A.
        * intros a H. simpl. rewrite W. destruct (Nat.eqb_spec a b); simpl; now apply S.
        * intros a H. rewrite W. simpl fh_lists. destruct (Nat.eqb_spec a b); simpl; now apply T.
        * intros a c H K. rewrite !W. simpl. destruct (Nat.eqb_spec a b), (Nat.eqb_spec c b); simpl; now apply M.
        * intros a H. rewrite W. simpl fh_lists. simpl origin. simpl given_to. destruct (Nat.eqb_spec a b); simpl; now apply N.
      + destruct P as [B P]. destruct (IH P) as [L A S T M N].
        split; cbn [field_step made_by].
        * exact L.
        * exact A.
        * exact S.
        * intros a H. simpl fh_lists. rewrite upd_len. now apply T.
        * exact M.
        * intros a H. simpl fh_lists. simpl origin. simpl given_to.
          change (fld_at (field_append s b f) a) with (fld_at s a).
          destruct (Nat.eqb_spec (origin r b) (origin r a)) as [Q|Q].
          -- apply M in Q; [|assumption|assumption]. rewrite Q, upd_same by now apply T. rewrite N by assumption. rewrite map_app, app_assoc. reflexivity.
          -- rewrite upd_other; [now apply N|]. intros K. apply Q. now apply M.
  Qed.

  Theorem converts_with (native : fattrs -> pyval -> res pyval) h a v : proper h -> a < made_by h -> field_convert native (after h) a v = native (attrs_of h a) v.
  Proof. intros P L. unfold field_convert. now rewrite (tr_attrs _ _ (tracks h P)). Qed.
  Theorem requires_by  h a nm p v : proper h -> a < made_by h ->
    field_missing (after h) a nm p v = true <->
    (exists x, dget (k "required") (attrs_of h a) = Some x /\ truthy x = true) /\ (v = VNone \/ v = VUndef) /\ (nm = false \/ p = false).
  Proof.
    intros P L. unfold field_missing. rewrite (tr_attrs _ _ (tracks h P)) by assumption.
    rewrite !Bool.andb_true_iff, Bool.orb_true_iff, !Bool.negb_true_iff.
    assert (I : is_nil v = true <-> v = VNone \/ v = VUndef).
    { destruct v; simpl; split; intros H; try discriminate H; try reflexivity; try (left; reflexivity); try (right; reflexivity); destruct H as [H|H]; discriminate H. }
    rewrite I. split.
    - intros [[R N] Q]. split; [|tauto]. destruct (dget _ _) as [x|]; [now exists x|discriminate].
    - intros [[x [R X]] [N Q]]. rewrite R. tauto.
  Qed.
  Theorem validates_with (native : fattrs -> pyval -> res pyval) (check : key -> fattrs -> vldr) h a v : proper h -> a < made_by h ->
    field_validate native check (after h) a v =
    rbind (native (attrs_of h a) v)
      (validators_result (map (fun m => check m (attrs_of h (origin h a))) own ++ given_to h (origin h a))).
  Proof.
    intros P L. pose proof (tracks h P) as T. unfold field_validate. rewrite converts_with by assumption.
    rewrite (tr_list _ _ T) by assumption. f_equal. f_equal. rewrite map_app, !map_map. f_equal.
    - apply map_ext. intros m. simpl. rewrite (tr_attrs _ _ T); [reflexivity|]. now apply origin_made.
    - rewrite <- (map_id (given_to h (origin h a))) at 2. now apply map_ext.
  Qed.
  Theorem exports_with (prim : fattrs -> pyval -> res pyval) h a v : proper h -> a < made_by h -> field_export prim (after h) a v = prim (attrs_of h (origin h a)) v.
  Proof.
    intros P L. pose proof (tracks h P) as T. unfold field_export. rewrite (tr_self _ _ T) by assumption.
    rewrite (tr_attrs _ _ T); [reflexivity|]. now apply origin_made.
  Qed.

  (** Assigning to a copy: seen by conversion of that copy only. *)
  Theorem assign_frame (native : fattrs -> pyval -> res pyval) (prim : fattrs -> pyval -> res pyval) (check : key -> fattrs -> vldr) h b x y a v : proper h -> b < made_by h -> a < made_by h ->
    let h' := FSet b x y :: h in
    (a <> b -> field_convert native (after h') a v = field_convert native (after h) a v /\
               forall nm p, field_missing (after h') a nm p v = field_missing (after h) a nm p v) /\
    (a <> b -> origin h a <> b -> field_validate native check (after h') a v = field_validate native check (after h) a v) /\
    (origin h a <> b -> field_export prim (after h') a v = field_export prim (after h) a v).
  Proof.
    intros P B L h'. assert (P' : proper h') by (split; assumption).
    assert (L' : a < made_by h') by exact L.
    split; [|split].
    - intros N. split.
      + rewrite !converts_with by assumption. simpl. now rewrite (proj2 (Nat.eqb_neq a b) N).
      + intros nm p. unfold field_missing. rewrite (tr_attrs _ _ (tracks h' P')), (tr_attrs _ _ (tracks h P)) by assumption.
        simpl. now rewrite (proj2 (Nat.eqb_neq a b) N).
    - intros N O. rewrite !validates_with by assumption. simpl.
      now rewrite (proj2 (Nat.eqb_neq a b) N), (proj2 (Nat.eqb_neq (origin h a) b) O).
    - intros O. rewrite !exports_with by assumption. simpl. now rewrite (proj2 (Nat.eqb_neq (origin h a) b) O).
  Qed.
  (** Appending a validator. *)
  Theorem append_reaches (native : fattrs -> pyval -> res pyval) (prim : fattrs -> pyval -> res pyval) (check : key -> fattrs -> vldr) h b f a v : proper h -> b < made_by h -> a < made_by h ->
    let h' := FAppend b f :: h in
    field_convert native (after h') a v = field_convert native (after h) a v /\
    field_export prim (after h') a v = field_export prim (after h) a v /\
    (origin h a <> origin h b -> field_validate native check (after h') a v = field_validate native check (after h) a v) /\
    (origin h a = origin h b -> forall w, field_validate native check (after h') a v = Ok w -> f w = None).
  Proof.
    intros P B L h'. assert (P' : proper h') by (split; assumption). assert (L' : a < made_by h') by exact L.
    split; [now rewrite !converts_with by assumption|]. split; [now rewrite !exports_with by assumption|]. split.
    - intros O. rewrite !validates_with by assumption. simpl. now rewrite (proj2 (Nat.eqb_neq (origin h b) (origin h a)) (not_eq_sym O)).
    - intros O w. rewrite validates_with by assumption. simpl. rewrite O, Nat.eqb_refl.
      destruct (native (attrs_of h a) v) as [w'|e]; simpl; [|discriminate].
      set (vs := map _ own ++ _).
      assert (Q : forall l acc, run_validators (l ++ [f]) w' acc = Ok [] -> f w' = None).
      { induction l as [|g l IHl]; intros acc.
        - simpl. destruct (f w') as [e|]; [|reflexivity]. destruct e; try discriminate; try (destruct acc; discriminate).
          all: match goal with |- context [if ?c then _ else _] => destruct c end; intros H; inversion H as [H1]; destruct acc; discriminate.
        - simpl. destruct (g w') as [e|]; [|apply IHl]. destruct e; try discriminate; try apply IHl.
          match goal with |- context [if ?c then _ else _] => destruct c end; [|apply IHl].
          intros H; inversion H as [H1]; destruct acc; discriminate. }
      unfold validators_result. destruct (run_validators _ _ _) as [[|m ms]|e] eqn:R; try discriminate.
      intros H; inversion H; subst. unfold vs in R. rewrite app_assoc in R. eapply Q; exact R.
  Qed.
End Facts.

(** Assignments to a copy do not reach its validators or its export. *)
Lemma copy_deaf own native prim check h b x y v : proper h -> b < made_by h -> origin h b <> b ->
  let h' := FSet b x y :: h in
  native (dset x y (attrs_of h b)) v = native (attrs_of h b) v ->
  field_validate native check (after own h') b v = field_validate native check (after own h) b v /\
  field_export prim (after own h') b v = field_export prim (after own h) b v.
Proof.
  intros P B O h' Q. assert (P' : proper h') by (split; assumption). assert (B' : b < made_by h') by exact B. split.
  - rewrite !validates_with by assumption. simpl. rewrite Nat.eqb_refl, Q. now rewrite (proj2 (Nat.eqb_neq (origin h b) b) O).
  - rewrite !exports_with by assumption. simpl. now rewrite (proj2 (Nat.eqb_neq (origin h b) b) O).
Qed.

Definition of_three : list fevent := [FCopy 0; FNew [(k "max_length", VInt 3)] []].
Lemma limits_ignored : exists h a hi s,
  proper h /\ a < made_by h /\ dget (k "max_length") (attrs_of h a) = Some (VInt hi) /\ (hi < Z.of_nat (length s))%Z /\
  field_validate text_native text_check (after text_own h) a (VStr s) = Ok (VStr s).
Proof.
  exists (FSet 1 (k "max_length") (VInt 1) :: of_three), 1, 1%Z, (u "yes").
  split; [simpl; lia|]. split; [simpl; lia|]. split; [reflexivity|]. split; [reflexivity|]. vm_compute. reflexivity.
Qed.
Lemma base_reaches : exists h b x y a v w e,
  proper h /\ a < made_by h /\ b < made_by h /\ a <> b /\
  field_validate text_native text_check (after text_own h) a v = Ok w /\
  field_validate text_native text_check (after text_own (FSet b x y :: h)) a v = Raise e.
Proof.
  exists of_three, 0, (k "max_length"), (VInt 1), 1, (VStr (u "yes")). do 2 eexists.
  split; [simpl; lia|]. split; [simpl; lia|]. split; [simpl; lia|]. split; [discriminate|]. split; vm_compute; reflexivity.
Qed.
