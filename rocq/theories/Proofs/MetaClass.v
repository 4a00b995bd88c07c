(** What the metaclass accumulates, and the invariant of programs. *)
From Verif.Model Require Import Py Core Export Meta.
From Verif.Spec Require Import MetaSpec.
From Verif.Proofs Require Import DictLemmas MetaHeap.
From Coq Require Import Lia Sorted Permutation.

(** ** The invariant *)
Record wf (P : program) : Prop := {
  w_ordered : ordered (p_heap P);
  w_range : forall k x e, In k (p_classes P) -> In (x, e) (cl_fields k) -> en_type e < length (p_heap P);
  w_nodup : forall k, In k (p_classes P) -> NoDup (dkeys (cl_fields k));
  w_vnodup : forall k, In k (p_classes P) -> NoDup (dkeys (cl_validators k));
  w_top : forall a, in_schema P a -> ~ is_element P a;
  w_set : forall n k x e, nth_error (p_classes P) n = Some k -> In (x, e) (cl_fields k) ->
    exists o, nth_error (p_heap P) (en_type e) = Some o /\
      fo_named (ob_opts o) = true /\ fo_owner (ob_opts o) = Some (N.of_nat n);
  w_origin : forall k x e, In k (p_classes P) -> In (x, e) (cl_fields k) ->
    exists k0 e0, In k0 (p_classes P) /\ In (x, e0) (cl_fields k0) /\
      Z.of_nat (en_type e0) = pos_at (p_heap P) (en_type e);
  w_addr : forall k x e k' x' e', In k (p_classes P) -> In (x, e) (cl_fields k) ->
    In k' (p_classes P) -> In (x', e') (cl_fields k') -> en_type e = en_type e' -> x = x';
  w_bases : forall n k b, nth_error (p_classes P) n = Some k -> In b (cl_bases k) -> N.to_nat b < n }.

(** The fields of a class come in the order of their creation. *)
Definition by_creation (h : heap) (k : cls) : Prop :=
  StronglySorted (fun p q => (pos_at h (en_type (snd p)) < pos_at h (en_type (snd q)))%Z) (cl_fields k).

Lemma class_at_In P b k : class_at P b = Some k -> In k (p_classes P).
Proof. intros H. eapply nth_error_In. exact H. Qed.

(** ** The bases *)
Fixpoint first_entry (P : program) (bs : list cid) (x : key) : option entry :=
  match bs with
  | [] => None
  | b :: r =>
      match class_at P b with
      | Some k => match dget x (cl_fields k) with Some e => Some e | None => first_entry P r x end
      | None => first_entry P r x
      end
  end.

Definition start (P : program) : acc := Acc (p_heap P) [] sopts_default [].

Definition copied (P : program) (H : heap) (e e' : entry) : Prop :=
  copy_of (p_heap P) e H e'.

Record bases_inv (P : program) (bs : list cid) (s : acc) : Prop := {
  bi_heap : exists l, ac_heap s = p_heap P ++ l /\ forall o, In o l -> exists a, nth_error (p_heap P) a = Some o;
  bi_fields : forall x, match dget x (ac_fields s), first_entry P bs x with
                        | Some e', Some e => copied P (ac_heap s) e e'
                        | None, None => True
                        | _, _ => False
                        end;
  bi_nodup : NoDup (dkeys (ac_fields s));
  bi_addr : forall x e x' e', In (x, e) (ac_fields s) -> In (x', e') (ac_fields s) ->
    en_type e = en_type e' -> x = x';
  bi_opts : ac_opts s = base_options P bs;
  bi_vnodup : NoDup (dkeys (ac_validators s));
  bi_validators : forall x, dget x (ac_validators s) = inherited_validator P bs x }.

Lemma validator_of_class P b k x : class_at P b = Some k -> validator_of P b x = dget x (cl_validators k).
Proof. intros H. unfold validator_of, env_of. cbn. now rewrite H. Qed.

Lemma Forall2_dget {A B} (R : A -> B -> Prop) (l : list (key * A)) (l' : list (key * B)) x :
  Forall2 (fun p p' => fst p = fst p' /\ R (snd p) (snd p')) l l' ->
  match dget x l, dget x l' with
  | Some a, Some b => R a b
  | None, None => True
  | _, _ => False
  end.
Proof.
  induction 1 as [|[y a] [y' b] l l' [E r] F IH]; cbn; [exact I|].
  cbn in E, r. subst y'. destruct (key_eqb x y); [exact r|exact IH].
Qed.

Lemma Forall2_dkeys {A B} (R : A -> B -> Prop) (l : list (key * A)) (l' : list (key * B)) :
  Forall2 (fun p p' => fst p = fst p' /\ R (snd p) (snd p')) l l' -> dkeys l' = dkeys l.
Proof. unfold dkeys. induction 1 as [|p p' l l' [E r] F IH]; cbn; [reflexivity|]. now rewrite IH, E. Qed.

Lemma dupdate_In {A} (d e : list (key * A)) p : In p (dupdate d e) -> In p d \/ In p e.
Proof.
  revert d. induction e as [|[y w] e IH]; intros d I; [now left|].
  cbn in I. apply IH in I. destruct I as [I|I]; [|right; now right].
  assert (In p d \/ p = (y, w)) as [J| ->]; [|now left|right; now left].
  clear IH. induction d as [|[z v] d IH]; cbn in I.
  - destruct I as [<-|[]]. now right.
  - destruct (key_eqb_spec y z) as [->|N].
    + destruct I as [<-|I]; [now right|left; now right].
    + destruct I as [<-|I]; [left; now left|]. destruct (IH I); [left; now right|now right].
Qed.

Lemma bases_acc P : wf P -> forall bs, (forall b, In b bs -> class_at P b <> None) ->
  bases_inv P bs (fold_left (add_base P) (rev bs) (start P)).
Proof.
  intros W. induction bs as [|b bs IH]; intros B.
  - cbn. constructor; cbn; auto using NoDup_nil.
    + exists []. rewrite app_nil_r. split; [reflexivity|contradiction].
    + contradiction.
  - cbn [rev]. rewrite fold_left_app. cbn [fold_left].
    set (s := fold_left (add_base P) (rev bs) (start P)) in *.
    assert (bases_inv P bs s) as [[l [Hl Fl]] Df Nf Af Op Nv Dv] by (apply IH; intros; apply B; now right).
    clear IH. unfold add_base.
    destruct (class_at P b) as [k|] eqn:K; [|now apply B in K; [|left]].
    pose proof (class_at_In _ _ _ K) as Ik.
    destruct (copy_fields_spec (cl_fields k) (ac_heap s)) as (l2 & fs' & -> & Fl2 & A & N2).
    { intros x e I. rewrite Hl, app_length. pose proof (w_range P W _ _ _ Ik I). lia. }
    assert (NoDup (dkeys fs')) as Nfs by (rewrite (Forall2_dkeys (fun e e' => copy_of (ac_heap s) e (ac_heap s ++ l2) e') _ _ A); now apply (w_nodup P W)).
    constructor; cbn [ac_heap ac_fields ac_opts ac_validators].
    + exists (l ++ l2). rewrite Hl, app_assoc. split; [reflexivity|].
      intros o I. apply in_app_or in I. destruct I as [I|I]; [now apply Fl|].
      destruct (Fl2 o I) as (a & Ha). rewrite Hl in Ha.
      destruct (Nat.lt_ge_cases a (length (p_heap P))) as [L|L].
      * rewrite nth_error_app1 in Ha by assumption. eauto.
      * rewrite nth_error_app2 in Ha by assumption. apply nth_error_In in Ha. now apply Fl.
    + intros x. rewrite dget_dupdate by assumption. cbn [first_entry]. rewrite K.
      pose proof (Forall2_dget (fun e e' => copy_of (ac_heap s) e (ac_heap s ++ l2) e') _ _ x A) as D.
      destruct (dget x (cl_fields k)) as [e|] eqn:G, (dget x fs') as [e'|] eqn:G'; try contradiction.
      * destruct D as (C1 & C2 & C3 & C4 & C5). unfold copied, copy_of. repeat split; auto.
        -- rewrite C1, Hl. apply nth_error_app1. apply (w_range P W k x e Ik). now apply dget_In.
        -- rewrite Hl, app_length in C3. lia.
      * specialize (Df x). destruct (dget x (ac_fields s)) as [e'|], (first_entry P bs x) as [e|]; auto.
        destruct Df as (C1 & C2 & C3 & C4 & C5). unfold copied, copy_of. repeat split; auto.
        -- rewrite nth_error_app1 by assumption. exact C1.
        -- rewrite app_length. lia.
    + now apply NoDup_dupdate.
    + intros x e x' e' I I' E.
      assert (forall y f, In (y, f) fs' -> length (ac_heap s) <= en_type f) as Hnew.
      { clear - A. intros y f I. induction A as [|p p' fs fs' [_ C] A IHA]; [contradiction|].
        destruct I as [->|I]; [|auto]. destruct C as (_ & _ & C & _). exact C. }
      assert (forall y f, In (y, f) (ac_fields s) -> en_type f < length (ac_heap s)) as Hold.
      { intros y f If. specialize (Df y). rewrite (In_dget y f) in Df by assumption.
        destruct (first_entry P bs y) as [e0|]; [|contradiction]. now destruct Df as (_ & C & _). }
      apply dupdate_In in I, I'. destruct I as [I|I], I' as [I'|I'].
      * eapply Af; eassumption.
      * apply Hold in I. apply Hnew in I'. lia.
      * apply Hnew in I. apply Hold in I'. lia.
      * clear - N2 I I' E. induction fs' as [|[y f] fs' IHf]; [contradiction|]. cbn in N2.
        inversion N2 as [|? ? N3 N4]; subst.
        destruct I as [I|I], I' as [I'|I'].
        -- congruence.
        -- exfalso. apply N3. injection I as -> ->. rewrite E. apply in_map_iff. now exists (x', e').
        -- exfalso. apply N3. injection I' as -> ->. rewrite <- E. apply in_map_iff. now exists (x, e).
        -- now apply IHf.
    + cbn. now rewrite K.
    + now apply NoDup_dupdate.
    + intros x. rewrite dget_dupdate by (now apply (w_vnodup P W)). cbn [inherited_validator].
      rewrite (validator_of_class P b k x K), Dv. reflexivity.
Qed.

(** ** The class body *)
Definition own_entry (t : attr) : option entry :=
  match t with
  | AField a => Some (En a None None)
  | ACalc a g s => Some (En a (Some g) s)
  | _ => None
  end.

Lemma own_entry_obj t e : own_entry t = Some e -> declared_obj t = Some (en_type e).
Proof. destruct t; cbn; intros H; inversion H; reflexivity. Qed.

Lemma attrs_heap attrs : forall s, ac_heap (fold_left add_attr attrs s) = ac_heap s /\
  ac_opts (fold_left add_attr attrs s) = ac_opts s.
Proof.
  induction attrs as [|[x t] attrs IH]; intros s; [now split|]. cbn [fold_left].
  destruct (IH (add_attr s (x, t))) as [-> ->].
  destruct t; cbn; try (split; reflexivity). destruct (validates x); split; reflexivity.
Qed.

Lemma attrs_fields x : forall attrs s, NoDup (map fst attrs) ->
  dget x (ac_fields (fold_left add_attr attrs s)) =
  match dget x attrs with
  | Some t => match own_entry t with Some e => Some e | None => dget x (ac_fields s) end
  | None => dget x (ac_fields s)
  end.
Proof.
  induction attrs as [|[y t] attrs IH]; intros s N; [reflexivity|].
  cbn [fold_left dget]. inversion N as [|? ? N1 N2]; subst. rewrite IH by assumption.
  destruct (key_eqb_spec x y) as [->|D].
  - assert (dget y attrs = None) as ->.
    { apply dget_None_keys. exact N1. }
    destruct t; cbn; rewrite ?dget_dset_eq; try reflexivity. destruct (validates y); reflexivity.
  - assert (dget x (ac_fields (add_attr s (y, t))) = dget x (ac_fields s)) as ->; [|reflexivity].
    destruct t; cbn; rewrite ?dget_dset_neq by assumption; try reflexivity. destruct (validates y); reflexivity.
Qed.

Lemma attrs_nodup : forall attrs s, NoDup (dkeys (ac_fields s)) ->
  NoDup (dkeys (ac_fields (fold_left add_attr attrs s))).
Proof.
  induction attrs as [|[y t] attrs IH]; intros s N; [exact N|]. cbn [fold_left]. apply IH.
  destruct t; cbn; try exact N; try now apply NoDup_dset. destruct (validates y); exact N.
Qed.

Lemma attrs_vnodup : forall attrs s, NoDup (dkeys (ac_validators s)) ->
  NoDup (dkeys (ac_validators (fold_left add_attr attrs s))).
Proof.
  induction attrs as [|[y t] attrs IH]; intros s N; [exact N|]. cbn [fold_left]. apply IH.
  destruct t; cbn; try exact N; try now apply NoDup_dset. destruct (validates y); [now apply NoDup_dset|exact N].
Qed.

Lemma strip_app pre s : strip pre (pre ++ s) = Some s.
Proof. induction pre as [|a pre IH]; cbn; [reflexivity|]. now rewrite N.eqb_refl. Qed.
Lemma strip_Some pre : forall s r, strip pre s = Some r -> s = pre ++ r.
Proof.
  induction pre as [|a pre IH]; intros [|b s] r; cbn; try (intros H; now inversion H).
  destruct (N.eqb_spec a b) as [->|]; [|discriminate]. intros H. now rewrite (IH _ _ H).
Qed.

Definition vkey (x : key) : key := match x with KStr s => KStr (u "validate_" ++ s) | KInt z => KInt z end.

Lemma validates_Some x y : validates y = Some x <-> exists s, x = KStr s /\ y = KStr (u "validate_" ++ s).
Proof.
  unfold validates. destruct y as [s|z].
  - destruct (strip (u "validate_") s) as [r|] eqn:E; cbn [option_map].
    + apply strip_Some in E. subst s. split.
      * intros H. injection H as <-. eauto.
      * intros (s & -> & H). f_equal. f_equal. now injection H.
    + split; [discriminate|]. intros (r & -> & H).
      assert (s = u "validate_" ++ r) as -> by congruence. now rewrite strip_app in E.
  - split; [discriminate|]. intros (s & _ & H). discriminate.
Qed.

Lemma attrs_validators x : forall attrs s, NoDup (map fst attrs) ->
  dget x (ac_validators (fold_left add_attr attrs s)) =
  match own_validator attrs x with Some v => Some v | None => dget x (ac_validators s) end.
Proof.
  induction attrs as [|[y t] attrs IH]; intros s N.
  - cbn. destruct x; reflexivity.
  - cbn [fold_left]. inversion N as [|? ? N1 N2]; subst. rewrite IH by assumption. clear IH.
    destruct x as [n|z].
    + unfold own_validator. cbn [dget].
      destruct (key_eqb_spec (KStr (u "validate_" ++ n)) y) as [<-|D].
      * assert (dget (KStr (u "validate_" ++ n)) attrs = None) as -> by (apply dget_None_keys; exact N1).
        destruct t; try reflexivity. cbn [add_attr].
        assert (validates (KStr (u "validate_" ++ n)) = Some (KStr n)) as -> by (apply validates_Some; eauto).
        cbn [ac_validators]. now rewrite dget_dset_eq.
      * assert (dget (KStr n) (ac_validators (add_attr s (y, t))) = dget (KStr n) (ac_validators s)) as ->; [|reflexivity].
        destruct t; try reflexivity. cbn [add_attr]. destruct (validates y) as [w|] eqn:V; [|reflexivity].
        cbn [ac_validators]. apply dget_dset_neq. intros <-. apply validates_Some in V.
        destruct V as (r & E & ->). injection E as ->. now apply D.
    + cbn [own_validator].
      destruct t; try reflexivity. cbn [add_attr]. destruct (validates y) as [w|] eqn:V; [|reflexivity].
      cbn [ac_validators]. apply dget_dset_neq. intros <-. apply validates_Some in V.
      destruct V as (r & E & _). discriminate.
Qed.

(** ** Sorting *)
Lemma insert_perm h p l : Permutation (insert_field h p l) (p :: l).
Proof.
  induction l as [|q l IH]; cbn; [reflexivity|].
  destruct (_ <=? _)%Z; [reflexivity|]. rewrite IH. apply perm_swap.
Qed.
Lemma sort_perm h l : Permutation (sort_fields h l) l.
Proof.
  induction l as [|p l IH]; cbn; [reflexivity|]. fold (sort_fields h l). rewrite insert_perm. now constructor.
Qed.
Definition pos_le (h : heap) (p q : key * entry) : Prop :=
  (pos_at h (en_type (snd p)) <= pos_at h (en_type (snd q)))%Z.
Lemma insert_sorted h p l : StronglySorted (pos_le h) l -> StronglySorted (pos_le h) (insert_field h p l).
Proof.
  induction 1 as [|q l S IH F]; cbn.
  - repeat constructor.
  - destruct (Z.leb_spec (pos_at h (en_type (snd p))) (pos_at h (en_type (snd q)))) as [L|L].
    + constructor; [now constructor|]. constructor; [exact L|].
      eapply Forall_impl; [|exact F]. unfold pos_le. intros; lia.
    + constructor; [exact IH|].
      eapply Permutation_Forall; [symmetry; apply insert_perm|]. constructor; [unfold pos_le; lia|exact F].
Qed.
Lemma sort_sorted h l : StronglySorted (pos_le h) (sort_fields h l).
Proof.
  induction l as [|p l IH]; cbn; [constructor|]. fold (sort_fields h l). now apply insert_sorted.
Qed.

Lemma dget_perm {A} x (l l' : list (key * A)) : NoDup (dkeys l) -> Permutation l l' -> dget x l' = dget x l.
Proof.
  intros N P.
  assert (NoDup (dkeys l')) as N'.
  { eapply Permutation_NoDup; [|exact N]. now apply Permutation_map. }
  destruct (dget x l) as [v|] eqn:G.
  - apply In_dget; [exact N'|]. eapply Permutation_in; [exact P|]. now apply dget_In.
  - apply dget_None_keys. apply dget_None_keys in G. intros I. apply G.
    eapply Permutation_in; [|exact I]. symmetry. now apply Permutation_map.
Qed.
