(** Class definition: the fields of the new class, and what happens to the others. *)
From Verif.Model Require Import Py Core Export Meta.
From Verif.Spec Require Import MetaSpec.
From Verif.Proofs Require Import DictLemmas MetaHeap MetaClass.
From Coq Require Import Lia Sorted Permutation.

Lemma inside_is_element P a b : inside (p_heap P) a b -> is_element P b.
Proof. intros I. apply inside_element in I. destruct I as (c & o & H & K). exists c, o. auto. Qed.

Lemma field_of_class P b k x : class_at P b = Some k ->
  field_of P b x = option_map (field_at (p_heap P)) (dget x (cl_fields k)).
Proof. intros H. unfold field_of, env_of. cbn. rewrite H. cbn. apply dget_map. Qed.

Lemma names_of_class P b k : class_at P b = Some k -> names_of P b = dkeys (cl_fields k).
Proof.
  intros H. unfold names_of, env_of. cbn. rewrite H. cbn. unfold dkeys. rewrite map_map. reflexivity.
Qed.

Lemma field_of_none P b x : class_at P b = None -> field_of P b x = None.
Proof. intros H. unfold field_of, env_of. cbn. now rewrite H. Qed.

Lemma StronglySorted_impl {A} (R R' : A -> A -> Prop) l :
  (forall x y, In x l -> In y l -> R x y -> R' x y) -> StronglySorted R l -> StronglySorted R' l.
Proof.
  intros I S. induction S as [|a l S IH Fa]; constructor.
  - apply IH. intros x y Ix Iy. apply I; now right.
  - apply Forall_forall. intros y Iy. apply I; [now left|now right|]. now apply (proj1 (Forall_forall _ _) Fa).
Qed.

Section Define.
  Context (P : program) (W : wf P) (bases : list cid) (attrs : list (key * attr)) (own : list optmember)
    (claim : option (pyval -> res bool)).
  Context (B : forall b, In b bases -> class_at P b <> None) (CB : class_body P attrs).

  Let h := p_heap P.
  Let s0 := fold_left (add_base P) (rev bases) (start P).
  Let s := fold_left add_attr attrs s0.
  Let H := ac_heap s.
  Let F := ac_fields s.
  Let fs := sort_fields H F.
  Let c := next_class P.
  Let H' := setup_all c H fs.
  Let P' := define_class P bases attrs own claim.
  Let k' := Cls bases fs (read_options (ac_opts s) own) (ac_validators s) claim.

  Lemma P'_eq : P' = Prog H' (p_classes P ++ [k']).
  Proof using All. reflexivity. Qed.

  Lemma BI : bases_inv P bases s0.
  Proof using All. now apply bases_acc. Qed.

  Lemma H_ext : exists l, H = h ++ l /\ forall o, In o l -> exists a, nth_error h a = Some o.
  Proof using All. unfold H, s. rewrite (proj1 (attrs_heap attrs s0)). exact (bi_heap _ _ _ BI). Qed.

  Lemma H_len : length h <= length H.
  Proof using All. destruct H_ext as (l & -> & _). rewrite app_length. lia. Qed.

  Lemma H_old b : b < length h -> nth_error H b = nth_error h b.
  Proof using All. intros L. destruct H_ext as (l & -> & _). now apply nth_error_app1. Qed.

  Lemma H_obj b o : nth_error H b = Some o -> exists a, a <= b /\ nth_error h a = Some o.
  Proof using All.
    destruct H_ext as (l & -> & Fl). intros E.
    destruct (Nat.lt_ge_cases b (length h)) as [L|L].
    - rewrite nth_error_app1 in E by assumption. eauto.
    - rewrite nth_error_app2 in E by assumption. apply nth_error_In in E. destruct (Fl o E) as (a & Ha).
      exists a. split; [|exact Ha]. assert (a < length h) by (apply nth_error_Some; congruence). lia.
  Qed.

  Lemma H_ordered : ordered H.
  Proof using All.
    intros b o i E K. destruct (H_obj b o E) as (a & L & Ha). pose proof (w_ordered P W a o i Ha K). lia.
  Qed.

  Lemma H_element b o i : nth_error H b = Some o -> inner_of (ob_kind o) = Some i -> is_element P i.
  Proof using All. intros E K. destruct (H_obj b o E) as (a & _ & Ha). exists a, o. auto. Qed.

  Lemma H_inside a b : inside H a b -> is_element P b.
  Proof using All. intros I. apply inside_element in I. destruct I as (d & o & E & K). eapply H_element; eassumption. Qed.

  Lemma element_old i : is_element P i -> i < length h.
  Proof using All.
    intros (b & o & E & K). pose proof (w_ordered P W b o i E K).
    assert (b < length h) by (apply nth_error_Some; unfold h; congruence). lia.
  Qed.

  Lemma F_nodup : NoDup (dkeys F).
  Proof using All. apply attrs_nodup. exact (bi_nodup _ _ _ BI). Qed.

  Lemma fs_perm : Permutation fs F.
  Proof using All. apply sort_perm. Qed.

  Lemma fs_nodup : NoDup (dkeys fs).
  Proof using All. eapply Permutation_NoDup; [|exact F_nodup]. apply Permutation_map. symmetry. exact fs_perm. Qed.

  Lemma fs_get x : dget x fs = dget x F.
  Proof using All. apply dget_perm; [exact F_nodup|]. symmetry. exact fs_perm. Qed.

  Definition own_obj (x : key) (e : entry) : Prop := exists t, In (x, t) attrs /\ own_entry t = Some e.

  Lemma F_get x : dget x F =
    match dget x attrs with
    | Some t => match own_entry t with Some e => Some e | None => dget x (ac_fields s0) end
    | None => dget x (ac_fields s0)
    end.
  Proof using All. apply attrs_fields. exact (proj1 CB). Qed.

  Lemma no_own x : (forall t, In (x, t) attrs -> declared_obj t = None) -> dget x F = dget x (ac_fields s0).
  Proof using All.
    intros N. rewrite F_get. destruct (dget x attrs) as [t|] eqn:G; [|reflexivity].
    apply dget_In in G. apply N in G. destruct t; cbn in *; congruence.
  Qed.

  Lemma F_cases x e : dget x F = Some e ->
    own_obj x e \/
    ((forall t, In (x, t) attrs -> declared_obj t = None) /\
     exists e0, first_entry P bases x = Some e0 /\ copied P H e0 e).
  Proof using All.
    intros G. rewrite F_get in G.
    assert (dget x (ac_fields s0) = Some e -> exists e0, first_entry P bases x = Some e0 /\ copied P H e0 e) as C.
    { intros G0. pose proof (bi_fields _ _ _ BI x) as D. rewrite G0 in D.
      destruct (first_entry P bases x) as [e0|]; [|contradiction]. exists e0. split; [reflexivity|].
      unfold H, s. rewrite (proj1 (attrs_heap attrs s0)). exact D. }
    destruct (dget x attrs) as [t|] eqn:G1.
    - destruct (own_entry t) as [e'|] eqn:O.
      + injection G as <-. left. exists t. split; [now apply dget_In|exact O].
      + right. split; [|now apply C]. intros t' I.
        assert (t' = t) as ->.
        { apply In_dget in I; [congruence|]. exact (proj1 CB). }
        destruct t; cbn in *; congruence.
    - right. split; [|now apply C]. intros t' I. exfalso. apply dget_None_keys in G1. apply G1.
      unfold dkeys. apply in_map_iff. now exists (x, t').
  Qed.

  Lemma first_entry_spec x e0 : first_entry P bases x = Some e0 ->
    exists b k, In b bases /\ class_at P b = Some k /\ dget x (cl_fields k) = Some e0.
  Proof using All.
    clear - B. induction bases as [|b bs IH]; [discriminate|]. cbn.
    assert (forall b, In b bs -> class_at P b <> None) as B' by (intros; apply B; now right).
    destruct (class_at P b) as [k|] eqn:K.
    - destruct (dget x (cl_fields k)) as [e|] eqn:G.
      + intros E. injection E as <-. exists b, k. split; [now left|]. auto.
      + intros E. destruct (IH B' E) as (b' & k2 & I & K2 & G2). exists b', k2. split; [now right|]. auto.
    - intros E. destruct (IH B' E) as (b' & k2 & I & K2 & G2). exists b', k2. split; [now right|]. auto.
  Qed.

  Lemma first_entry_schema x e0 : first_entry P bases x = Some e0 ->
    exists k, In k (p_classes P) /\ In (x, e0) (cl_fields k).
  Proof using All.
    intros E. destruct (first_entry_spec x e0 E) as (b & k & _ & K & G).
    exists k. split; [now apply (class_at_In P b)|now apply dget_In].
  Qed.

  Lemma own_facts x e : own_obj x e ->
    (exists o, nth_error h (en_type e) = Some o /\ ob_pos o = Z.of_nat (en_type e)) /\
    ~ in_schema P (en_type e) /\ ~ is_element P (en_type e).
  Proof using All.
    intros (t & I & O). destruct CB as (_ & D & _). apply (D x t (en_type e) I). now apply own_entry_obj.
  Qed.

  Lemma own_range x e : own_obj x e -> en_type e < length h.
  Proof using All. intros O. destruct (own_facts x e O) as ((o & E & _) & _). apply nth_error_Some. congruence. Qed.

  Lemma fs_In x e : In (x, e) fs -> dget x F = Some e.
  Proof using All. intros I. apply In_dget; [exact F_nodup|]. eapply Permutation_in; [exact fs_perm|exact I]. Qed.

  Lemma fs_ok : forall x e, In (x, e) fs -> en_type e < length H /\ forall a, ~ inside H a (en_type e).
  Proof using All.
    intros x e I. apply fs_In in I. destruct (F_cases x e I) as [O|(_ & e0 & E0 & C)].
    - pose proof (own_range x e O). pose proof H_len. split; [lia|]. intros a J. apply H_inside in J.
      now apply (own_facts x e O).
    - destruct C as (C1 & C2 & C3 & _). split; [exact C2|]. intros a J. apply H_inside in J.
      apply element_old in J. unfold h in J. lia.
  Qed.

  Let T := map (fun p : key * entry => en_type (snd p)) fs.

  Lemma T_In a : In a T <-> exists x e, In (x, e) fs /\ en_type e = a.
  Proof using All.
    unfold T. rewrite in_map_iff. split.
    - intros ([x e] & E & I). exists x, e. auto.
    - intros (x & e & I & E). exists (x, e). auto.
  Qed.

  Lemma H'_spec b :
    (In b T /\ nth_error H' b = option_map (set_up true c) (nth_error H b)) \/
    (~ In b T /\ (exists a, In a T /\ inside H a b) /\
       nth_error H' b = option_map (set_up false c) (nth_error H b)) \/
    (~ In b T /\ (forall a, In a T -> ~ inside H a b) /\ nth_error H' b = nth_error H b).
  Proof using All. exact (setup_all_spec c fs H b H_ordered fs_ok). Qed.

  Lemma H'_kinds : same_kinds H H'.
  Proof using All. exact (setup_all_kinds c fs H H_ordered fs_ok). Qed.

  Lemma H'_len : length H' = length H.
  Proof using All. exact (same_kinds_length _ _ H'_kinds). Qed.

  Lemma inside_trans a b d : inside H a b -> inside H b d -> inside H a d.
  Proof using All.
    induction 1 as [a o i E K|a o i b E K I IH]; intros J.
    - eapply inside_deep; eassumption.
    - eapply inside_deep; [eassumption|eassumption|auto].
  Qed.

  Lemma T_not_inside a b : In b T -> ~ inside H a b.
  Proof using All. intros I. apply T_In in I. destruct I as (x & e & I & <-). now apply (fs_ok x e). Qed.

  (** ** The new class *)
  Lemma new_class_at : class_at P' c = Some k'.
  Proof using All.
    unfold class_at. rewrite P'_eq. cbn [p_classes]. unfold c, next_class. rewrite Nnat.Nat2N.id.
    rewrite nth_error_app2, Nat.sub_diag by lia. reflexivity.
  Qed.

  Lemma read_H_old a : a < length h -> read (length H) H a = read (length h) h a.
  Proof using All.
    intros L. destruct H_ext as (l & E & _). pose proof H_len.
    rewrite (read_fuel (length H) (length h) H a); [|exact H_ordered|lia|exact L|lia].
    rewrite E. apply read_ext; [exact (w_ordered P W)|exact L].
  Qed.

  Lemma read_new a : In a T -> read (length H') H' a = rebrand true c (read (length H) H a).
  Proof using All.
    intros I. rewrite H'_len.
    assert (a < length H) as L by (apply T_In in I; destruct I as (x & e & I & <-); now apply (fs_ok x e)).
    apply read_set_up; [exact H_ordered|exact L|exact L| |].
    - destruct (H'_spec a) as [[_ E]|[(N & _)|(N & _)]]; [exact E|contradiction|contradiction].
    - intros b J. destruct (H'_spec b) as [[Ib _]|[(_ & _ & E)|(_ & N & _)]].
      + now apply (T_not_inside a) in Ib.
      + exact E.
      + now apply N in J.
  Qed.

  Lemma new_field_of x : field_of P' c x =
    option_map (fun e => rebrand_field c (Fld (read (length H) H (en_type e)) (en_get e) (en_set e))) (dget x F).
  Proof using All.
    rewrite (field_of_class P' c k' x new_class_at). cbn [k' cl_fields]. rewrite fs_get.
    destruct (dget x F) as [e|] eqn:G; [|reflexivity]. cbn [option_map]. f_equal.
    unfold field_at, rebrand_field. rewrite P'_eq. cbn [p_heap fd_spec fd_get fd_set]. f_equal. apply read_new.
    apply T_In. exists x, e. split; [|reflexivity]. apply dget_In. now rewrite fs_get.
  Qed.

  Lemma copied_read e0 e : en_type e0 < length h -> copied P H e0 e ->
    Fld (read (length H) H (en_type e)) (en_get e) (en_set e) = field_at h e0.
  Proof using All.
    intros L (C1 & C2 & C3 & C4 & C5). unfold field_at. rewrite C4, C5. f_equal.
    rewrite <- (read_H_old _ L). apply read_same_obj. rewrite C1. fold h. now rewrite H_old.
  Qed.

  Lemma inherits_first x f : inherits P bases x f <->
    exists e0, first_entry P bases x = Some e0 /\ f = field_at h e0.
  Proof using All.
    clear - B. induction bases as [|b bs IH].
    - split; [intros I; inversion I|]. intros (e & E & _). discriminate.
    - assert (forall b, In b bs -> class_at P b <> None) as B' by (intros; apply B; now right).
      specialize (IH B'). cbn.
      destruct (class_at P b) as [k|] eqn:K; [|now apply B in K; [|left]].
      pose proof (field_of_class P b k x K) as Fx.
      destruct (dget x (cl_fields k)) as [e|] eqn:G; cbn in Fx.
      + split.
        * intros I. inversion I; subst; [|congruence]. exists e. split; [reflexivity|]. unfold h. congruence.
        * intros (e0 & E & ->). injection E as <-. now apply inherits_here.
      + rewrite <- IH. split.
        * intros I. inversion I; subst; [congruence|assumption].
        * intros I. now apply inherits_next.
  Qed.

  Lemma declares_own x f : declares P attrs x f <->
    exists e, own_obj x e /\ f = Fld (read (length h) h (en_type e)) (en_get e) (en_set e).
  Proof using All.
    split.
    - intros [a I|a g st I].
      + exists (En a None None). split; [|reflexivity]. now exists (AField a).
      + exists (En a (Some g) st). split; [|reflexivity]. now exists (ACalc a g st).
    - intros (e & (t & I & O) & ->). destruct t; cbn in O; try discriminate; injection O as <-; cbn.
      + now apply declares_field.
      + now apply declares_calc.
  Qed.

  Lemma own_get x e : own_obj x e -> dget x F = Some e.
  Proof using All.
    intros (t & I & O). rewrite F_get. rewrite (In_dget x t) by (exact (proj1 CB) || exact I). now rewrite O.
  Qed.

  Lemma own_read e x : own_obj x e ->
    read (length H) H (en_type e) = read (length h) h (en_type e).
  Proof using All. intros O. apply read_H_old. now apply (own_range x). Qed.

  (** The fields are the declared ones and, of the others, the leftmost inherited ones. *)
  Lemma define_fields x f : field_of P' c x = Some f <->
    exists g, f = rebrand_field c g /\
      (declares P attrs x g \/ ((forall g', ~ declares P attrs x g') /\ inherits P bases x g)).
  Proof using All.
    rewrite new_field_of. split.
    - destruct (dget x F) as [e|] eqn:G; cbn; [|discriminate]. intros E. injection E as <-.
      destruct (F_cases x e G) as [O|(N & e0 & E0 & C)].
      + eexists. split; [rewrite (own_read e x O); reflexivity|]. left. apply declares_own. eauto.
      + assert (en_type e0 < length h) as L.
        { destruct (first_entry_schema x e0 E0) as (k & Ik & Ie). now apply (w_range P W k x). }
        exists (field_at h e0). split; [now rewrite (copied_read e0 e L C)|]. right. split.
        * intros g' D. apply declares_own in D. destruct D as (e1 & (t & I & O) & _).
          apply N in I. apply own_entry_obj in O. congruence.
        * apply inherits_first. eauto.
    - intros (g & -> & [D|[N I]]).
      + apply declares_own in D. destruct D as (e & O & ->). rewrite (own_get x e O). cbn.
        now rewrite (own_read e x O).
      + apply inherits_first in I. destruct I as (e0 & E0 & ->).
        assert (en_type e0 < length h) as L.
        { destruct (first_entry_schema x e0 E0) as (k & Ik & Ie). now apply (w_range P W k x). }
        assert (forall t, In (x, t) attrs -> declared_obj t = None) as N'.
        { intros t It. destruct t as [a|a g st|v|v]; try reflexivity; exfalso; eapply N;
            [apply declares_field|eapply declares_calc]; exact It. }
        rewrite (no_own x N'). pose proof (bi_fields _ _ _ BI x) as D. rewrite E0 in D.
        destruct (dget x (ac_fields s0)) as [e|] eqn:G; [|contradiction]. cbn.
        assert (copied P H e0 e) as C by (unfold H, s; rewrite (proj1 (attrs_heap attrs s0)); exact D).
        now rewrite (copied_read e0 e L C).
  Qed.

  Lemma define_options : so_roles (cl_opts k') = so_roles (read_options (base_options P bases) own) /\
    so_level (cl_opts k') = so_level (read_options (base_options P bases) own).
  Proof using All.
    cbn [k' cl_opts]. unfold s. rewrite (proj2 (attrs_heap attrs s0)), (bi_opts _ _ _ BI). split; reflexivity.
  Qed.

  Lemma define_validators x : validator_of P' c x =
    match own_validator attrs x with Some v => Some v | None => inherited_validator P bases x end.
  Proof using All.
    rewrite (validator_of_class P' c k' x new_class_at). cbn [k' cl_validators]. unfold s.
    rewrite attrs_validators by exact (proj1 CB). now rewrite (bi_validators _ _ _ BI).
  Qed.

  (** ** The other classes *)
  Lemma old_class_at b k : class_at P b = Some k -> class_at P' b = Some k.
  Proof using All.
    intros K. unfold class_at in *. rewrite P'_eq. cbn [p_classes]. rewrite nth_error_app1; [exact K|].
    apply nth_error_Some. congruence.
  Qed.

  Lemma old_obj a : in_schema P a -> ~ In a T /\ nth_error H' a = nth_error h a.
  Proof using All.
    intros S.
    assert (a < length h) as L by (destruct S as (k & x & e & Ik & Ie & <-); now apply (w_range P W k x)).
    assert (~ In a T) as N.
    { intros I. apply T_In in I. destruct I as (x & e & I & E). apply fs_In in I.
      destruct (F_cases x e I) as [O|(_ & e0 & E0 & C)].
      - destruct (own_facts x e O) as (_ & NS & _). now rewrite E in NS.
      - destruct C as (_ & _ & C & _). unfold h in L. lia. }
    split; [exact N|]. rewrite <- (H_old a L).
    destruct (H'_spec a) as [[I _]|[(_ & (t & It & J) & _)|(_ & _ & E)]]; [contradiction| |exact E].
    exfalso. apply H_inside in J. now apply (w_top P W a).
  Qed.

  Lemma old_read a : in_schema P a -> elements_owned c (read (length h) h a) (read (length H') H' a).
  Proof using All.
    intros S. destruct (old_obj a S) as [N E].
    assert (a < length h) as L by (destruct S as (k & x & e & Ik & Ie & <-); now apply (w_range P W k x)).
    pose proof H_len as Lh.
    rewrite <- (read_H_old a L), H'_len.
    apply read_elements; [exact H_ordered|lia|lia|now rewrite E, H_old|].
    intros b J. destruct (H'_spec b) as [[I _]|[(_ & (t & It & K) & E2)|(_ & _ & E2)]].
    - now apply (T_not_inside a) in I.
    - right. split; [exact E2|]. intros d D.
      destruct (H'_spec d) as [[I _]|[(_ & _ & E3)|(_ & N3 & _)]].
      + now apply (T_not_inside b) in I.
      + exact E3.
      + exfalso. apply (N3 t It). eapply inside_trans; eassumption.
    - now left.
  Qed.

  Lemma In_schema k x e : In k (p_classes P) -> In (x, e) (cl_fields k) -> in_schema P (en_type e).
  Proof using All. intros Ik Ie. exists k, x, e. auto. Qed.

  Lemma pos_old a : a < length h -> pos_at H' a = pos_at h a.
  Proof using All.
    intros L. rewrite (same_kinds_pos H H' a H'_kinds). unfold pos_at. now rewrite H_old.
  Qed.

  (** Two fields of the new class created at the same time are the same. *)
  Lemma F_pos x e y e' : dget x F = Some e -> dget y F = Some e' ->
    pos_at H (en_type e) = pos_at H (en_type e') -> x = y.
  Proof using All.
    assert (forall x e, own_obj x e -> pos_at H (en_type e) = Z.of_nat (en_type e)) as PO.
    { intros z f O. pose proof (own_range z f O) as L. destruct (own_facts z f O) as ((o & E & Po) & _).
      unfold pos_at. rewrite H_old by exact L. now rewrite E. }
    assert (forall e0 e, copied P H e0 e -> pos_at H (en_type e) = pos_at h (en_type e0)) as PC.
    { intros e0 f (C & _). unfold pos_at. now rewrite C. }
    assert (forall z f e0, own_obj z f -> forall y, first_entry P bases y = Some e0 ->
              Z.of_nat (en_type f) = pos_at h (en_type e0) -> False) as X.
    { intros z f e0 O w E0 E. destruct (first_entry_schema w e0 E0) as (k & Ik & Ie).
      destruct (w_origin P W k w e0 Ik Ie) as (k1 & e1 & Ik1 & Ie1 & E1).
      fold h in E1. assert (en_type e1 = en_type f) as E2 by lia.
      destruct (own_facts z f O) as (_ & NS & _). apply NS. exists k1, w, e1. auto. }
    intros G G' E.
    destruct (F_cases x e G) as [O|(_ & e0 & E0 & C)], (F_cases y e' G') as [O'|(_ & e0' & E0' & C')].
    - rewrite (PO x e O), (PO y e' O') in E. destruct O as (t & I & O), O' as (t' & I' & O').
      destruct CB as (_ & _ & D). apply (D x y t t' (en_type e) I I' (own_entry_obj _ _ O)).
      rewrite (own_entry_obj _ _ O'). f_equal. lia.
    - rewrite (PO x e O), (PC _ _ C') in E. destruct (X x e e0' O y E0' E).
    - rewrite (PO y e' O'), (PC _ _ C) in E. symmetry in E. destruct (X y e' e0 O' x E0 E).
    - rewrite (PC _ _ C), (PC _ _ C') in E.
      destruct (first_entry_schema x e0 E0) as (k & Ik & Ie), (first_entry_schema y e0' E0') as (k2 & Ik2 & Ie2).
      destruct (w_origin P W k x e0 Ik Ie) as (k1 & e1 & Ik1 & Ie1 & E1).
      destruct (w_origin P W k2 y e0' Ik2 Ie2) as (k3 & e3 & Ik3 & Ie3 & E3).
      fold h in E1, E3. apply (w_addr P W k1 x e1 k3 y e3 Ik1 Ie1 Ik3 Ie3). lia.
  Qed.

  Lemma fs_sorted :
    StronglySorted (fun p q => (pos_at H (en_type (snd p)) < pos_at H (en_type (snd q)))%Z) fs.
  Proof using All.
    pose proof (sort_sorted H F) as S. fold fs in S. pose proof fs_nodup as N. pose proof F_pos as FP.
    assert (forall p, In p fs -> dget (fst p) F = Some (snd p)) as I by (intros [x e] I; now apply fs_In).
    induction S as [|p l S IH A]; [constructor|].
    inversion N as [|? ? N1 N2]; subst. constructor.
    - apply IH; [exact N2|]. intros q J. apply I. now right.
    - apply Forall_forall. intros q J.
      assert (pos_le H p q) as L by (now apply (proj1 (Forall_forall _ _) A)). unfold pos_le in L.
      assert (pos_at H (en_type (snd p)) <> pos_at H (en_type (snd q))) as D; [|lia].
      intros E. apply N1. assert (fst p = fst q) as ->; [|apply in_map_iff; now exists q].
      eapply FP; [apply I; now left|apply I; now right|exact E].
  Qed.

  Lemma element_back a : is_element P' a -> is_element P a.
  Proof using All.
    intros (b & o & E & K). rewrite P'_eq in E. cbn [p_heap] in E.
    destruct (same_kinds_get _ _ _ _ (same_kinds_sym _ _ H'_kinds) E) as (o' & E' & K' & _).
    eapply H_element; [exact E'|congruence].
  Qed.

  Lemma define_wf : wf P'.
  Proof using All.
    pose proof H_len as Lh.
    assert (forall k, In k (p_classes P') -> In k (p_classes P) \/ k = k') as IC.
    { intros k I. rewrite P'_eq in I. cbn [p_classes] in I. apply in_app_or in I.
      destruct I as [I|[<-|[]]]; auto. }
    assert (forall n k, nth_error (p_classes P') n = Some k ->
              (nth_error (p_classes P) n = Some k) \/ (n = length (p_classes P) /\ k = k')) as NC.
    { intros n k E. rewrite P'_eq in E. cbn [p_classes] in E.
      destruct (Nat.lt_ge_cases n (length (p_classes P))) as [L|L].
      - rewrite nth_error_app1 in E by assumption. now left.
      - rewrite nth_error_app2 in E by assumption. right.
        destruct (n - length (p_classes P)) as [|m] eqn:D; cbn in E; [|destruct m; discriminate].
        injection E as <-. split; [lia|reflexivity]. }
    assert (forall k, In k (p_classes P) -> In k (p_classes P')) as CI.
    { intros k I. rewrite P'_eq. cbn [p_classes]. apply in_or_app. now left. }
    assert (In k' (p_classes P')) as CK by (rewrite P'_eq; cbn [p_classes]; apply in_or_app; right; now left).
    assert (p_heap P' = H') as HP by reflexivity.
    constructor; rewrite ?HP.
    - exact (same_kinds_ordered _ _ H'_kinds H_ordered).
    - intros k x e Ik Ie. rewrite H'_len. destruct (IC k Ik) as [Io| ->].
      + pose proof (w_range P W k x e Io Ie). fold h in H0. lia.
      + now apply (fs_ok x e).
    - intros k Ik. destruct (IC k Ik) as [Io| ->]; [now apply (w_nodup P W)|exact fs_nodup].
    - intros k Ik. destruct (IC k Ik) as [Io| ->]; [now apply (w_vnodup P W)|].
      apply attrs_vnodup. exact (bi_vnodup _ _ _ BI).
    - intros a (k & x & e & Ik & Ie & <-) El. apply element_back in El.
      destruct (IC k Ik) as [Io| ->].
      + apply (w_top P W (en_type e)); [now exists k, x, e|exact El].
      + apply fs_In in Ie. destruct (F_cases x e Ie) as [O|(_ & e0 & E0 & C)].
        * now apply (own_facts x e O).
        * destruct C as (_ & _ & C & _). apply element_old in El. unfold h in El. lia.
    - intros n k x e Ik Ie. destruct (NC n k Ik) as [Io|[-> ->]].
      + destruct (w_set P W n k x e Io Ie) as (o & E & R).
        assert (in_schema P (en_type e)) as S by (apply nth_error_In in Io; now apply (In_schema k x)).
        destruct (old_obj _ S) as [_ E']. exists o. split; [|exact R]. now rewrite E'.
      + assert (In (en_type e) T) as IT by (apply T_In; now exists x, e).
        destruct (fs_ok x e Ie) as [L _].
        destruct (nth_error H (en_type e)) as [o|] eqn:Eo; [|apply nth_error_None in Eo; lia].
        destruct (H'_spec (en_type e)) as [[_ E]|[(N & _)|(N & _)]]; [|contradiction|contradiction].
        rewrite Eo in E. cbn in E. exists (set_up true c o). split; [exact E|]. split; reflexivity.
    - intros k x e Ik Ie. destruct (IC k Ik) as [Io| ->].
      + destruct (w_origin P W k x e Io Ie) as (k0 & e0 & Ik0 & Ie0 & E0).
        exists k0, e0. split; [now apply CI|]. split; [exact Ie0|].
        rewrite pos_old by (now apply (w_range P W k x)). exact E0.
      + pose proof (fs_In x e Ie) as G. destruct (F_cases x e G) as [O|(_ & e0 & E0 & C)].
        * exists k', e. split; [exact CK|]. split; [exact Ie|].
          destruct (own_facts x e O) as ((o & E & Po) & _). rewrite pos_old by (now apply (own_range x)).
          unfold pos_at. now rewrite E.
        * destruct (first_entry_schema x e0 E0) as (k & Ik1 & Ie1).
          destruct (w_origin P W k x e0 Ik1 Ie1) as (k1 & e1 & Ik2 & Ie2 & E2).
          exists k1, e1. split; [now apply CI|]. split; [exact Ie2|].
          rewrite (same_kinds_pos H H' _ H'_kinds). destruct C as (C & _).
          unfold pos_at at 1. rewrite C. exact E2.
    - intros k x e k2 x2 e2 Ik Ie Ik2 Ie2 E.
      assert (forall x e k0 x0 e0, dget x F = Some e -> In k0 (p_classes P) -> In (x0, e0) (cl_fields k0) ->
                en_type e = en_type e0 -> False) as X.
      { intros z f k0 x0 e0 G I0 J0 E'. destruct (F_cases z f G) as [O|(_ & e1 & _ & C)].
        - destruct (own_facts z f O) as (_ & NS & _). apply NS. rewrite E'. now apply (In_schema k0 x0).
        - destruct C as (_ & _ & C & _). pose proof (w_range P W k0 x0 e0 I0 J0). lia. }
      destruct (IC k Ik) as [Io| ->], (IC k2 Ik2) as [Io2| ->].
      + exact (w_addr P W k x e k2 x2 e2 Io Ie Io2 Ie2 E).
      + exfalso. symmetry in E. exact (X x2 e2 k x e (fs_In _ _ Ie2) Io Ie E).
      + exfalso. exact (X x e k2 x2 e2 (fs_In _ _ Ie) Io2 Ie2 E).
      + apply (F_pos x e x2 e2 (fs_In _ _ Ie) (fs_In _ _ Ie2)). now rewrite E.
    - intros n k b Ik Ib. destruct (NC n k Ik) as [Io|[-> ->]].
      + exact (w_bases P W n k b Io Ib).
      + cbn in Ib. apply B in Ib. unfold class_at in Ib. now apply nth_error_Some.
  Qed.

  Lemma new_class_sorted : by_creation (p_heap P') k'.
  Proof using All.
    eapply StronglySorted_impl; [|exact fs_sorted].
    intros p q _ _. cbv beta. rewrite P'_eq. cbn [p_heap]. now rewrite !(same_kinds_pos H H' _ H'_kinds).
  Qed.

  Lemma old_classes_sorted k : In k (p_classes P) -> by_creation (p_heap P) k -> by_creation (p_heap P') k.
  Proof using All.
    intros Io S. eapply StronglySorted_impl; [|exact S].
    intros [x e] [y e'] Ix Iy. cbn. fold h.
    pose proof (w_range P W k x e Io Ix). pose proof (w_range P W k y e' Io Iy).
    fold H'. rewrite !pos_old by assumption. auto.
  Qed.

  (** ** When the fields were created *)
  Lemma created_own x t a : In (x, t) attrs -> declared_obj t = Some a -> created P' c x = Some (Z.of_nat a).
  Proof using All.
    intros I D. unfold created. rewrite new_class_at. cbn [k' cl_fields]. rewrite fs_get.
    assert (exists e, own_entry t = Some e) as [e O] by (destruct t; cbn in *; try discriminate; eauto).
    assert (own_obj x e) as Ow by (now exists t).
    rewrite (own_get x e Ow). cbn [option_map]. rewrite P'_eq. cbn [p_heap]. f_equal.
    rewrite pos_old by (now apply (own_range x)). destruct (own_facts x e Ow) as ((o & E & Po) & _).
    unfold pos_at. rewrite E, Po. f_equal. apply own_entry_obj in O. congruence.
  Qed.
End Define.

Lemma new_field_wf P o t : wf P ->
  (forall i, inner_of t = Some i -> i < length (p_heap P) /\ ~ in_schema P i) -> wf (new_field P o t).
Proof.
  intros W Hi. unfold new_field.
  set (ob := FObj _ _ t).
  assert (forall a, a < length (p_heap P) -> nth_error (p_heap P ++ [ob]) a = nth_error (p_heap P) a) as E
    by (intros; now apply nth_error_app1).
  assert (forall a, a < length (p_heap P) -> pos_at (p_heap P ++ [ob]) a = pos_at (p_heap P) a) as Ep
    by (intros a L; unfold pos_at; now rewrite E).
  assert (forall a o', nth_error (p_heap P ++ [ob]) a = Some o' ->
            nth_error (p_heap P) a = Some o' \/ (a = length (p_heap P) /\ o' = ob)) as C.
  { intros a o' G. destruct (Nat.lt_ge_cases a (length (p_heap P))) as [L|L].
    - rewrite E in G by assumption. now left.
    - rewrite nth_error_app2 in G by assumption. right.
      destruct (a - length (p_heap P)) as [|m] eqn:D; cbn in G; [|destruct m; discriminate].
      injection G as <-. split; [lia|reflexivity]. }
  constructor; cbn [p_heap p_classes].
  - intros a o' i G K. destruct (C a o' G) as [G'|[-> ->]]; [now apply (w_ordered P W a o' i)|].
    now apply Hi.
  - intros k x e Ik Ie. rewrite app_length. pose proof (w_range P W k x e Ik Ie). lia.
  - exact (w_nodup P W).
  - exact (w_vnodup P W).
  - intros a S (b & o' & G & K). cbn [p_heap] in G. destruct (C b o' G) as [G'|[-> ->]].
    + apply (w_top P W a S). exists b, o'. auto.
    + cbn in K. now apply Hi in K.
  - intros n k x e Ik Ie. destruct (w_set P W n k x e Ik Ie) as (o' & G & R). exists o'. split; [|exact R].
    rewrite E; [exact G|]. apply nth_error_In in Ik. now apply (w_range P W k x).
  - intros k x e Ik Ie. destruct (w_origin P W k x e Ik Ie) as (k0 & e0 & R). exists k0, e0.
    rewrite Ep; [exact R|]. now apply (w_range P W k x).
  - exact (w_addr P W).
  - exact (w_bases P W).
Qed.

Lemma program0_wf : wf program0.
Proof.
  assert (forall k, In k (p_classes program0) -> k = Cls [] [] sopts_default [] None) as X
    by (intros k [<-|[]]; reflexivity).
  constructor; cbn [p_heap program0].
  - intros [|a] o i G; discriminate.
  - intros k x e I. apply X in I. subst k. intros [].
  - intros k I. apply X in I. subst k. constructor.
  - intros k I. apply X in I. subst k. constructor.
  - intros a (k & x & e & I & J & _). apply X in I. subst k. destruct J.
  - intros [|[|n]] k x e G; try discriminate. injection G as <-. intros [].
  - intros k x e I. apply X in I. subst k. intros [].
  - intros k x e k' x' e' I. apply X in I. subst k. intros [].
  - intros [|[|n]] k b G; try discriminate. injection G as <-. intros [].
Qed.

Lemma made_wf P : made P -> wf P.
Proof.
  induction 1 as [|P o t M IH Hi|P bases attrs own claim M IH B CB].
  - exact program0_wf.
  - now apply new_field_wf.
  - now apply define_wf.
Qed.

Lemma made_sorted P : made P -> forall k, In k (p_classes P) -> by_creation (p_heap P) k.
Proof.
  induction 1 as [|P o t M IH Hi|P bases attrs own claim M IH B CB]; intros k I.
  - destruct I as [<-|[]]. constructor.
  - cbn in I. pose proof (made_wf P M) as W. eapply StronglySorted_impl; [|exact (IH k I)].
    intros [x e] [y e'] Ix Iy. cbn. pose proof (w_range P W k x e I Ix). pose proof (w_range P W k y e' I Iy).
    unfold pos_at. now rewrite !nth_error_app1.
  - pose proof (made_wf P M) as W.
    assert (In k (p_classes P) \/ k = Cls bases
      (sort_fields (ac_heap (fold_left add_attr attrs (fold_left (add_base P) (rev bases) (start P))))
                   (ac_fields (fold_left add_attr attrs (fold_left (add_base P) (rev bases) (start P)))))
      (read_options (ac_opts (fold_left add_attr attrs (fold_left (add_base P) (rev bases) (start P)))) own)
      (ac_validators (fold_left add_attr attrs (fold_left (add_base P) (rev bases) (start P)))) claim) as [Io| ->].
    { cbn in I. apply in_app_or in I. destruct I as [I|[<-|[]]]; auto. }
    + now apply (old_classes_sorted P W bases attrs own claim B CB k Io), IH.
    + exact (new_class_sorted P W bases attrs own claim B CB).
Qed.
