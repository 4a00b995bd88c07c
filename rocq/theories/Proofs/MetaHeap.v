(** Field objects under copying and set-up. *)
From Verif.Model Require Import Py Core Export Meta.
From Verif.Spec Require Import MetaSpec.
From Verif.Proofs Require Import DictLemmas.
From Coq Require Import Lia.

(** ** Updating *)
Lemma hupd_length h : forall a f, length (hupd h a f) = length h.
Proof. induction h as [|o h IH]; intros [|a] f; cbn; auto. Qed.

Lemma hupd_eq h : forall a f, nth_error (hupd h a f) a = option_map f (nth_error h a).
Proof. induction h as [|o h IH]; intros [|a] f; cbn; auto. Qed.

Lemma hupd_neq h : forall a b f, a <> b -> nth_error (hupd h a f) b = nth_error h b.
Proof.
  induction h as [|o h IH]; intros [|a] [|b] f N; cbn; auto; try congruence.
Qed.

(** Element fields are created first. *)
Definition ordered (h : heap) : Prop :=
  forall a o i, nth_error h a = Some o -> inner_of (ob_kind o) = Some i -> i < a.

Lemma inside_lt h a b : ordered h -> inside h a b -> b < a.
Proof.
  intros O I. induction I as [a o i H K|a o i b H K I IH].
  - eapply O; eassumption.
  - pose proof (O _ _ _ H K). lia.
Qed.

Lemma inside_element h a b : inside h a b -> exists c o, nth_error h c = Some o /\ inner_of (ob_kind o) = Some b.
Proof. induction 1; eauto. Qed.

Lemma inside_range h a b : inside h a b -> a < length h.
Proof. destruct 1 as [? ? ? H|? ? ? ? H]; apply nth_error_Some; congruence. Qed.

(** Two heaps with the same objects up to names and owners. *)
Definition same_kinds (h h' : heap) : Prop :=
  forall b, option_map (fun o => (ob_pos o, ob_kind o)) (nth_error h' b)
          = option_map (fun o => (ob_pos o, ob_kind o)) (nth_error h b).

Lemma same_kinds_refl h : same_kinds h h.
Proof. intros b. reflexivity. Qed.
Lemma same_kinds_trans h1 h2 h3 : same_kinds h1 h2 -> same_kinds h2 h3 -> same_kinds h1 h3.
Proof. intros A B b. now rewrite B, A. Qed.
Lemma same_kinds_sym h1 h2 : same_kinds h1 h2 -> same_kinds h2 h1.
Proof. intros A b. now rewrite A. Qed.

Lemma same_kinds_get h h' a o : same_kinds h h' -> nth_error h a = Some o ->
  exists o', nth_error h' a = Some o' /\ ob_kind o' = ob_kind o /\ ob_pos o' = ob_pos o.
Proof.
  intros S H. specialize (S a). rewrite H in S. cbn in S.
  destruct (nth_error h' a) as [o'|]; cbn in S; [|discriminate]. injection S as P K. eauto.
Qed.

Lemma same_kinds_inside h h' a b : same_kinds h h' -> inside h a b -> inside h' a b.
Proof.
  intros S I. induction I as [a o i H K|a o i b H K I IH];
    destruct (same_kinds_get _ _ _ _ S H) as (o' & H' & K' & _).
  - eapply inside_here; [eassumption|congruence].
  - eapply inside_deep; [eassumption|rewrite K'; eassumption|assumption].
Qed.

Lemma same_kinds_ordered h h' : same_kinds h h' -> ordered h -> ordered h'.
Proof.
  intros S O a o i H K. destruct (same_kinds_get _ _ _ _ (same_kinds_sym _ _ S) H) as (o' & H' & K' & _).
  eapply O; [eassumption|congruence].
Qed.

Lemma same_kinds_pos h h' a : same_kinds h h' -> pos_at h' a = pos_at h a.
Proof.
  intros S. specialize (S a). unfold pos_at.
  destruct (nth_error h' a), (nth_error h a); cbn in S; congruence.
Qed.

Lemma same_kinds_length h h' : same_kinds h h' -> length h' = length h.
Proof.
  intros S.
  assert (forall n, n < length h' <-> n < length h) as H.
  { intros n. rewrite <- !nth_error_Some. specialize (S n).
    destruct (nth_error h' n), (nth_error h n); cbn in S; split; congruence. }
  destruct (Nat.lt_trichotomy (length h) (length h')) as [L|[L|L]]; auto; apply H in L; lia.
Qed.

Lemma set_up_idem n1 n2 c o : set_up n1 c (set_up n2 c o) = set_up n1 c o.
Proof. reflexivity. Qed.

(** ** Set-up of one field *)
Lemma setup_spec : forall n h a nm c b, ordered h -> a < n -> a < length h ->
  (b = a /\ nth_error (setup n h a nm c) b = option_map (set_up nm c) (nth_error h b)) \/
  (inside h a b /\ nth_error (setup n h a nm c) b = option_map (set_up false c) (nth_error h b)) \/
  (b <> a /\ ~ inside h a b /\ nth_error (setup n h a nm c) b = nth_error h b).
Proof.
  induction n as [|n IH]; intros h a nm c b O L R; [lia|]. cbn [setup].
  destruct (nth_error h a) as [o|] eqn:H; [|apply nth_error_None in H; lia].
  destruct (inner_of (ob_kind o)) as [i|] eqn:K.
  - pose proof (O _ _ _ H K) as Hi.
    assert (i < n) as L1 by lia. assert (i < length h) as L2 by lia.
    destruct (Nat.eq_dec b a) as [->|N].
    + left. split; [reflexivity|]. rewrite hupd_eq. f_equal.
      destruct (IH h i false c a O L1 L2) as [[E _]|[[I _]|(_ & _ & E)]].
      * lia.
      * apply inside_lt in I; [lia|assumption].
      * exact E.
    + right. rewrite hupd_neq by congruence.
      destruct (IH h i false c b O L1 L2) as [[-> E]|[[I E]|(N' & NI & E)]].
      * left. split; [|exact E]. eapply inside_here; eassumption.
      * left. split; [|exact E]. eapply inside_deep; eassumption.
      * right. split; [exact N|]. split; [|exact E]. intros I.
        inversion I; subst.
        -- assert (i = b) by congruence. congruence.
        -- apply NI. assert (i0 = i) by congruence. now subst.
  - destruct (Nat.eq_dec b a) as [->|N].
    + left. split; [reflexivity|]. apply hupd_eq.
    + right. right. split; [exact N|]. split; [|now apply hupd_neq; congruence].
      intros I. inversion I; subst; congruence.
Qed.

Lemma setup_same_kinds n h a nm c : ordered h -> a < n -> a < length h -> same_kinds h (setup n h a nm c).
Proof.
  intros O L R b.
  destruct (setup_spec n h a nm c b O L R) as [[_ E]|[[_ E]|(_ & _ & E)]]; rewrite E;
    destruct (nth_error h b); reflexivity.
Qed.

(** ** Set-up of all fields of a class *)
Lemma setup_all_spec c : forall fs h b, ordered h ->
  (forall x e, In (x, e) fs -> en_type e < length h /\ forall a, ~ inside h a (en_type e)) ->
  let T := map (fun p => en_type (snd p)) fs in
  (In b T /\ nth_error (setup_all c h fs) b = option_map (set_up true c) (nth_error h b)) \/
  (~ In b T /\ (exists a, In a T /\ inside h a b) /\
     nth_error (setup_all c h fs) b = option_map (set_up false c) (nth_error h b)) \/
  (~ In b T /\ (forall a, In a T -> ~ inside h a b) /\ nth_error (setup_all c h fs) b = nth_error h b).
Proof.
  induction fs as [|[x e] fs IH]; intros h b O F T.
  - right. right. unfold T. cbn. repeat split; auto.
  - unfold setup_all. cbn [fold_left snd]. fold (setup_all c (setup (length h) h (en_type e) true c) fs).
    assert (en_type e < length h /\ forall a, ~ inside h a (en_type e)) as [Le Ne]
      by (apply (F x e); now left).
    set (h1 := setup (length h) h (en_type e) true c).
    pose proof (setup_same_kinds (length h) h (en_type e) true c O Le Le) as S. fold h1 in S.
    assert (ordered h1) as O1 by (eapply same_kinds_ordered; eassumption).
    assert (forall a b, inside h1 a b <-> inside h a b) as IN.
    { intros a0 b0. split; apply same_kinds_inside; [now apply same_kinds_sym|assumption]. }
    assert (forall x e, In (x, e) fs -> en_type e < length h1 /\ forall a, ~ inside h1 a (en_type e)) as F1.
    { intros y e' I. destruct (F y e' (or_intror I)) as [L N]. split.
      - now rewrite (same_kinds_length _ _ S).
      - intros a. rewrite IN. apply N. }
    pose proof (IH h1 b O1 F1) as D. cbv zeta in D.
    pose proof (setup_spec (length h) h (en_type e) true c b O Le Le) as D1. fold h1 in D1.
    unfold T. cbn [map snd]. fold T.
    destruct D as [[I E]|[(NI & (a & Ia & J) & E)|(NI & J & E)]]; rewrite E.
    + left. split; [now right|].
      destruct D1 as [[_ E1]|[[J1 E1]|(_ & _ & E1)]]; rewrite E1; auto.
      * now destruct (nth_error h b).
      * exfalso. apply in_map_iff in I. destruct I as ((y & e') & Ey & Iy). cbn in Ey.
        destruct (F y e' (or_intror Iy)) as [_ N]. rewrite Ey in N. now apply (N _ J1).
    + destruct D1 as [[-> E1]|[[J1 E1]|(N1 & NJ1 & E1)]]; rewrite E1.
      * exfalso. apply IN in J. now apply (Ne a).
      * right. left. repeat split.
        -- intros [<-|K]; [now apply (Ne (en_type e))|contradiction].
        -- exists a. split; [now right|now apply IN].
        -- now destruct (nth_error h b).
      * right. left. repeat split.
        -- intros [K|K]; [congruence|contradiction].
        -- exists a. split; [now right|now apply IN].
    + destruct D1 as [[-> E1]|[[J1 E1]|(N1 & NJ1 & E1)]]; rewrite E1.
      * left. split; [now left|reflexivity].
      * right. left. repeat split.
        -- intros [<-|K]; [now apply (Ne (en_type e))|contradiction].
        -- exists (en_type e). split; [now left|exact J1].
      * right. right. repeat split.
        -- intros [K|K]; [congruence|contradiction].
        -- intros a [<-|K]; [exact NJ1|]. rewrite <- IN. now apply J.
Qed.

Lemma setup_all_kinds c fs h : ordered h ->
  (forall x e, In (x, e) fs -> en_type e < length h /\ forall a, ~ inside h a (en_type e)) ->
  same_kinds h (setup_all c h fs).
Proof.
  intros O F b. destruct (setup_all_spec c fs h b O F) as [[_ E]|[(_ & _ & E)|(_ & _ & E)]]; rewrite E;
    destruct (nth_error h b); reflexivity.
Qed.

(** ** Reading *)
Lemma read_fuel : forall n m h a, ordered h -> a < n -> a < m -> a < length h -> read n h a = read m h a.
Proof.
  induction n as [|n IH]; intros [|m] h a O L1 L2 R; try lia. cbn.
  destruct (nth_error h a) as [o|] eqn:H; [|reflexivity]. f_equal.
  destruct (ob_kind o) as [l|ms|c|p|i|i ck] eqn:K; try reflexivity; f_equal;
    assert (i < a) by (eapply O; [eassumption|rewrite K; reflexivity]); apply IH; auto; lia.
Qed.

Lemma read_ext : forall n h l a, ordered h -> a < length h -> read n (h ++ l) a = read n h a.
Proof.
  induction n as [|n IH]; intros h l a O L; [reflexivity|]. cbn.
  rewrite nth_error_app1 by assumption.
  destruct (nth_error h a) as [o|] eqn:H; [|reflexivity]. f_equal.
  destruct (ob_kind o) as [?|?|?|?|i|i ck] eqn:K; try reflexivity; f_equal;
    assert (i < a) by (eapply O; [eassumption|rewrite K; reflexivity]); apply IH; auto; lia.
Qed.

(** Objects with the same content are read alike. *)
Lemma read_same_obj n h a b : nth_error h a = nth_error h b -> read n h a = read n h b.
Proof. destruct n; cbn; [reflexivity|]. now intros ->. Qed.

(** Reading does not depend on objects outside. *)
Lemma read_frame : forall n h h' a, nth_error h' a = nth_error h a ->
  (forall b, inside h a b -> nth_error h' b = nth_error h b) -> read n h' a = read n h a.
Proof.
  induction n as [|n IH]; intros h h' a E F; [reflexivity|]. cbn. rewrite E.
  destruct (nth_error h a) as [o|] eqn:H; [|reflexivity]. f_equal.
  destruct (ob_kind o) as [?|?|?|?|i|i ck] eqn:K; try reflexivity; f_equal;
    (assert (inside h a i) as I by (eapply inside_here; [eassumption|now rewrite K]);
     apply IH; [now apply F|intros b J; apply F; eapply inside_deep; [eassumption|now rewrite K|exact J]]).
Qed.

(** An object set up with everything inside it. *)
Lemma read_set_up : forall n h h' nm c a, ordered h -> a < n -> a < length h ->
  nth_error h' a = option_map (set_up nm c) (nth_error h a) ->
  (forall b, inside h a b -> nth_error h' b = option_map (set_up false c) (nth_error h b)) ->
  read n h' a = rebrand nm c (read n h a).
Proof.
  induction n as [|n IH]; intros h h' nm c a O L R E F; [lia|]. cbn. rewrite E.
  destruct (nth_error h a) as [o|] eqn:H; [|apply nth_error_None in H; lia]. cbn.
  f_equal.
  destruct (ob_kind o) as [?|?|?|?|i|i ck] eqn:K; try reflexivity; f_equal;
    (assert (i < a) by (eapply O; [eassumption|rewrite K; reflexivity]);
     assert (inside h a i) as I by (eapply inside_here; [eassumption|now rewrite K]);
     apply IH; [exact O|lia|lia|now apply F|
       intros b J; apply F; eapply inside_deep; [eassumption|now rewrite K|exact J]]).
Qed.

(** An untouched object, some of whose elements may have been set up. *)
Lemma read_elements : forall n h h' c a, ordered h -> a < n -> a < length h ->
  nth_error h' a = nth_error h a ->
  (forall b, inside h a b ->
     nth_error h' b = nth_error h b \/
     (nth_error h' b = option_map (set_up false c) (nth_error h b) /\
      forall d, inside h b d -> nth_error h' d = option_map (set_up false c) (nth_error h d))) ->
  elements_owned c (read n h a) (read n h' a).
Proof.
  induction n as [|n IH]; intros h h' c a O L R E F; [lia|]. cbn. rewrite E.
  destruct (nth_error h a) as [o|] eqn:H; [|constructor].
  destruct (ob_kind o) as [?|?|?|?|i|i ck] eqn:K; try (constructor; fail);
    (assert (i < a) as Li by (eapply O; [eassumption|rewrite K; reflexivity]);
     assert (inside h a i) as I by (eapply inside_here; [eassumption|now rewrite K]);
     destruct (F i I) as [Ei|[Ei Fi]];
     [constructor; apply IH; [exact O|lia|lia|exact Ei|
        intros b J; apply F; eapply inside_deep; [eassumption|now rewrite K|exact J]]
     |rewrite (read_set_up n h h' false c i O) by (auto; lia); constructor]).
Qed.

(** ** Copying *)
Definition elements_below (m : nat) (h : heap) : Prop :=
  forall a o i, nth_error h a = Some o -> inner_of (ob_kind o) = Some i -> i < m.

Lemma copy_obj_spec h a : a < length h ->
  exists o, nth_error h a = Some o /\ copy_obj h a = (h ++ [o], length h).
Proof.
  intros L. unfold copy_obj. destruct (nth_error h a) as [o|] eqn:H; [eauto|].
  apply nth_error_None in H. lia.
Qed.

(** Entry [e'] of heap [h'] is a copy of entry [e] of heap [h]. *)
Definition copy_of (h : heap) (e : entry) (h' : heap) (e' : entry) : Prop :=
  nth_error h' (en_type e') = nth_error h (en_type e) /\ en_type e' < length h' /\
  length h <= en_type e' /\ en_get e' = en_get e /\ en_set e' = en_set e.

Lemma copy_fields_spec : forall fs h,
  (forall x e, In (x, e) fs -> en_type e < length h) ->
  exists l fs', copy_fields h fs = (h ++ l, fs') /\
    (forall o, In o l -> exists a, nth_error h a = Some o) /\
    Forall2 (fun p p' => fst p = fst p' /\ copy_of h (snd p) (h ++ l) (snd p')) fs fs' /\
    NoDup (map (fun p => en_type (snd p)) fs').
Proof.
  induction fs as [|[x e] fs IH]; intros h F.
  - exists [], []. cbn. rewrite app_nil_r. repeat split; [contradiction|constructor|constructor].
  - cbn. destruct (copy_obj_spec h (en_type e) (F x e (or_introl eq_refl))) as (o & Ho & ->).
    destruct (IH (h ++ [o])) as (l & fs' & -> & Hl & A & N).
    { intros y e' I. rewrite app_length. cbn. pose proof (F y e' (or_intror I)). lia. }
    exists (o :: l), ((x, En (length h) (en_get e) (en_set e)) :: fs').
    rewrite <- app_assoc. cbn [app].
    split; [reflexivity|]. split; [|split].
    + intros o' [<-|I]; [eauto|]. destruct (Hl o' I) as (a & Ha).
      destruct (Nat.lt_ge_cases a (length h)) as [La|La].
      * rewrite nth_error_app1 in Ha by assumption. eauto.
      * rewrite nth_error_app2 in Ha by assumption.
        destruct (a - length h) as [|m] eqn:D; cbn in Ha; [injection Ha as <-; eauto|].
        destruct m; discriminate.
    + constructor.
      * cbn. split; [reflexivity|]. unfold copy_of. cbn [en_type en_get en_set].
        repeat split; auto.
        -- rewrite nth_error_app2, Nat.sub_diag by lia. now rewrite Ho.
        -- rewrite app_length. cbn. lia.
      * assert (forall p, In p fs -> en_type (snd p) < length h) as F'
          by (intros [y e'] I; apply (F y e'); now right).
        clear IH F N Ho. revert F'. rewrite <- app_assoc in A. cbn [app] in A.
        induction A as [|[y e1] [y' e2] fs fs' [E C] A IHA]; intros F'; constructor.
        -- cbn in *. split; [exact E|]. destruct C as (C1 & C2 & C3 & C4 & C5).
           unfold copy_of. repeat split; auto.
           ++ rewrite C1. rewrite nth_error_app1; [reflexivity|]. apply (F' (y, e1)). now left.
           ++ rewrite app_length in C3. cbn in C3. lia.
        -- apply IHA. intros p I. apply F'. now right.
    + cbn. constructor; [|exact N]. intros I. apply in_map_iff in I. destruct I as ([y e'] & E & I).
      cbn in E. clear - A E I. revert E I. induction A as [|p p' fs fs' [_ C] A IHA]; intros E I; [contradiction|].
      destruct I as [->|I]; [|auto]. destruct C as (_ & _ & C & _). cbn in C. rewrite app_length in C. cbn in C. lia.
Qed.
