(** Facts about sharing of containers. *)
From Verif.Model Require Import Py Core Alias.
From Verif.Spec Require Import AliasSpec.

Fixpoint all_addrs (l : list (key * obj)) : list nat := match l with [] => [] | (_, o) :: r => addrs o ++ all_addrs r end.
Fixpoint change_all (a : nat) (new l : list (key * obj)) : list (key * obj) :=
  match l with [] => [] | (x, o) :: r => (x, change a new o) :: change_all a new r end.
Lemma addrs_obj a kd l : addrs (Obj a kd l) = a :: all_addrs l.
Proof. cbn. apply f_equal. induction l as [|[x o] l IH]; cbn; [reflexivity|now rewrite IH]. Qed.
Lemma change_obj a new b kd l : change a new (Obj b kd l) = if Nat.eqb a b then Obj b kd new else Obj b kd (change_all a new l).
Proof. cbn. destruct (Nat.eqb a b); [reflexivity|]. apply f_equal. induction l as [|[x o] l IH]; cbn; [reflexivity|now rewrite IH]. Qed.

(** What is not in an object does not change it. *)
Fixpoint change_other a new o {struct o} : ~ In a (addrs o) -> change a new o = o.
Proof.
  destruct o as [n|b kd l]; [reflexivity|]. rewrite addrs_obj, change_obj. intros H.
  destruct (Nat.eqb_spec a b) as [->|_]; [exfalso; apply H; now left|]. f_equal.
  assert (H' : ~ In a (all_addrs l)) by (intros Hi; apply H; now right). clear H.
  induction l as [|[x o] l IH]; [reflexivity|]. cbn in *. rewrite in_app_iff in H'. rewrite change_other, IH; tauto.
Qed.

(** New containers, each once. *)
Definition fresh (m m' : nat) (l : list nat) : Prop := m <= m' /\ (forall a, In a l -> m <= a < m') /\ NoDup l.
Lemma nodup_app {X} (l l' : list X) : NoDup l -> NoDup l' -> (forall x, In x l -> ~ In x l') -> NoDup (l ++ l').
Proof.
  induction l as [|x l IH]; cbn; [auto|]. intros H H' D. inversion H as [|? ? Hx Hl]; subst. constructor.
  - rewrite in_app_iff. intros [Hi|Hi]; [contradiction|]. now apply (D x (or_introl eq_refl)).
  - apply IH; auto.
Qed.
Lemma fresh_nil m : fresh m m [].
Proof. split; [lia|]. split; [intros ? []|constructor]. Qed.
Lemma fresh_app m m1 m2 l l' : fresh m m1 l -> fresh m1 m2 l' -> fresh m m2 (l ++ l').
Proof.
  intros (H1 & H2 & H3) (H4 & H5 & H6). split; [lia|]. split.
  - intros a Ha. apply in_app_or in Ha as [Ha|Ha]; [apply H2 in Ha; lia|apply H5 in Ha; lia].
  - apply nodup_app; auto. intros a Ha Hb. apply H2 in Ha. apply H5 in Hb. lia.
Qed.
Lemma fresh_alloc m m1 kd l : fresh m m1 (all_addrs l) -> fresh m (S m1) (addrs (Obj m1 kd l)).
Proof.
  intros (H1 & H2 & H3). rewrite addrs_obj. split; [lia|]. split.
  - intros a [<-|Ha]; [lia|]. apply H2 in Ha. lia.
  - constructor; [|exact H3]. intros Ha. apply H2 in Ha. lia.
Qed.
Lemma entries_fresh {X} (f : X -> nat -> option (obj * nat)) l :
  (forall x o m r m', In (x, o) l -> f o m = Some (r, m') -> fresh m m' (addrs r)) ->
  forall m r m', entries f l m = Some (r, m') -> fresh m m' (all_addrs r).
Proof.
  induction l as [|[x o] l IH]; intros H m r m'; cbn.
  - intros [= <- <-]. apply fresh_nil.
  - destruct (f o m) as [[o' m1]|] eqn:F; [|discriminate]. destruct (entries f l m1) as [[r' m2]|] eqn:E; [|discriminate].
    intros [= <- <-]. cbn. apply (fresh_app _ m1); [apply (H x o); [now left|exact F]|].
    apply (IH (fun x o m r m' Hi => H x o m r m' (or_intror Hi)) _ _ _ E).
Qed.

Lemma change_below a new l m m' : a < m -> fresh m m' (all_addrs l) -> change_all a new l = l.
Proof.
  intros Ha (_ & H & _). assert (D : ~ In a (all_addrs l)) by (intros Hi; apply H in Hi; lia). clear H.
  induction l as [|[x o] l IH]; [reflexivity|]. cbn in *. rewrite in_app_iff in D. rewrite change_other, IH; tauto.
Qed.

Fixpoint contents (l : list (key * obj)) : list (key * obj) := match l with [] => [] | (x, o) :: r => (x, content o) :: contents r end.
Lemma content_obj a kd l : content (Obj a kd l) = Obj 0 kd (contents l).
Proof. cbn. apply f_equal. induction l as [|[x o] l IH]; cbn; [reflexivity|now rewrite IH]. Qed.
(** Two results with the same content. *)
Definition res_alike (p q : option (obj * nat)) : Prop :=
  match p, q with Some (r, _), Some (r', _) => alike r r' | None, None => True | _, _ => False end.
Definition ent_alike (p q : option (list (key * obj) * nat)) : Prop :=
  match p, q with Some (r, _), Some (r', _) => contents r = contents r' | None, None => True | _, _ => False end.
(** Lists of inputs that correspond. *)
Inductive lists_alike {X} (R : X -> X -> Prop) : list (key * X) -> list (key * X) -> Prop :=
| la_nil : lists_alike R [] []
| la_cons x o o' l l' : R o o' -> lists_alike R l l' -> lists_alike R ((x, o) :: l) ((x, o') :: l').
Lemma contents_lists l : forall l', contents l = contents l' -> lists_alike alike l l'.
Proof.
  induction l as [|[x o] l IH]; intros [|[x' o'] l']; cbn; try discriminate; [constructor|].
  intros [= <- Ho Hl]. constructor; [exact Ho|now apply IH].
Qed.
Lemma entries_alike {X} (R : X -> X -> Prop) (f : X -> nat -> option (obj * nat)) :
  (forall o o' m m', R o o' -> res_alike (f o m) (f o' m')) ->
  forall l l', lists_alike R l l' -> forall m m', ent_alike (entries f l m) (entries f l' m').
Proof.
  intros Hf l l' H. induction H as [|x o o' l l' Ho Hl IH]; intros m m'; cbn; [reflexivity|].
  specialize (Hf o o' m m' Ho). unfold res_alike in Hf. destruct (f o m) as [[r m1]|], (f o' m') as [[r' m1']|]; try contradiction; [|exact I].
  specialize (IH m1 m1'). unfold ent_alike in IH.
  destruct (entries f l m1) as [[q m2]|], (entries f l' m1') as [[q' m2']|]; try contradiction; [|exact I].
  cbn. now rewrite IH, Hf.
Qed.
Lemma dget_alike x l l' : lists_alike alike l l' ->
  match dget x l, dget x l' with Some o, Some o' => alike o o' | None, None => True | _, _ => False end.
Proof. induction 1 as [|y o o' l l' Ho Hl IH]; cbn; [exact I|]. destruct (key_eqb x y); assumption. Qed.
Lemma alloc_alike kd p q : ent_alike p q ->
  res_alike (match p with Some (l, m) => alloc kd l m | None => None end) (match q with Some (l, m) => alloc kd l m | None => None end).
Proof.
  unfold ent_alike. destruct p as [[l m]|], q as [[l' m']|]; try contradiction; [|auto]. intros H. unfold alloc, res_alike, alike.
  rewrite !content_obj. now rewrite H.
Qed.

Section Facts.
  Context (scal : nat -> obj -> option nat) (sub allowed : nat -> nat -> bool) (claim : nat -> obj -> option nat)
          (fields : nat -> list (key * (aty * option obj))).
  Let conv := aconv scal sub allowed claim fields.
  Let export := aexport scal allowed fields.
  Let instance := ainstance scal sub allowed claim fields.
  Let revalidate := avalidate scal sub allowed claim fields.

  Lemma inputs_type c l x t o : In (x, (t, o)) (field_inputs fields c l) -> exists d, In (x, (t, d)) (fields c).
  Proof using Type. unfold field_inputs. rewrite in_map_iff. intros ([n [t' d]] & [= <- <- _] & H). now exists d. Qed.

  (** The entries of the fields of a class. *)
  Lemma fields_fresh (f : aty -> obj -> nat -> option (obj * nat)) po (l : list (key * (aty * obj))) c m r m' :
    (forall t o m r m', copying po t -> f t o m = Some (r, m') -> fresh m m' (addrs r)) -> copying_fields po fields ->
    (forall x t o, In (x, (t, o)) l -> exists d, In (x, (t, d)) (fields c)) ->
    entries (fun to : aty * obj => f (fst to) (snd to)) l m = Some (r, m') -> fresh m m' (all_addrs r).
  Proof using Type.
    intros H Hf Hl E. apply (entries_fresh _ _) in E; [exact E|]. intros x [t o] m1 r1 m2 Hi. cbn. apply H.
    apply Hl in Hi as (d & Hi). now apply Hf in Hi.
  Qed.
  Lemma stored_type c l x t o :
    In (x, (t, o)) (map (fun f : key * (aty * option obj) =>
        (fst f, (fst (snd f), match dget (fst f) l with Some o => o | None => Imm 0 end))) (fields c)) ->
    exists d, In (x, (t, d)) (fields c).
  Proof using Type. rewrite in_map_iff. intros ([n [t' d]] & [= <- <- _] & H). now exists d. Qed.

  Lemma conv_fresh n va t o m r m' : copying_fields va fields -> copying va t ->
    conv n va t o m = Some (r, m') -> fresh m m' (addrs r).
  Proof using Type.
    unfold conv. intros Hf. revert t o m r m'. induction n as [|n IH]; intros t o m r m' Ht; [discriminate|]. cbn [aconv].
    assert (M : forall c l r m', match entries (fun to : aty * obj => aconv scal sub allowed claim fields n va (fst to) (snd to))
          (field_inputs fields c l) m with
          | Some (l', m') => alloc (OInst c) l' m' | None => None end = Some (r, m') -> fresh m m' (addrs r)).
    { intros c l r0 m0. destruct (entries _ _ m) as [[l' m1]|] eqn:E; [|discriminate]. intros [= <- <-]. apply fresh_alloc.
      apply (fields_fresh _ va _ c _ _ _ IH Hf) in E; [exact E|apply inputs_type]. }
    assert (L : forall t kd l r m', copying va t ->
        match entries (aconv scal sub allowed claim fields n va t) l m with Some (l', m') => alloc kd l' m' | None => None end
          = Some (r, m') -> fresh m m' (addrs r)).
    { intros t0 kd l r0 m0 Ht0. destruct (entries _ _ m) as [[l' m1]|] eqn:E; [|discriminate]. intros [= <- <-]. apply fresh_alloc.
      apply (entries_fresh _ _) in E; [exact E|]. intros x o' m2 r2 m3 _. now apply IH. }
    destruct o as [[|i]|a kd l].
    - intros [= <- <-]. apply fresh_nil.
    - destruct Ht; try discriminate. destruct (scal _ _) as [j|]; [|discriminate]. intros [= <- <-]. apply fresh_nil.
    - destruct Ht as [j|t Ht|t Ht|c|c Hp].
      + destruct (scal _ _) as [i|]; [|discriminate]. intros [= <- <-]. apply fresh_nil.
      + destruct kd; try discriminate. now apply L.
      + destruct kd; try discriminate. now apply L.
      + destruct kd as [| |c']; try discriminate; [apply M|]. destruct (sub c' c); [apply M|discriminate].
      + destruct kd as [| |c']; try discriminate; [|subst va]; (destruct (claim c _); [apply M|discriminate]).
  Qed.
  Lemma export_fresh n t o m r m' : copying_fields true fields -> copying true t ->
    export n t o m = Some (r, m') -> fresh m m' (addrs r).
  Proof using Type.
    unfold export. intros Hf. revert t o m r m'. induction n as [|n IH]; intros t o m r m' Ht; [discriminate|]. cbn [aexport].
    assert (M : forall c l r m', match entries (fun to : aty * obj => aexport scal allowed fields n (fst to) (snd to))
        (map (fun f : key * (aty * option obj) => (fst f, (fst (snd f), match dget (fst f) l with Some o => o | None => Imm 0 end))) (fields c)) m with
          | Some (l', m') => alloc ODict l' m' | None => None end = Some (r, m') -> fresh m m' (addrs r)).
    { intros c l r0 m0. destruct (entries _ _ m) as [[l' m1]|] eqn:E; [|discriminate]. intros [= <- <-]. apply fresh_alloc.
      apply (fields_fresh _ true _ c _ _ _ IH Hf) in E; [exact E|apply stored_type]. }
    assert (L : forall t kd l r m', copying true t ->
        match entries (aexport scal allowed fields n t) l m with Some (l', m') => alloc kd l' m' | None => None end = Some (r, m') ->
        fresh m m' (addrs r)).
    { intros t0 kd l r0 m0 Ht0. destruct (entries _ _ m) as [[l' m1]|] eqn:E; [|discriminate]. intros [= <- <-]. apply fresh_alloc.
      apply (entries_fresh _ _) in E; [exact E|]. intros x o' m2 r2 m3 _. now apply IH. }
    destruct o as [[|i]|a kd l].
    - intros [= <- <-]. apply fresh_nil.
    - destruct Ht; try discriminate. destruct (scal _ _) as [j|]; [|discriminate]. intros [= <- <-]. apply fresh_nil.
    - destruct Ht as [j|t Ht|t Ht|c|c Hp].
      + destruct (scal _ _) as [i|]; [|discriminate]. intros [= <- <-]. apply fresh_nil.
      + destruct kd; try discriminate. now apply L.
      + destruct kd; try discriminate. now apply L.
      + destruct kd; try discriminate; apply M.
      + destruct kd as [| |c']; try discriminate. destruct (allowed c c'); [apply M|discriminate].
  Qed.
  Lemma instance_fresh n va c raw m r m' : copying_fields va fields -> instance n va c raw m = Some (r, m') -> fresh m m' (addrs r).
  Proof using Type.
    intros Hf. unfold instance, ainstance. destruct raw as [i|a [| |c'] l]; try discriminate.
    all: destruct (entries _ _ m) as [[l' m1]|] eqn:E; [|discriminate]; intros [= <- <-]; apply fresh_alloc.
    all: apply (fields_fresh _ va _ c _ _ _ (fun t o m r m' => conv_fresh n va t o m r m' Hf) Hf) in E; [exact E|apply inputs_type].
  Qed.

  (** A fresh object and those that exist do not see changes of each other. *)
  Lemma fresh_separate m m' r : fresh m m' (addrs r) -> separate m m' r.
  Proof using Type.
    intros (H1 & H2 & H3). split; [|split; [|split; [|split]]].
    - exact H1.
    - intros a new Ha. apply change_other. intros Hi. apply H2 in Hi. lia.
    - intros a new old Hi Ho. apply change_other. intros Hj. apply H2 in Hi. apply Ho in Hj. lia.
    - exact H3.
    - intros a Hi. apply H2 in Hi. lia.
  Qed.
  Lemma import_separate n va c raw m r m' : copying_fields va fields -> instance n va c raw m = Some (r, m') -> separate m m' r.
  Proof using Type. intros Hf H. apply fresh_separate. apply (instance_fresh _ _ _ _ _ _ _ Hf H). Qed.
  Lemma export_separate n c o m r m' : copying_fields true fields -> export n (AModel c) o m = Some (r, m') -> separate m m' r.
  Proof using Type. intros Hf H. apply fresh_separate. apply (export_fresh _ _ _ _ _ _ Hf (cp_model true c) H). Qed.
  Lemma two_instances n va va' c c' raw raw' m r m1 m2 r' m' : copying_fields va fields -> copying_fields va' fields ->
    instance n va c raw m = Some (r, m1) -> m1 <= m2 -> instance n va' c' raw' m2 = Some (r', m') ->
    (forall a new, In a (addrs r) -> change a new r' = r') /\ (forall a new, In a (addrs r') -> change a new r = r).
  Proof using Type.
    intros Hf Hf' H Hm H'. destruct (import_separate _ _ _ _ _ _ _ Hf H) as (_ & _ & _ & _ & E).
    destruct (import_separate _ _ _ _ _ _ _ Hf' H') as (_ & A & B & _). split.
    - intros a new Ha. apply A. apply E in Ha. lia.
    - intros a new Ha. apply B; [exact Ha|]. intros b Hb. apply E in Hb. lia.
  Qed.
  Lemma validation_replaces n o m r m' : copying_fields true fields -> exists_at m o -> revalidate n o m = Some (r, m') ->
    exists a c l, o = Obj a (OInst c) l /\ NoDup (addrs r) /\
      (forall b, In b (addrs r) -> b = a \/ m <= b) /\
      forall b new, b < m -> b <> a -> change b new r = r.
  Proof using Type.
    intros Hf Ho. unfold revalidate, avalidate. destruct o as [i|a [| |c] l]; try discriminate.
    destruct (entries _ _ m) as [[l' m1]|] eqn:E; [|discriminate]. intros [= <- <-]. exists a, c, l. split; [reflexivity|].
    apply (fields_fresh _ true _ c _ _ _ (fun t o m r m' => conv_fresh n true t o m r m' Hf) Hf) in E; [|apply stored_type].
    assert (Ha : a < m) by (apply Ho; rewrite addrs_obj; now left). pose proof E as (_ & B & N). rewrite addrs_obj. split; [|split].
    - constructor; [|exact N]. intros Hi. apply B in Hi. lia.
    - intros b [<-|Hb]; [now left|]. right. apply B in Hb. lia.
    - intros b new Hb Hne. rewrite change_obj. destruct (Nat.eqb_spec b a); [contradiction|]. apply f_equal.
      apply (change_below _ _ _ m m1 Hb E).
  Qed.

  (** Inputs of a field: the same type, contents alike. *)
  Let typed (p q : aty * obj) : Prop := fst p = fst q /\ alike (snd p) (snd q).
  Lemma inputs_alike c l l' : lists_alike alike l l' -> lists_alike typed (field_inputs fields c l) (field_inputs fields c l').
  Proof using Type.
    intros H. unfold field_inputs. induction (fields c) as [|[n [t d]] fs IH]; cbn; constructor; [|exact IH].
    split; [reflexivity|]. cbn. pose proof (dget_alike n _ _ H) as G.
    destruct (dget n l), (dget n l'); try contradiction; [exact G|reflexivity].
  Qed.
  Lemma conv_alike n va : by_content scal -> by_content claim ->
    forall t o o' m m', alike o o' -> res_alike (conv n va t o m) (conv n va t o' m').
  Proof using Type.
    unfold conv. intros Hs Hc. induction n as [|n IH]; intros t o o' m m' Ho; [exact I|]. cbn [aconv].
    assert (M : forall c l l', contents l = contents l' ->
      res_alike (match entries (fun to : aty * obj => aconv scal sub allowed claim fields n va (fst to) (snd to)) (field_inputs fields c l) m with
                 | Some (l', m') => alloc (OInst c) l' m' | None => None end)
                (match entries (fun to : aty * obj => aconv scal sub allowed claim fields n va (fst to) (snd to)) (field_inputs fields c l') m' with
                 | Some (l', m') => alloc (OInst c) l' m' | None => None end)).
    { intros c l l' Hl. apply alloc_alike. apply (entries_alike typed).
      - intros [t1 o1] [t2 o2] m1 m2 [E H]. cbn in *. subst t2. now apply IH.
      - apply inputs_alike. now apply contents_lists. }
    assert (L : forall t kd l l', contents l = contents l' ->
      res_alike (match entries (aconv scal sub allowed claim fields n va t) l m with Some (l', m') => alloc kd l' m' | None => None end)
                (match entries (aconv scal sub allowed claim fields n va t) l' m' with Some (l', m') => alloc kd l' m' | None => None end)).
    { intros t0 kd l l' Hl. apply alloc_alike. apply (entries_alike alike).
      - intros o1 o2 m1 m2 H. now apply IH.
      - now apply contents_lists. }
    destruct o as [i|a kd l], o' as [i'|a' kd' l']; try discriminate Ho.
    - injection Ho as <-. destruct i as [|i]; [reflexivity|]. destruct t; try exact I; [|reflexivity].
      destruct (scal _ _); [reflexivity|exact I].
    - pose proof Ho as Ho'. unfold alike in Ho'. rewrite !content_obj in Ho'. injection Ho' as <- Hl.
      destruct t as [j| |t|t|c|p].
      + rewrite (Hs j _ _ Ho). destruct (scal _ _); [reflexivity|exact I].
      + exact Ho.
      + destruct kd; try exact I. now apply L.
      + destruct kd; try exact I. now apply L.
      + destruct kd as [| |c']; try exact I; [now apply M|]. destruct (sub c' c); [now apply M|exact I].
      + destruct kd as [| |c']; try exact I.
        * rewrite (Hc p _ _ Ho). destruct (claim p _); [now apply M|exact I].
        * destruct va; [rewrite (Hc p _ _ Ho); destruct (claim p _); [now apply M|exact I]|].
          destruct (allowed p c'); [exact Ho|exact I].
  Qed.
  (** Making an instance of data with the same content, whenever, gives an equal instance. *)
  Lemma instances_alike n va c raw raw' m m1 r m' : by_content scal -> by_content claim -> alike raw raw' ->
    instance n va c raw m = Some (r, m') -> exists r' m1', instance n va c raw' m1 = Some (r', m1') /\ alike r r'.
  Proof using Type.
    intros Hs Hc Ho.
    assert (G : res_alike (instance n va c raw m) (instance n va c raw' m1)).
    { unfold instance, ainstance. destruct raw as [i|a kd l], raw' as [i'|a' kd' l']; try discriminate Ho; [exact I|].
      unfold alike in Ho. rewrite !content_obj in Ho. injection Ho as <- Hl.
      destruct kd; try exact I.
      all: apply alloc_alike; apply (entries_alike typed); [|apply inputs_alike; now apply contents_lists].
      all: intros [t1 o1] [t2 o2] m2 m3 [E H]; cbn in *; subst t2; now apply (conv_alike n va Hs Hc). }
    intros H. rewrite H in G. cbn in G. destruct (instance n va c raw' m1) as [[r' m1']|]; [|contradiction]. now exists r', m1'.
  Qed.
End Facts.

(** Witnesses. *)
Definition scal0 (_ : nat) (o : obj) : option nat := match o with Imm n => Some n | _ => None end.
Definition sub0 (c d : nat) : bool := Nat.eqb c d.
Definition claim0 (p : nat) (_ : obj) : option nat := Some p.
(** A post with tags (a list of texts, with a default), notes (a dictionary of lists of texts) and a parent; a class with a
    BaseType whose default is a list; one with a polymorphic field. *)
Definition post_fields : list (key * (aty * option obj)) :=
  [(k "tags", (AList (Scalar 0), Some (Obj 0 OList [(KInt 0, Imm 9)]))); (k "notes", (ADict (AList (Scalar 0)), None));
   (k "parent", (AModel 0, None))].
Definition keep_fields : list (key * (aty * option obj)) := [(k "any", (Kept, Some (Obj 0 OList [])))].
Definition poly_fields : list (key * (aty * option obj)) := [(k "poly", (APoly 0, None))].
Definition posts (c : nat) := match c with 0 => post_fields | _ => poly_fields end.
Lemma posts_copying : copying_fields true posts.
Proof.
  intros [|c] n t d; cbn.
  - intros [[= <- <- <-]|[[= <- <- <-]|[[= <- <- <-]|[]]]]; repeat constructor.
  - intros [[= <- <- <-]|[]]. now constructor.
Qed.
Lemma kept_shared :
  exists fields c raw a r m', exists_at 5 raw /\ In a (addrs raw) /\
    ainstance scal0 sub0 sub0 claim0 fields 3 true c raw 5 = Some (r, m') /\ exists new, change a new r <> r.
Proof.
  exists (fun _ => keep_fields), 1, (Obj 1 ODict [(k "any", Obj 2 OList [])]), 2. eexists. eexists.
  split; [intros a [<-|[<-|[]]]; lia|]. split; [right; now left|]. split; [reflexivity|]. exists [(KInt 0, Imm 1)]. discriminate.
Qed.
Lemma default_shared :
  exists fields c a r r' m1 m2, ainstance scal0 sub0 sub0 claim0 fields 3 false c (Obj 1 ODict []) 5 = Some (r, m1) /\
    ainstance scal0 sub0 sub0 claim0 fields 3 false c (Obj 2 ODict []) m1 = Some (r', m2) /\ In a (addrs r) /\
    exists new, change a new r' <> r'.
Proof.
  exists (fun _ => keep_fields), 1, 0. do 4 eexists. split; [reflexivity|]. split; [reflexivity|]. split; [right; now left|].
  exists [(KInt 0, Imm 1)]. discriminate.
Qed.
Lemma poly_shared :
  exists fields c raw a r m', copying_fields true fields /\ exists_at 5 raw /\ In a (addrs raw) /\
    ainstance scal0 sub0 sub0 claim0 fields 3 false c raw 5 = Some (r, m') /\ exists new, change a new r <> r.
Proof.
  exists posts, 1, (Obj 1 ODict [(k "poly", Obj 2 (OInst 0) [])]), 2. eexists. eexists.
  split; [exact posts_copying|]. split; [intros a [<-|[<-|[]]]; lia|]. split; [right; now left|].
  split; [reflexivity|]. exists [(KInt 0, Imm 1)]. discriminate.
Qed.
(** The value assigned is shared, until validation. *)
Lemma assigned_shared :
  exists o v a, ~ In a (addrs o) /\ In a (addrs v) /\ (exists new, change a new (aassign (k "tags") v o) <> aassign (k "tags") v o).
Proof.
  exists (Obj 1 (OInst 0) []), (Obj 2 OList []), 2. split; [intros [H|[]]; lia|]. split; [now left|].
  exists [(KInt 0, Imm 1)]. discriminate.
Qed.
