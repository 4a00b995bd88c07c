(** Copies of instances. *)
From Coq Require Import Lia PeanoNat.
From Verif.Model Require Import Py Core Export Api FieldCopy InstanceCopy.
From Verif.Spec Require Import InstanceCopySpec.
From Verif.Proofs Require Import DictLemmas FieldCopyFacts.

(** ** Deep copies *)
Fixpoint each (l : list pyval) : res (list pyval) :=
  match l with [] => Ok [] | x :: r => rbind (deepcopy x) (fun y => rbind (each r) (fun s => Ok (y :: s))) end.
Fixpoint entries (d : list (key * pyval)) : res (list (key * pyval)) :=
  match d with [] => Ok [] | (n, x) :: r => rbind (deepcopy x) (fun y => rbind (entries r) (fun s => Ok ((n, y) :: s))) end.

Lemma each_cases l : (forall x, In x l -> deepcopy x = Ok x \/ deepcopy x = Raise (XPy ETypeError)) ->
  ((forall x, In x l -> deepcopy x = Ok x) /\ each l = Ok l) \/ ((exists x, In x l /\ deepcopy x <> Ok x) /\ each l = Raise (XPy ETypeError)).
Proof.
  induction l as [|x l IH]; intros H; [left; split; [intros x []|reflexivity]|]. simpl.
  destruct (H x (or_introl eq_refl)) as [Q|Q]; rewrite Q; simpl.
  - destruct IH as [[A B]|[(y & I & A) B]]; [intros y I; apply H; now right| |].
    + left. rewrite B. split; [|reflexivity]. intros y [<-|I]; auto.
    + right. rewrite B. split; [|reflexivity]. exists y. split; [now right|exact A].
  - right. split; [|reflexivity]. exists x. split; [now left|congruence].
Qed.
Lemma entries_cases d : (forall n x, In (n, x) d -> deepcopy x = Ok x \/ deepcopy x = Raise (XPy ETypeError)) ->
  ((forall n x, In (n, x) d -> deepcopy x = Ok x) /\ entries d = Ok d) \/
  ((exists n x, In (n, x) d /\ deepcopy x <> Ok x) /\ entries d = Raise (XPy ETypeError)).
Proof.
  induction d as [|[n x] d IH]; intros H; [left; split; [intros n x []|reflexivity]|]. simpl.
  destruct (H n x (or_introl eq_refl)) as [Q|Q]; rewrite Q; simpl.
  - destruct IH as [[A B]|[(m & y & I & A) B]]; [intros m y I; apply (H m); now right| |].
    + left. rewrite B. split; [|reflexivity]. intros m y [X|I]; [inversion X; now subst|eauto].
    + right. rewrite B. split; [|reflexivity]. exists m, y. split; [now right|exact A].
  - right. split; [|reflexivity]. exists n, x. split; [now left|congruence].
Qed.
Theorem copies : forall v, deepcopy v = Ok v /\ ~ holds_instance v \/ deepcopy v = Raise (XPy ETypeError) /\ holds_instance v.
Proof.
  fix IH 1. intros v. destruct v as [| | | | | | |l|l|d|c m| | | | | | |]; try (left; split; [reflexivity|intros H; inversion H]).
  - assert (A : forall x, In x l -> deepcopy x = Ok x /\ ~ holds_instance x \/ deepcopy x = Raise (XPy ETypeError) /\ holds_instance x).
    { induction l as [|y l IHl]; intros x I; [destruct I|]. pose proof (IH y) as Qy. destruct I as [<-|I]; [exact Qy|now apply IHl]. }
    change (deepcopy (VList l)) with (rbind (each l) (fun l => Ok (VList l))).
    destruct (each_cases l) as [[B ->]|[(x & I & B) ->]].
    + intros x I. destruct (A x I) as [[Q _]|[Q _]]; auto.
    + left. split; [reflexivity|]. intros H. inversion H; subst. destruct (A x) as [[_ Q]|[Q _]]; [assumption|contradiction|]. rewrite B in Q by assumption. discriminate.
    + right. split; [reflexivity|]. apply (HoldsList l x I). destruct (A x I) as [[Q _]|[_ Q]]; [contradiction|exact Q].
  - assert (A : forall x, In x l -> deepcopy x = Ok x /\ ~ holds_instance x \/ deepcopy x = Raise (XPy ETypeError) /\ holds_instance x).
    { induction l as [|y l IHl]; intros x I; [destruct I|]. pose proof (IH y) as Qy. destruct I as [<-|I]; [exact Qy|now apply IHl]. }
    change (deepcopy (VTuple l)) with (rbind (each l) (fun l => Ok (VTuple l))).
    destruct (each_cases l) as [[B ->]|[(x & I & B) ->]].
    + intros x I. destruct (A x I) as [[Q _]|[Q _]]; auto.
    + left. split; [reflexivity|]. intros H. inversion H; subst. destruct (A x) as [[_ Q]|[Q _]]; [assumption|contradiction|]. rewrite B in Q by assumption. discriminate.
    + right. split; [reflexivity|]. apply (HoldsTuple l x I). destruct (A x I) as [[Q _]|[_ Q]]; [contradiction|exact Q].
  - assert (A : forall n x, In (n, x) d -> deepcopy x = Ok x /\ ~ holds_instance x \/ deepcopy x = Raise (XPy ETypeError) /\ holds_instance x).
    { induction d as [|[m y] d IHd]; intros n x I; [destruct I|]. destruct I as [E|I]; [pose proof (IH y) as Qy; inversion E; subst; exact Qy|now apply (IHd n)]. }
    change (deepcopy (VDict d)) with (rbind (entries d) (fun l => Ok (VDict l))).
    destruct (entries_cases d) as [[B ->]|[(n & x & I & B) ->]].
    + intros n x I. destruct (A n x I) as [[Q _]|[Q _]]; auto.
    + left. split; [reflexivity|]. intros H. inversion H; subst. destruct (A n x) as [[_ Q]|[Q _]]; [assumption|contradiction|].
      rewrite (B n) in Q by assumption. discriminate.
    + right. split; [reflexivity|]. apply (HoldsDict d n x I). destruct (A n x I) as [[Q _]|[_ Q]]; [contradiction|exact Q].
  - right. split; [|constructor]. destruct m as [un co va hi].
    assert (A : forall n x, In (n, x) un -> deepcopy x = Ok x \/ deepcopy x = Raise (XPy ETypeError)).
    { induction un as [|[m y] d IHd]; intros n x I; [destruct I|]. destruct I as [E|I]; [pose proof (IH y) as Qy; inversion E; subst; destruct Qy as [[Q _]|[Q _]]; auto|now apply (IHd n)]. }
    assert (B : forall n x, In (n, x) co -> deepcopy x = Ok x \/ deepcopy x = Raise (XPy ETypeError)).
    { clear A. induction co as [|[m y] d IHd]; intros n x I; [destruct I|]. destruct I as [E|I]; [pose proof (IH y) as Qy; inversion E; subst; destruct Qy as [[Q _]|[Q _]]; auto|now apply (IHd n)]. }
    change (rbind (entries un) (fun _ => rbind (entries co) (fun _ => @Raise pyval (XPy ETypeError))) = Raise (XPy ETypeError)).
    destruct (entries_cases un A) as [[_ ->]|[_ ->]]; [|reflexivity]. simpl. destruct (entries_cases co B) as [[_ ->]|[_ ->]]; reflexivity.
Qed.
Theorem deep v : (holds_instance v -> deepcopy v = Raise (XPy ETypeError)) /\ (~ holds_instance v -> deepcopy v = Ok v).
Proof. destruct (copies v) as [[A B]|[A B]]; split; intros H; tauto. Qed.

(** ** Shallow copies *)
Section Shallow.
  Context (E : env) (r : conv).
  Notation after := (after E r).
  Definition ok (h : list cevent) : Prop :=
    let s := after h in
    length (cs_inst s) = instances h /\
    (forall k c a, nth_error (cs_inst s) k = Some (c, a) -> a < length (cs_data s)) /\
    (forall k l p q, nth_error (cs_inst s) k = Some p -> nth_error (cs_inst s) l = Some q ->
       (first_original h k = first_original h l -> p = q) /\ (snd p = snd q -> first_original h k = first_original h l)) /\
    (forall k, k < instances h -> first_original h k < instances h).
  Lemma nth_app_new {A} (l : list A) x k : nth_error (l ++ [x]) k = if Nat.eqb k (length l) then Some x else nth_error l k.
  Proof.
    destruct (Nat.eqb_spec k (length l)) as [->|N]; [rewrite nth_error_app2 by lia; now rewrite Nat.sub_diag|].
    destruct (Nat.lt_ge_cases k (length l)); [now apply nth_error_app1|].
    rewrite nth_error_app2 by lia. destruct (k - length l) as [|[|n]] eqn:Q; [lia| |]; simpl; symmetry; now apply nth_error_None.
  Qed.
  Lemma beyond h k : instances h <= k -> first_original h k = k.
  Proof.
    revert k. induction h as [|[c m|i|i o] h IH]; intros k L; cbn [first_original instances] in *; try reflexivity; try (apply IH; lia).
    destruct (Nat.eqb_spec k (instances h)) as [->|]; [lia|]. apply IH. lia.
  Qed.
  Lemma feasible_ok h : feasible h -> ok h.
  Proof.
    induction h as [|e h IH]; intros F.
    - split; [reflexivity|]. split; [intros [|k]; discriminate|]. split; [intros [|k]; discriminate|]. simpl. intros; lia.
    - destruct F as [F Fh]. destruct (IH Fh) as (L & B & S & O). destruct e as [c m|i|i o]; unfold ok; cbn [after cstep instances first_original].
      + cbn [cs_inst cs_data]. split; [rewrite app_length; simpl; lia|]. split; [|split].
        * intros k c' a. rewrite nth_app_new, app_length. simpl. destruct (Nat.eqb k (length (cs_inst (after h)))); intros H; [inversion H; subst; lia|].
          specialize (B _ _ _ H). lia.
        * intros k l p q. rewrite !nth_app_new, L. destruct (Nat.eqb_spec k (instances h)) as [->|Nk], (Nat.eqb_spec l (instances h)) as [->|Nl]; intros P Q.
          -- rewrite P in Q. inversion Q. now split.
          -- assert (Ll : l < instances h) by (rewrite <- L; apply nth_error_Some; congruence). rewrite beyond by lia. specialize (O _ Ll).
             inversion P; subst p. destruct q as [c' a']. specialize (B _ _ _ Q). split; simpl; intros; lia.
          -- assert (Lk : k < instances h) by (rewrite <- L; apply nth_error_Some; congruence). rewrite (beyond h (instances h)) by lia. specialize (O _ Lk).
             inversion Q; subst q. destruct p as [c' a']. specialize (B _ _ _ P). split; simpl; intros; lia.
          -- exact (S _ _ _ _ P Q).
        * intros k Lk. destruct (Nat.eq_dec k (instances h)) as [->|N]; [rewrite beyond by lia; lia|]. specialize (O k). lia.
      + destruct (nth_error (cs_inst (after h)) i) as [[c a]|] eqn:G; [|apply nth_error_None in G; lia].
        cbn [cs_inst cs_data]. split; [rewrite app_length; simpl; lia|]. split; [|split].
        * intros k c' a'. rewrite nth_app_new. destruct (Nat.eqb k (length (cs_inst (after h)))); intros H; [inversion H; subst; exact (B _ _ _ G)|exact (B _ _ _ H)].
        * intros k l p q. rewrite !nth_app_new, L. destruct (Nat.eqb_spec k (instances h)) as [->|Nk], (Nat.eqb_spec l (instances h)) as [->|Nl]; intros P Q.
          -- rewrite P in Q. inversion Q. now split.
          -- inversion P; subst p. exact (S _ _ _ _ G Q).
          -- inversion Q; subst q. exact (S _ _ _ _ P G).
          -- exact (S _ _ _ _ P Q).
        * intros k Lk. destruct (Nat.eqb_spec k (instances h)) as [->|N]; [specialize (O i F); lia|]. specialize (O k). lia.
      + destruct (nth_error (cs_inst (after h)) i) as [[c a]|] eqn:G; [|apply nth_error_None in G; lia].
        cbn [cs_inst cs_data]. split; [exact L|]. split; [intros k c' a'; rewrite upd_len; apply B|]. split; [exact S|exact O].
  Qed.

  Lemma nth_upd {A} a (f : A -> A) b : forall l, nth_error (upd_at a f l) b = if Nat.eqb b a then option_map f (nth_error l b) else nth_error l b.
  Proof.
    revert b. induction a as [|a IH]; intros [|b] [|x l]; simpl; try reflexivity; [now destruct (Nat.eqb b a)|]. apply IH.
  Qed.
  (** An operation on one instance reaches exactly the copies of the same original. *)
  Theorem reaches h i o k : feasible (COp i o :: h) -> k < instances h ->
    instance_at (after (COp i o :: h)) k =
    if Nat.eqb (first_original h k) (first_original h i)
    then option_map (fun p => (fst p, do_op E r o (fst p) (snd p))) (instance_at (after h) k)
    else instance_at (after h) k.
  Proof.
    intros [F Fh] Lk. destruct (feasible_ok h Fh) as (L & B & S & O). cbn [after cstep].
    destruct (nth_error (cs_inst (after h)) i) as [[c a]|] eqn:G; [|apply nth_error_None in G; lia].
    unfold instance_at. cbn [cs_inst cs_data]. destruct (nth_error (cs_inst (after h)) k) as [[c' a']|] eqn:K; [|apply nth_error_None in K; lia].
    rewrite nth_upd. destruct (S _ _ _ _ K G) as [S1 S2]. simpl in S2. destruct (Nat.eqb_spec (first_original h k) (first_original h i)) as [Q|Q].
    - specialize (S1 Q). inversion S1; subst. rewrite Nat.eqb_refl. now destruct (nth_error (cs_data (after h)) a).
    - destruct (Nat.eqb_spec a' a) as [Z|Z]; [elim Q; now apply S2|reflexivity].
  Qed.
  Lemma does_op o c m : does E r c m (do_op E r o c m) o.
  Proof. destruct o; cbn; econstructor; apply surjective_pairing. Qed.
  Lemma there h k : feasible h -> k < instances h -> exists p, instance_at (after h) k = Some p.
  Proof.
    intros Fh Lk. destruct (feasible_ok h Fh) as (L & B & _ & _). unfold instance_at.
    destruct (nth_error (cs_inst (after h)) k) as [[c a]|] eqn:K; [|apply nth_error_None in K; lia].
    destruct (nth_error (cs_data (after h)) a) as [m|] eqn:D; [cbn; eauto|].
    apply nth_error_None in D. specialize (B _ _ _ K). lia.
  Qed.
  (** The same, saying what is done. *)
  Theorem reaches_all h i o k : feasible (COp i o :: h) -> k < instances h ->
    exists c m m', instance_at (after h) k = Some (c, m) /\ instance_at (after (COp i o :: h)) k = Some (c, m') /\
      if Nat.eqb (first_original h k) (first_original h i) then does E r c m m' o else m' = m.
  Proof.
    intros F Lk. rewrite (reaches h i o k F Lk). destruct F as [_ Fh]. destruct (there h k Fh Lk) as [[c m] ->]. exists c, m.
    destruct (Nat.eqb _ _).
    - exists (do_op E r o c m). split; [reflexivity|]. split; [reflexivity|apply does_op].
    - exists m. auto.
  Qed.
  (** Making and copying instances changes none. *)
  Theorem keeps h e k : feasible (e :: h) -> k < instances h -> match e with COp _ _ => False | _ => True end ->
    instance_at (after (e :: h)) k = instance_at (after h) k.
  Proof.
    intros [F Fh] Lk T. destruct (feasible_ok h Fh) as (L & B & _ & _). destruct e as [c m|i|i o]; [| |contradiction]; cbn [after cstep].
    - unfold instance_at. cbn [cs_inst cs_data]. rewrite nth_error_app1 by lia.
      destruct (nth_error (cs_inst (after h)) k) as [[c' a']|] eqn:K; [|reflexivity]. rewrite nth_error_app1; [reflexivity|]. exact (B _ _ _ K).
    - destruct (nth_error (cs_inst (after h)) i) as [[c a]|]; [|reflexivity]. unfold instance_at. cbn [cs_inst cs_data]. now rewrite nth_error_app1 by lia.
  Qed.
  Theorem made_new h c m : feasible h -> instance_at (after (CNew c m :: h)) (instances h) = Some (c, m).
  Proof.
    intros Fh. destruct (feasible_ok h Fh) as (L & _). unfold instance_at. cbn [after cstep cs_inst cs_data]. rewrite nth_app_new, L, Nat.eqb_refl.
    rewrite nth_app_new, Nat.eqb_refl. reflexivity.
  Qed.
  Theorem same_original h k l : feasible h -> k < instances h -> l < instances h -> first_original h k = first_original h l ->
    instance_at (after h) k = instance_at (after h) l.
  Proof.
    intros Fh Lk Ll Q. destruct (feasible_ok h Fh) as (L & B & S & O). unfold instance_at.
    destruct (nth_error (cs_inst (after h)) k) as [p|] eqn:K; [|apply nth_error_None in K; lia].
    destruct (nth_error (cs_inst (after h)) l) as [q|] eqn:K'; [|apply nth_error_None in K'; lia]. now rewrite (proj1 (S _ _ _ _ K K') Q).
  Qed.
  Lemma feasible_app g h : feasible (g ++ h) -> feasible h.
  Proof. induction g as [|e g IH]; [easy|]. intros [_ F]. now apply IH. Qed.
  Lemma instances_app g h : instances h <= instances (g ++ h).
  Proof. induction g as [|[c m|i|i o] g IH]; simpl; lia. Qed.
  Lemma original_app g h k : k < instances h -> first_original (g ++ h) k = first_original h k.
  Proof.
    intros L. induction g as [|[c m|i|i o] g IH]; simpl; try exact IH; [reflexivity|].
    destruct (Nat.eqb_spec k (instances (g ++ h))) as [->|]; [|exact IH]. pose proof (instances_app g h). lia.
  Qed.
  (** A copy and its original are the same for ever. *)
  Theorem one_instance g h i : feasible (g ++ CCopy i :: h) ->
    instance_at (after (g ++ CCopy i :: h)) (instances h) = instance_at (after (g ++ CCopy i :: h)) i.
  Proof.
    intros F. pose proof (feasible_app _ _ F) as [Fi Fh]. pose proof (instances_app g (CCopy i :: h)) as L. cbn [instances] in L.
    apply same_original; [exact F|lia|lia|]. rewrite !original_app by (cbn [instances]; lia). cbn [first_original]. rewrite Nat.eqb_refl.
    destruct (Nat.eqb_spec i (instances h)); [lia|reflexivity].
  Qed.
End Shallow.
