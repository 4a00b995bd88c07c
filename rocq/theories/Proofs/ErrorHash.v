(** Equality and hashing of error objects. *)
From Coq Require Import Permutation.
From Verif.Model Require Import Py Errors.
From Verif.Spec Require Import ErrorSpec.
From Verif.Proofs Require Import DictLemmas EqLemmas ErrorFacts.

Section Hash.
  Context (R : runtime) (HV : values_hash R).

  Fixpoint list_hash (acc : Z) (l : list eobj) : res Z :=
    match l with
    | [] => Ok acc
    | x :: r => rbind (ohash R x) (fun h => list_hash (Z.lxor acc h) r)
    end.
  Fixpoint dict_hash (acc : Z) (d : list (key * eobj)) : res Z :=
    match d with
    | [] => Ok acc
    | (x, v) :: r => rbind (ohash R v) (fun h => dict_hash (Z.lxor (Z.lxor acc (h_key R x)) h) r)
    end.
  Lemma ohash_list l : ohash R (OFrozenList l) = list_hash 0 l.
  Proof. reflexivity. Qed.
  Lemma ohash_dict d : ohash R (OFrozenDict d) = dict_hash 0 d.
  Proof. reflexivity. Qed.

  Definition hash_same (a b : eobj) : Prop := forall h, ohash R a = Ok h <-> ohash R b = Ok h.
  Lemma hash_same_sym a b : hash_same a b -> hash_same b a.
  Proof. intros H h. symmetry. apply H. Qed.

  Lemma message_eq_hash a b : message_eq R a b = true -> ohash R (OMsg a) = ohash R (OMsg b).
  Proof.
    unfold message_eq; intros H. apply andb_prop in H as [H Hi]. apply andb_prop in H as [Hs Ht].
    apply pstr_eqb_eq in Hs. apply HV in Hi. cbn. rewrite Hs, Hi.
    assert (E : ms_type a = ms_type b).
    { destruct (ms_type a), (ms_type b); try discriminate Ht; [|reflexivity]. apply ecls_eqb_eq in Ht. now subst. }
    now rewrite E.
  Qed.

  Lemma messages_hash ms ms' : Forall2 (fun a b => message_eq R a b = true) ms ms' ->
    forall acc, list_hash acc (map OMsg ms) = list_hash acc (map OMsg ms').
  Proof.
    induction 1 as [|a b l l' H Hl IH]; intros acc; [reflexivity|]. cbn [map list_hash].
    rewrite (message_eq_hash _ _ H). destruct (ohash R (OMsg b)); cbn; [apply IH|reflexivity].
  Qed.

  (** *** Dictionaries *)
  Lemma dict_hash_cons acc x v r h : dict_hash acc ((x, v) :: r) = Ok h <->
    exists hv, ohash R v = Ok hv /\ dict_hash (Z.lxor (Z.lxor acc (h_key R x)) hv) r = Ok h.
  Proof.
    cbn. destruct (ohash R v) as [hv|e]; cbn.
    - split; [eauto|]. intros [hv' [[= <-] E]]. exact E.
    - split; [discriminate|]. intros [hv' [E _]]. discriminate E.
  Qed.

  Lemma lxor_swap a b c d e : Z.lxor (Z.lxor (Z.lxor (Z.lxor a b) c) d) e =
    Z.lxor (Z.lxor (Z.lxor (Z.lxor a d) e) b) c.
  Proof.
    rewrite !Z.lxor_assoc. f_equal. rewrite <- (Z.lxor_assoc b), <- (Z.lxor_assoc d).
    apply Z.lxor_comm.
  Qed.

  Lemma dict_hash_perm d d' : Permutation d d' -> forall acc h, dict_hash acc d = Ok h <-> dict_hash acc d' = Ok h.
  Proof.
    induction 1 as [|[x v] l l' H IH|[x v] [y w] l|l l' l'' H IH H' IH']; intros acc h.
    - reflexivity.
    - rewrite !dict_hash_cons. split; intros [hv [E F]]; exists hv; (split; [exact E|]); now apply IH.
    - rewrite !dict_hash_cons. split; intros [hv [E F]]; apply dict_hash_cons in F as [hw [E' F]];
        exists hw; (split; [exact E'|]); apply dict_hash_cons; exists hv; (split; [exact E|]);
        rewrite lxor_swap; exact F.
    - rewrite IH. apply IH'.
  Qed.

  Lemma ddel_perm x (w : eobj) d : dget x d = Some w -> Permutation d ((x, w) :: ddel x d).
  Proof.
    induction d as [|[y z] r IH]; cbn; [discriminate|].
    destruct (key_eqb_spec x y) as [<-|N]; [intros [= <-]; reflexivity|].
    intros H. rewrite perm_swap. now rewrite <- IH.
  Qed.

  Lemma dict_same d : forall d', NoDup (dkeys d) -> length d = length d' ->
    Forall (fun p => exists w, dget (fst p) d' = Some w /\ hash_same (snd p) w) d ->
    forall acc h, dict_hash acc d = Ok h <-> dict_hash acc d' = Ok h.
  Proof.
    induction d as [|[x v] r IH]; intros d' Hn Hl Hf acc h.
    - destruct d'; [reflexivity|discriminate Hl].
    - apply Forall_cons_iff in Hf as [[w [Hw Hs]] Hf]. cbn in Hw, Hs.
      cbn in Hn. apply NoDup_cons_iff in Hn as [Hx Hn].
      pose proof (ddel_perm x w d' Hw) as P. rewrite (dict_hash_perm _ _ P).
      apply Permutation_length in P. cbn [length] in P, Hl. rewrite P in Hl. injection Hl as Hl.
      rewrite !dict_hash_cons. split; intros [hv [E F]]; exists hv; (split; [now apply Hs|]);
        (eapply IH; [exact Hn|exact Hl| |exact F]) || (eapply IH in F; [exact F|exact Hn|exact Hl|]);
        (rewrite Forall_forall in Hf |- *; intros p Hp; destruct (Hf p Hp) as [w' [Hw' Hs']]; exists w';
         split; [|exact Hs']; rewrite dget_ddel_neq; [exact Hw'|];
         intros N; apply Hx; rewrite <- N; now apply in_map).
  Qed.

  (** *** Shapes *)
  Definition text (o : eobj) : Prop := exists t, o = OStr t /\ t <> [].
  Definition T (o : eobj) : Prop := tidy o \/ text o.

  Lemma tidy_list_inv l : tidy (OFrozenList l) ->
    exists ms, l = map OMsg ms /\ Forall (fun m => 1 < length (ms_summary m)) ms.
  Proof.
    intros H; inversion H as [o ms Hl Hm|o d Hd]; subst; [|inversion Hd].
    inversion Hl; subst. eauto.
  Qed.
  Lemma tidy_dict_inv d : tidy (OFrozenDict d) -> NoDup (dkeys d) /\ Forall (fun p => entry (fst p) (snd p)) d.
  Proof.
    intros H; inversion H as [o ms Hl Hm|o d' Hd Hn He]; subst; [inversion Hl|].
    inversion Hd; subst. auto.
  Qed.
  Lemma tidy_err_inv c e : tidy (OErr c e) ->
    tidy e /\ ((exists l, e = OFrozenList l /\ is_field_cls c = true) \/
               (exists d, e = OFrozenDict d /\ is_field_cls c = false)).
  Proof.
    intros H; inversion H as [o ms Hl Hm|o d' Hd Hn He]; subst.
    - inversion Hl; subst. split; [eapply tidy_list; [constructor|assumption]|]. left; eauto.
    - inversion Hd; subst. split; [eapply tidy_dict; [constructor|assumption|assumption]|]. right; eauto.
  Qed.
  Lemma tidy_not_other o : tidy o ->
    (exists l, o = OFrozenList l) \/ (exists d, o = OFrozenDict d) \/ (exists c e, o = OErr c e).
  Proof.
    intros H; inversion H as [o' ms Hl Hm|o' d' Hd Hn He]; subst; [inversion Hl|inversion Hd]; subst; eauto.
  Qed.
  Lemma entry_T x o : entry x o -> T o.
  Proof. destruct 1; [left; assumption|right; eexists; eauto]. Qed.

  (** *** Lists *)
  Lemma frozen_loop_msgs n o ms' : forall ms i,
    length ms = length ms' ->
    (forall j m, nth_error ms' j = Some m -> item_at o (i + j) = Ok (OMsg m)) ->
    frozen_loop (oeq R n) (map OMsg ms) o i = Ok true ->
    Forall2 (fun a b => message_eq R a b = true) ms ms'.
  Proof.
    induction ms' as [|m' ms' IH]; intros [|m ms] i Hl Hi H; try discriminate Hl; [constructor|].
    cbn [map frozen_loop] in H. pose proof (Hi 0 m' eq_refl) as E. rewrite Nat.add_0_r in E. rewrite E in H.
    cbn [rbind] in H. destruct n as [|n]; [discriminate H|].
    change (oeq R (S n) (OMsg m) (OMsg m')) with (Ok (message_eq R m m')) in H. cbn [rbind] in H.
    destruct (message_eq R m m') eqn:F; [|discriminate H].
    constructor; [exact F|]. eapply IH; [cbn in Hl; congruence| |exact H].
    intros j x Hj. rewrite Nat.add_succ_l, <- Nat.add_succ_r. now apply (Hi (S j)).
  Qed.

  Lemma nth_map_msg ms j m : nth_error ms j = Some m -> nth_error (map OMsg ms) j = Some (OMsg m).
  Proof. intros H. rewrite nth_error_map, H. reflexivity. Qed.

  Lemma frozen_same n ms b : Forall (fun m => 1 < length (ms_summary m)) ms -> T b ->
    frozen_eq (oeq R n) (map OMsg ms) b = Ok true -> hash_same (OFrozenList (map OMsg ms)) b.
  Proof.
    intros Hm Hb H. unfold frozen_eq in H.
    assert (L : forall ms' o, (forall j m, nth_error ms' j = Some m -> item_at o j = Ok (OMsg m)) ->
              length ms = length ms' -> frozen_loop (oeq R n) (map OMsg ms) o 0 = Ok true ->
              hash_same (OFrozenList (map OMsg ms)) (OFrozenList (map OMsg ms'))).
    { intros ms' o Hi Hl Hf h. rewrite !ohash_list. erewrite messages_hash; [reflexivity|].
      eapply frozen_loop_msgs with (i := 0); eauto. }
    destruct Hb as [Hb|[t [-> Ht]]].
    - destruct (tidy_not_other _ Hb) as [[l ->]|[[d ->]|[c [e ->]]]].
      + apply tidy_list_inv in Hb as [ms' [-> _]]. cbn [size_of rbind] in H. rewrite !map_length in H.
        destruct (Nat.eqb_spec (length ms) (length ms')) as [E|]; [|discriminate H].
        eapply L; [|exact E|exact H]. intros j m Hj. cbn [item_at]. now rewrite (nth_map_msg _ _ _ Hj).
      + cbn [size_of rbind] in H. rewrite map_length in H.
        destruct (Nat.eqb_spec (length ms) (length d)) as [E|]; [|discriminate H].
        destruct ms as [|m ms]; [destruct d; [intros h; reflexivity|discriminate E]|].
        exfalso. cbn [map frozen_loop item_at] in H.
        destruct (dget (KInt (Z.of_nat 0)) d) as [o|] eqn:G; [|discriminate H]. cbn [rbind] in H.
        apply tidy_dict_inv in Hb as [_ Hb]. apply dget_In in G. rewrite Forall_forall in Hb.
        specialize (Hb _ G). cbn in Hb. inversion Hb as [x o' To|]; subst.
        destruct n as [|n]; [discriminate H|].
        destruct (tidy_not_other _ To) as [[l ->]|[[d' ->]|[c [e ->]]]]; discriminate H.
      + destruct (tidy_err_inv _ _ Hb) as [He [[l [-> Hc]]|[d [-> Hc]]]].
        * apply tidy_list_inv in He as [ms' [-> _]]. cbn [size_of] in H. rewrite Hc in H. cbn [rbind] in H.
          rewrite !map_length in H.
          destruct (Nat.eqb_spec (length ms) (length ms')) as [E|]; [|discriminate H].
          change (hash_same (OFrozenList (map OMsg ms)) (OFrozenList (map OMsg ms'))).
          eapply L; [|exact E|exact H]. intros j m Hj. cbn [item_at]. rewrite Hc. now rewrite (nth_map_msg _ _ _ Hj).
        * discriminate H.
    - exfalso. cbn [size_of rbind] in H. rewrite map_length in H.
      destruct (Nat.eqb_spec (length ms) (length t)) as [E|]; [|discriminate H].
      destruct t as [|x t]; [now apply Ht|]. destruct ms as [|m ms]; [discriminate E|].
      apply Forall_cons_iff in Hm as [Hm _]. cbn [map frozen_loop item_at nth_error rbind] in H.
      destruct n as [|n]; [discriminate H|].
      change (oeq R (S n) (OMsg m) (OStr [x])) with (Ok (pstr_eqb (ms_summary m) [x])) in H.
      cbn [rbind] in H. destruct (pstr_eqb (ms_summary m) [x]) eqn:F; [|discriminate H].
      apply pstr_eqb_eq in F. rewrite F in Hm. cbn in Hm. lia.
  Qed.

  Lemma map_loop_pairs (eq : eobj -> eobj -> res bool) d' d : map_loop eq d d' = Ok true ->
    Forall (fun p => exists w, dget (fst p) d' = Some w /\ eq (snd p) w = Ok true) d.
  Proof.
    induction d as [|[x v] r IH]; cbn; intros H; constructor.
    - cbn. destruct (dget x d') as [w|]; [|discriminate H]. exists w; split; [reflexivity|].
      destruct (eq v w) as [[]|]; try discriminate H. reflexivity.
    - apply IH. destruct (dget x d') as [w|]; [|discriminate H].
      destruct (eq v w) as [[]|]; try discriminate H. exact H.
  Qed.

  Lemma equal_hash n : forall a b, T a -> T b -> oeq R n a b = Ok true -> hash_same a b.
  Proof.
    induction n as [|n IH]; intros a b Ha Hb H; [discriminate H|]. cbn [oeq] in H.
    destruct Ha as [Ha|[s [-> Hs]]].
    - destruct (tidy_not_other _ Ha) as [[l ->]|[[d ->]|[c [e ->]]]].
      + destruct (tidy_list_inv _ Ha) as [ms [-> Hm]]. eapply frozen_same; [exact Hm|exact Hb|exact H].
      + destruct Hb as [Hb|[t [-> Ht]]]; [|discriminate H].
        destruct (tidy_not_other _ Hb) as [[l ->]|[[d' ->]|[c [e ->]]]].
        * destruct (tidy_list_inv _ Hb) as [ms [-> Hm]]. apply hash_same_sym.
          eapply frozen_same; [exact Hm|left; exact Ha|exact H].
        * cbn [eq_objs] in H. unfold map_eq in H.
          destruct (Nat.eqb_spec (length d) (length d')) as [E|]; [|discriminate H].
          apply map_loop_pairs in H. destruct (tidy_dict_inv _ Ha) as [Hn He].
          destruct (tidy_dict_inv _ Hb) as [_ He']. intros h. rewrite !ohash_dict.
          apply dict_same; [exact Hn|exact E|]. rewrite Forall_forall in H, He, He' |- *.
          intros p Hp. destruct (H p Hp) as [w [Hw Hq]]. exists w; split; [exact Hw|].
          apply IH; [eapply entry_T, He, Hp| |exact Hq].
          eapply entry_T, (He' _ (dget_In _ _ _ Hw)).
        * destruct (tidy_err_inv _ _ Hb) as [He _]. change (hash_same (OFrozenDict d) e).
          apply hash_same_sym. apply IH; [left; exact He|left; exact Ha|exact H].
      + destruct (tidy_err_inv _ _ Ha) as [He _].
        destruct b as [t|t|m|l|l|d|l|d|c' e'|v];
          try (change (hash_same e (OStr t)) || change (hash_same e (OFrozenList l)) ||
               change (hash_same e (OFrozenDict d)); apply IH; [left; exact He|exact Hb|exact H]);
          try (exfalso; destruct Hb as [Hb|[x [Hx _]]]; [|discriminate Hx];
               destruct (tidy_not_other _ Hb) as [[? X]|[[? X]|[? [? X]]]]; discriminate X).
        assert (Hb' : tidy (OErr c' e')) by (destruct Hb as [Hb|[x [Hx _]]]; [exact Hb|discriminate Hx]).
        destruct (tidy_err_inv _ _ Hb') as [He' _]. cbn [eq_objs] in H.
        destruct (ecls_eqb c c'); [|destruct (subclass c' c)].
        * change (hash_same e e'). apply IH; [left; exact He|left; exact He'|exact H].
        * change (hash_same e e'). apply hash_same_sym.
          change (hash_same e' (OErr c e)). apply IH; [left; exact He'|left; exact Ha|exact H].
        * change (hash_same e (OErr c' e')). apply IH; [left; exact He|exact Hb|exact H].
    - destruct Hb as [Hb|[t [-> Ht]]].
      + destruct (tidy_not_other _ Hb) as [[l ->]|[[d' ->]|[c [e ->]]]].
        * destruct (tidy_list_inv _ Hb) as [ms [-> Hm]]. apply hash_same_sym.
          eapply frozen_same; [exact Hm|right; eexists; eauto|exact H].
        * discriminate H.
        * destruct (tidy_err_inv _ _ Hb) as [He _]. apply hash_same_sym. change (hash_same e (OStr s)).
          apply IH; [left; exact He|right; eexists; eauto|exact H].
      + cbn in H. injection H as H. apply pstr_eqb_eq in H. subst. intros h; reflexivity.
  Qed.
End Hash.

(** *** Messages and texts *)
Lemma message_is_text R n m s :
  (oeq R (S n) (OMsg m) (OStr s) = Ok true <-> ms_summary m = s) /\
  (oeq R (S n) (OStr s) (OMsg m) = Ok true <-> ms_summary m = s).
Proof.
  cbn. rewrite <- pstr_eqb_eq. split; split; intros H; try injection H as H; congruence.
Qed.

Lemma any_equal_text R n s ms : any_equal R (S n) (map OMsg ms) (OStr s) = Ok (existsb (fun m => pstr_eqb (ms_summary m) s) ms).
Proof.
  induction ms as [|m r IH]; [reflexivity|]. cbn [map any_equal existsb].
  change (oeq R (S n) (OMsg m) (OStr s)) with (Ok (pstr_eqb (ms_summary m) s)).
  cbn [rbind]. destruct (pstr_eqb (ms_summary m) s); [reflexivity|exact IH].
Qed.

Lemma contains_text R n c args kw ps o s : is_field_cls c = true -> call_says c args kw ps ->
  field_error c args kw = Ok o ->
  exists t, contains R (S n) o (OStr s) = Ok t /\ (t = true <-> exists v, In (s, v) ps).
Proof.
  intros Hc Hs Ho. destruct (recorded_ex c) as [t Ht].
  rewrite (field_error_messages c args kw ps t Hc Ht Hs) in Ho. injection Ho as <-.
  cbn [contains]. rewrite Hc. rewrite <- (map_map (fun p => Msg (fst p) (Some t) (snd p)) OMsg).
  rewrite any_equal_text. eexists; split; [reflexivity|]. rewrite existsb_exists. split.
  - intros [m [Hm E]]. apply in_map_iff in Hm as [[s' v] [<- Hp]]. cbn in E. apply pstr_eqb_eq in E. subst. eauto.
  - intros [v Hv]. eexists; split; [apply in_map_iff; eexists; split; [reflexivity|exact Hv]|].
    cbn. apply pstr_eqb_refl.
Qed.

(** Only the errors of a single field can be searched. *)
Lemma contains_other R n c e x : is_field_cls c = false -> contains R n (OErr c e) x = Raise (XPy ETypeError).
Proof. intros H. cbn. destruct e; try reflexivity. now rewrite H. Qed.
