(** Candidates of polymorphic fields (C74). *)
From Verif.Model Require Import Py Core Meta.
From Verif.Spec Require Import CompoundSpec MetaSpec CandidateSpec.
From Verif.Proofs Require Import PolyLemmas MetaHeap MetaClass MetaFacts MetaOthers.

From Coq Require Import Lia FinFun.
Local Open Scope nat_scope.

(** The lines behind [all_subs]. *)
Fixpoint all_lines (n : nat) (P : program) (c : cid) : list (list cid) :=
  match n with
  | O => []
  | S m => flat_map (fun d => [d; c] :: map (fun l => l ++ [c]) (all_lines m P d)) (direct_subs P c)
  end.

Lemma all_lines_nonempty n P : forall c l, In l (all_lines n P c) -> l <> [].
Proof.
  induction n as [|n IH]; intros c l I; [contradiction|]. cbn in I. apply in_flat_map in I.
  destruct I as (d & _ & [<-|I]); [discriminate|]. apply in_map_iff in I. destruct I as (l' & <- & _). now destruct l'.
Qed.

Lemma all_lines_heads n P : forall c, map (hd 0%N) (all_lines n P c) = all_subs n P c.
Proof.
  induction n as [|n IH]; intros c; [reflexivity|]. cbn [all_lines all_subs].
  rewrite (flat_map_concat_map _ (direct_subs P c)), concat_map, map_map, <- flat_map_concat_map.
  apply flat_map_ext. intros d. cbn [map hd]. f_equal. rewrite <- IH, map_map. apply map_ext_in.
  intros l I. apply all_lines_nonempty in I. now destruct l.
Qed.

Lemma NoDup_direct P c : NoDup (direct_subs P c).
Proof.
  unfold direct_subs. apply NoDup_filter. apply FinFun.Injective_map_NoDup; [|apply seq_NoDup].
  intros x y E. now apply Nnat.Nat2N.inj.
Qed.

Lemma NoDup_app_intro {A} (l l' : list A) : NoDup l -> NoDup l' -> (forall x, In x l -> ~ In x l') -> NoDup (l ++ l').
Proof.
  intros N N' D. induction N as [|x l I N IH]; [exact N'|]. cbn. constructor.
  - rewrite in_app_iff. intros [J|J]; [now apply I|]. apply (D x); [now left|exact J].
  - apply IH. intros y J. apply D. now right.
Qed.

Lemma NoDup_flat_map {A B} (f : A -> list B) l : NoDup l -> (forall x, In x l -> NoDup (f x)) ->
  (forall x y z, In x l -> In y l -> In z (f x) -> In z (f y) -> x = y) -> NoDup (flat_map f l).
Proof.
  induction l as [|a l IH]; intros N F D; [constructor|]. cbn. inversion N as [|? ? I N']; subst.
  apply NoDup_app_intro.
  - apply F. now left.
  - apply IH; auto.
    + intros x J. apply F. now right.
    + intros x y z J K. apply D; now right.
  - intros z Z J. apply in_flat_map in J. destruct J as (x & X & Zx).
    assert (a = x) by (eapply D; eauto; [now left|now right]). subst. contradiction.
Qed.

(** The last but one class of a line. *)
Lemma all_lines_shape n P : forall c l, In l (all_lines n P c) -> exists d l0, In d (direct_subs P c) /\ l = l0 ++ [d; c].
Proof.
  induction n as [|n IH]; intros c l I; [contradiction|]. cbn in I. apply in_flat_map in I.
  destruct I as (d & D & [<-|I]); [now exists d, []|]. apply in_map_iff in I. destruct I as (l' & <- & I).
  apply IH in I. destruct I as (d' & l0 & _ & ->). exists d, (l0 ++ [d']). split; [exact D|].
  rewrite <- !app_assoc. reflexivity.
Qed.

Lemma all_lines_via n P c d : forall l, In l ([d; c] :: map (fun l => l ++ [c]) (all_lines n P d)) -> exists l0, l = l0 ++ [d; c].
Proof.
  intros l [<-|I]; [now exists []|]. apply in_map_iff in I. destruct I as (l' & <- & I). apply all_lines_shape in I.
  destruct I as (d' & l0 & _ & ->). exists (l0 ++ [d']). rewrite <- !app_assoc. reflexivity.
Qed.

Lemma all_lines_NoDup n P : forall c, NoDup (all_lines n P c).
Proof.
  induction n as [|n IH]; intros c; [constructor|]. cbn. apply NoDup_flat_map.
  - apply NoDup_direct.
  - intros d D. constructor.
    + intros I. apply in_map_iff in I. destruct I as (l & E & I). apply all_lines_shape in I.
      destruct I as (d' & l0 & _ & ->). rewrite <- app_assoc in E. apply (f_equal (@length cid)) in E.
      rewrite app_length in E. cbn in E. lia.
    + apply FinFun.Injective_map_NoDup; [|apply IH]. intros x y E. now apply app_inv_tail in E.
  - intros x y z X Y Zx Zy. apply all_lines_via in Zx. apply all_lines_via in Zy.
    destruct Zx as (l & ->), Zy as (l' & E). change [x; c] with ([x] ++ [c]) in E. change [y; c] with ([y] ++ [c]) in E.
    rewrite !app_assoc in E. apply app_inj_tail in E. destruct E as [E _]. apply app_inj_tail in E. now destruct E.
Qed.

Lemma line_derived P c l d : line P c l d -> derived P d c.
Proof. induction 1; [constructor|]. eapply derived_base; eauto. Qed.

Lemma line_head P c l d : line P c l d -> exists r, l = d :: r.
Proof. destruct 1; eexists; reflexivity. Qed.

Lemma line_snoc P c d k l e : class_at P d = Some k -> In c (cl_bases k) -> line P d l e -> line P c (l ++ [c]) e.
Proof.
  intros K I L. induction L as [|e b k' l K' I' L IH].
  - cbn. eapply line_up; eauto. constructor.
  - cbn. eapply line_up; eauto.
Qed.

Lemma line_last P c l e : line P c l e -> e = c /\ l = [c] \/
  exists d k l', class_at P d = Some k /\ In c (cl_bases k) /\ line P d l' e /\ l = l' ++ [c].
Proof.
  induction 1 as [|e b k l K I L IH]; [now left|]. right. destruct IH as [(-> & ->)|(d & k' & l' & K' & I' & L' & ->)].
  - exists e, k, [e]. repeat split; auto. constructor.
  - exists d, k', (e :: l'). repeat split; auto. eapply line_up; eauto.
Qed.

Lemma all_lines_sound n P : forall c l, In l (all_lines n P c) -> exists d, line P c l d.
Proof.
  induction n as [|n IH]; intros c l I; [contradiction|]. cbn in I. apply in_flat_map in I.
  destruct I as (d & D & I). apply direct_subs_spec in D. destruct D as (k & K & B). destruct I as [<-|I].
  - exists d. eapply line_up; eauto. constructor.
  - apply in_map_iff in I. destruct I as (l' & <- & I). apply IH in I. destruct I as (e & L). exists e.
    eapply line_snoc; eauto.
Qed.

Lemma all_lines_complete P : wf P -> forall n c l d, line P c l d -> d <> c -> N.to_nat d - N.to_nat c <= n ->
  In l (all_lines n P c).
Proof.
  intros W. induction n as [|n IH]; intros c l e L N B.
  - pose proof (derived_le P e c W (line_derived _ _ _ _ L)). assert (N.to_nat e = N.to_nat c) as E by lia.
    apply Nnat.N2Nat.inj in E. congruence.
  - destruct (line_last _ _ _ _ L) as [(-> & _)|(d & k & l' & K & I & L' & ->)]; [congruence|].
    cbn. apply in_flat_map. exists d. split; [apply direct_subs_spec; eauto|].
    destruct (N.eq_dec e d) as [->|Nd].
    + left. destruct (line_last _ _ _ _ L') as [(_ & ->)|(d2 & k2 & l2 & K2 & I2 & L2 & ->)]; [reflexivity|].
      apply line_derived, (derived_le P _ _ W) in L2. pose proof (w_bases P W _ _ _ K2 I2). lia.
    + right. apply in_map_iff. exists l'. split; [reflexivity|]. apply IH with (d := e); auto. pose proof (w_bases P W _ _ _ K I). lia.
Qed.

Lemma count_heads (d : cid) (ls : list (list cid)) :
  count_occ N.eq_dec (map (hd 0%N) ls) d = length (filter (fun l => N.eqb (hd 0%N l) d) ls).
Proof.
  induction ls as [|l ls IH]; [reflexivity|]. cbn. destruct (N.eq_dec (hd 0%N l) d) as [E|E].
  - rewrite E, N.eqb_refl. cbn. now rewrite IH.
  - apply N.eqb_neq in E. now rewrite E.
Qed.

(** How often a class is a candidate. *)
Theorem candidate_count P c d : made P -> class_at P d <> None ->
  exists L, NoDup L /\ (forall l, In l L <-> line P c l d) /\
    count_occ N.eq_dec (c :: e_subs (env_of P) c) d = length L.
Proof.
  intros M K. pose proof (made_wf P M) as W. cbn [env_of e_subs]. set (n := length (p_classes P)).
  assert (B : N.to_nat d - N.to_nat c <= n) by (unfold class_at in K; apply nth_error_Some in K; lia).
  pose (all := [c] :: all_lines n P c).
  assert (NA : NoDup all).
  { constructor; [|apply all_lines_NoDup]. intros I. apply all_lines_shape in I. destruct I as (x & l0 & _ & E).
    apply (f_equal (@length cid)) in E. rewrite app_length in E. cbn in E. lia. }
  exists (filter (fun l => N.eqb (hd 0%N l) d) all). split; [now apply NoDup_filter|]. split.
  - intros l. rewrite filter_In. split.
    + intros [I E]. apply N.eqb_eq in E. assert (exists e, line P c l e) as (e & Le).
      { destruct I as [<-|I]; [exists c; constructor|]. now apply all_lines_sound in I. }
      destruct (line_head _ _ _ _ Le) as (r & ->). cbn in E. now subst.
    + intros Le. destruct (line_head _ _ _ _ Le) as (r & ->). split; [|cbn; apply N.eqb_refl].
      destruct (N.eq_dec d c) as [->|N].
      * left. destruct (line_last _ _ _ _ Le) as [(_ & ->)|(d2 & k2 & l2 & K2 & I2 & L2 & E)]; [reflexivity|].
        apply line_derived, (derived_le P _ _ W) in L2. pose proof (w_bases P W _ _ _ K2 I2). lia.
      * right. eapply all_lines_complete; eauto.
  - rewrite <- count_heads. unfold all. cbn [map hd]. now rewrite all_lines_heads.
Qed.

Lemma line_unique P : wf P -> single P -> forall c l d, line P c l d -> forall l', line P c l' d -> l = l'.
Proof.
  intros W S c l d L. induction L as [|d b k l K I L IH]; intros l' L'.
  - inversion L' as [|? b k l1 K I L1]; subst; [reflexivity|].
    apply line_derived, (derived_le P _ _ W) in L1. pose proof (w_bases P W _ _ _ K I). lia.
  - inversion L' as [|? b' k' l1 K' I' L1]; subst.
    + apply line_derived, (derived_le P _ _ W) in L. pose proof (w_bases P W _ _ _ K I). lia.
    + rewrite K in K'. injection K' as <-. pose proof (S _ _ K) as Le.
      assert (b' = b) as ->.
      { destruct (cl_bases k) as [|x [|y r]]; cbn in *; [contradiction|intuition congruence|lia]. }
      f_equal. now apply IH.
Qed.

Lemma sub_exists P c d : In d (e_subs (env_of P) c) -> class_at P d <> None.
Proof.
  cbn. generalize (length (p_classes P)). intros n. revert c. induction n as [|n IH]; intros c I; [contradiction|].
  cbn in I. apply in_flat_map in I. destruct I as (d1 & I1 & [->|J]).
  - apply direct_subs_spec in I1. destruct I1 as (k & K & _). congruence.
  - eapply IH; eauto.
Qed.

(** Without multiple inheritance each class is a candidate once. *)
Theorem candidates_once P c : made P -> single P -> class_at P c <> None -> NoDup (c :: e_subs (env_of P) c).
Proof.
  intros M S Kc. apply (NoDup_count_occ N.eq_dec). intros d.
  destruct (in_dec N.eq_dec d (c :: e_subs (env_of P) c)) as [I|I].
  - assert (class_at P d <> None) as K by (destruct I as [<-|I]; [exact Kc|now apply sub_exists in I]).
    destruct (candidate_count P c d M K) as (L & N & HL & ->).
    destruct L as [|l1 [|l2 L]]; cbn; [lia|lia|]. exfalso. inversion N as [|? ? I1 _]; subst. apply I1. left.
    apply (line_unique P (made_wf P M) S c l2 d); apply HL; cbn; auto.
  - apply (count_occ_not_In N.eq_dec) in I. rewrite I. lia.
Qed.

(** ** The choice in a family *)
Lemma claimants_total E v cs : (forall c cl, In c cs -> mc_claim (e_class E c) = Some cl -> exists a, cl v = Ok a) ->
  exists l, claimants E v cs l /\ (forall c, In c l <-> In c cs /\ claims E v c) /\ (NoDup cs -> NoDup l).
Proof.
  induction cs as [|c cs IH]; intros H.
  - exists []. split; [constructor|]. split; [|intros; constructor]. intros c. cbn. tauto.
  - destruct IH as (l & L & I & N); [intros; eapply H; eauto; now right|].
    destruct (mc_claim (e_class E c)) as [cl|] eqn:K.
    + destruct (H c cl (or_introl eq_refl) K) as ([|] & A).
      * exists (c :: l). assert (claims E v c) as C by (exists cl; auto). split; [now constructor|]. split.
        -- intros d. cbn. rewrite I. split; [intros [<-|[J D]]|intros [[<-|J] D]]; auto.
        -- intros D. inversion D as [|? ? D1 D2]; subst. constructor; [|auto]. rewrite I. tauto.
      * exists l. assert (~ claims E v c) as C by (intros (cl' & K' & A'); congruence).
        split; [constructor; [exists cl; auto|exact L]|]. split.
        -- intros d. cbn. rewrite I. split; [intros [J D]; auto|intros [[<-|J] D]; [contradiction|auto]].
        -- intros D. inversion D; auto.
    + exists l. assert (~ claims E v c) as C by (intros (cl' & K' & A'); congruence).
      split; [constructor; [exact K|exact L]|]. split.
      * intros d. cbn. rewrite I. split; [intros [J D]; auto|intros [[<-|J] D]; [contradiction|auto]].
      * intros D. inversion D; auto.
Qed.

Lemma family_in P b c : made P -> class_at P b <> None ->
  (In c (b :: e_subs (env_of P) b) <-> class_at P c <> None /\ derived P c b).
Proof.
  intros M Kb. split.
  - intros [<-|I]; [split; [exact Kb|constructor]|]. pose proof (sub_exists _ _ _ I) as K. split; [exact K|].
    now apply all_subclasses_spec in I.
  - intros [K D]. destruct (N.eq_dec c b) as [->|N]; [now left|]. right. apply all_subclasses_spec; auto.
Qed.

Lemma considered_family P b : considered (env_of P) true [b] (b :: e_subs (env_of P) b).
Proof. rewrite <- (app_nil_r (e_subs (env_of P) b)). apply (con_cons (env_of P) true b [] []). constructor. Qed.

Section Family.
  Context (P : program) (b : cid) (v : pyval).
  Context (M : made P) (Kb : class_at P b <> None) (H : hooks_answer P b v).

  Lemma family_claimants : exists l, claimants (env_of P) v (b :: e_subs (env_of P) b) l /\
    (forall c, In c l <-> class_at P c <> None /\ derived P c b /\ claims (env_of P) v c) /\ (single P -> NoDup l).
  Proof using M Kb H.
    destruct (claimants_total (env_of P) v (b :: e_subs (env_of P) b)) as (l & L & I & N).
    { intros c cl J C. apply (family_in P b c M Kb) in J. destruct J as [Kc D]. now apply (H c cl). }
    exists l. split; [exact L|]. split.
    - intros c. rewrite I, (family_in P b c M Kb). tauto.
    - intros S. apply N. now apply candidates_once.
  Qed.

  (** The only class of the family that claims the value is chosen. *)
  Theorem family_choice c : single P -> class_at P c <> None -> derived P c b -> claims (env_of P) v c ->
    (forall d, class_at P d <> None -> derived P d b -> claims (env_of P) v d -> d = c) ->
    find_model (env_of P) (poly_of b) v = Ok c.
  Proof using M Kb H.
    intros S K D C U. destruct family_claimants as (l & L & I & N). specialize (N S).
    apply (find_model_spec (env_of P) (poly_of b) v c _ eq_refl (considered_family P b)). exists l. split; [exact L|]. left.
    assert (In c l) as Ic by (apply I; auto).
    destruct l as [|x [|y l]]; [contradiction|destruct Ic as [->|[]]; reflexivity|]. exfalso.
    assert (x = c) as -> by (destruct (proj1 (I x) (or_introl eq_refl)) as (? & ? & ?); auto).
    assert (y = c) as -> by (destruct (proj1 (I y) (or_intror (or_introl eq_refl))) as (? & ? & ?); auto).
    inversion N as [|? ? N1 _]. apply N1. now left.
  Qed.

  (** Two of them are one too many. *)
  Theorem family_ambiguous c d : class_at P c <> None -> derived P c b -> claims (env_of P) v c ->
    class_at P d <> None -> derived P d b -> claims (env_of P) v d -> c <> d ->
    find_model (env_of P) (poly_of b) v = Raise (XPy EGenericException).
  Proof using M Kb H.
    intros K D C K' D' C' N. destruct family_claimants as (l & L & I & _).
    apply (find_model_fails (env_of P) (poly_of b) v _ l eq_refl (considered_family P b) L). left.
    assert (In c l) as Ic by (apply I; auto). assert (In d l) as Id by (apply I; auto).
    destruct l as [|x [|y l]]; cbn in *; [contradiction| |lia]. intuition congruence.
  Qed.

  (** Nobody claims: the class itself, if it has no claim hook. *)
  Theorem family_fallback : no_hook (env_of P) b ->
    (forall d, class_at P d <> None -> derived P d b -> ~ claims (env_of P) v d) ->
    find_model (env_of P) (poly_of b) v = Ok b.
  Proof using M Kb H.
    intros O U. destruct family_claimants as (l & L & I & _).
    apply (find_model_spec (env_of P) (poly_of b) v b _ eq_refl (considered_family P b)). exists l. split; [exact L|]. right.
    split; [|exists [], (e_subs (env_of P) b); split; [reflexivity|split; [exact O|constructor]]].
    destruct l as [|x l]; [reflexivity|]. exfalso. destruct (proj1 (I x) (or_introl eq_refl)) as (K & D & C). now apply (U x).
  Qed.
End Family.

(** A class defined later is a candidate for the fields there are. *)
Theorem later_candidates P bases attrs own claim b : made P -> (forall x, In x bases -> class_at P x <> None) ->
  class_body P attrs -> class_at P b <> None ->
  (In (next_class P) (b :: e_subs (env_of (define_class P bases attrs own claim)) b) <->
   exists x, In x bases /\ derived P x b).
Proof.
  intros M B CB Kb. set (P' := define_class P bases attrs own claim).
  assert (made P') as M' by now constructor.
  assert (exists k, class_at P' (next_class P) = Some k /\ cl_bases k = bases) as (k & K & Bk).
  { unfold class_at, P', define_class, next_class. cbn [p_classes]. rewrite Nnat.Nat2N.id, nth_error_app2, Nat.sub_diag by lia.
    cbn. eexists. split; reflexivity. }
  assert (old : forall c, class_at P c <> None -> class_at P' c = class_at P c).
  { intros c Kc. unfold class_at in *. apply nth_error_Some in Kc. unfold P', define_class. cbn [p_classes].
    now rewrite nth_error_app1. }
  assert (up : forall x y, derived P x y -> derived P' x y).
  { induction 1 as [|x z y kx Kx Ix D IH]; [constructor|]. eapply derived_base; eauto. rewrite old; congruence. }
  assert (down : forall x y, derived P' x y -> class_at P x <> None -> derived P x y).
  { induction 1 as [|x z y kx Kx Ix D IH]; intros Ox; [constructor|]. rewrite old in Kx by exact Ox.
    eapply derived_base; eauto. apply IH. pose proof (w_bases P (made_wf P M) _ _ _ Kx Ix) as Lt.
    unfold class_at in *. apply nth_error_Some. apply nth_error_Some in Ox. lia. }
  assert (Nb : b <> next_class P).
  { intros ->. unfold class_at, next_class in Kb. apply nth_error_Some in Kb. rewrite Nnat.Nat2N.id in Kb. lia. }
  rewrite (family_in P' b (next_class P) M') by (rewrite old; auto). split.
  - intros [_ D]. inversion D as [E|? x ? k' K' I D' E1]; [congruence|]. rewrite K in K'. injection K' as <-.
    rewrite Bk in I. exists x. split; [exact I|]. apply down; auto.
  - intros (x & I & D). split; [congruence|]. apply derived_base with (b := x) (k := k); [exact K|now rewrite Bk|now apply up].
Qed.
