(** import_string (C75). *)
From Verif.Model Require Import Py Core Meta ByName.
From Verif.Spec Require Import ByNameSpec.
From Coq Require Import Lia.

Lemma rsplit_None s : rsplit_dot s = None <-> no_dot s.
Proof.
  unfold no_dot. induction s as [|c r IH]; cbn; [tauto|]. destruct (rsplit_dot r) as [[a b]|].
  - split; [discriminate|]. intros H. exfalso. destruct IH as [_ IH]. assert (~ In 46%N r) as N by tauto. now apply IH in N.
  - destruct (N.eqb_spec c 46) as [->|N]; [split; [discriminate|tauto]|]. intuition.
Qed.

Lemma rsplit_Some s a b : rsplit_dot s = Some (a, b) <-> s = a ++ 46%N :: b /\ no_dot b.
Proof.
  revert a b. induction s as [|c r IH]; intros a b; cbn.
  - split; [discriminate|]. intros [E _]. now destruct a.
  - destruct (rsplit_dot r) as [[a' b']|] eqn:R.
    + split.
      * intros [= <- <-]. destruct (proj1 (IH a' b') eq_refl) as [-> N]. auto.
      * intros [E N]. destruct a as [|c' a].
        -- injection E as -> ->. apply rsplit_None in N. congruence.
        -- injection E as -> E. assert (Some (a', b') = Some (a, b)) as X by now apply IH. now injection X as <- <-.
    + apply rsplit_None in R. destruct (N.eqb_spec c 46) as [->|C].
      * split; [intros [= <- <-]; auto|]. intros [E N]. destruct a as [|c' a]; [injection E as ->; reflexivity|].
        injection E as _ ->. exfalso. apply R. apply in_or_app. right. now left.
      * split; [discriminate|]. intros [E N]. destruct a as [|c' a]; [injection E as -> _; congruence|].
        injection E as -> ->. exfalso. apply R. apply in_or_app. right. now left.
Qed.

Lemma dotted_snoc m path x : dotted m (path ++ [x]) = dotted m path ++ 46%N :: x.
Proof. unfold dotted. rewrite flat_map_app, app_assoc. cbn. now rewrite app_nil_r. Qed.
Lemma dotted_app m p q : dotted m (p ++ q) = dotted (dotted m p) q.
Proof. unfold dotted. now rewrite flat_map_app, app_assoc. Qed.

Lemma attribute_snoc I path : forall o x, attribute I o (path ++ [x]) =
  match attribute I o path with Some o' => im_attr I o' x | None => None end.
Proof.
  induction path as [|y path IH]; intros o x; cbn; [now destruct (im_attr I o x)|].
  destruct (im_attr I o y); [apply IH|reflexivity].
Qed.

(** Splitting at dots is unique. *)
Lemma dotted_inj path2 : forall path1 m1 m2, Forall no_dot path1 -> Forall no_dot path2 ->
  dotted m1 path1 = dotted m2 path2 -> length path1 <= length path2 -> exists p, path2 = p ++ path1 /\ m1 = dotted m2 p.
Proof.
  induction path2 as [|x path2 IH] using rev_ind; intros path1 m1 m2 F1 F2 E L.
  - destruct path1; [|cbn in L; lia]. exists []. split; [reflexivity|]. unfold dotted in E at 1. cbn in E. now rewrite app_nil_r in E.
  - destruct path1 as [|y path1] using rev_ind; [exists (path2 ++ [x]); rewrite app_nil_r; split; [reflexivity|];
      now rewrite <- E; unfold dotted; rewrite app_nil_r|]. clear IHpath1.
    rewrite !dotted_snoc in E. apply Forall_app in F1, F2. destruct F1 as [F1 Fy], F2 as [F2 Fx].
    inversion Fy as [|? ? Ny _]; inversion Fx as [|? ? Nx _]; subst.
    assert (Some (dotted m1 path1, y) = Some (dotted m2 path2, x)) as X.
    { rewrite <- (proj2 (rsplit_Some _ _ _) (conj eq_refl Ny)), <- (proj2 (rsplit_Some _ _ _) (conj eq_refl Nx)). now rewrite E. }
    injection X as X ->. rewrite !app_length in L. cbn in L.
    destruct (IH path1 m1 m2 F1 F2 X ltac:(lia)) as (p & -> & ->). exists p. now rewrite app_assoc.
Qed.

Lemma longest_unique I name m1 path1 m2 path2 : longest I name m1 path1 -> longest I name m2 path2 -> m1 = m2 /\ path1 = path2.
Proof.
  assert (forall m1 path1 m2 path2, longest I name m1 path1 -> longest I name m2 path2 -> length path1 <= length path2 ->
    m1 = m2 /\ path1 = path2) as H.
  { intros a p b q [E1 F1 B1 N1] [E2 F2 B2 N2] L. subst name.
    destruct (dotted_inj q p a b F1 F2 E2 L) as (r & -> & ->). destruct r as [|x r].
    - split; [|reflexivity]. unfold dotted. now rewrite app_nil_r.
    - exfalso. apply N1. apply (B2 (x :: r) p); [reflexivity|discriminate]. }
  intros L1 L2. destruct (Nat.le_ge_cases (length path1) (length path2)) as [L|L]; [now apply H|].
  destruct (H _ _ _ _ L2 L1 L) as [-> ->]. auto.
Qed.

(** What the import of the longest importable part leads to. *)
Definition outcome (I : importer) (m : pstr) (path : list pstr) : imported :=
  match im_module I m with
  | Found o => match attribute I o path with Some x => Found x | None => NotFound end
  | r => r
  end.

Lemma import_cases I n : forall name, length name <= n ->
  (exists m path, longest I name m path /\ import_dotted I n name = outcome I m path) \/
  (forall m path, name = dotted m path -> Forall no_dot path -> im_module I m = NotFound) /\ import_dotted I n name = NotFound.
Proof.
  induction n as [|n IH]; intros name L.
  - destruct name as [|]; [|cbn in L; lia]. cbn. destruct (im_module I []) as [o| |e] eqn:M.
    + left. exists [], []. unfold outcome. rewrite M. split; [|reflexivity].
      split; [reflexivity|constructor| |congruence]. intros p q E N. now destruct p.
    + right. split; [|reflexivity]. intros m path E _. unfold dotted in E. symmetry in E. apply app_eq_nil in E. now destruct E as [-> _].
    + left. exists [], []. unfold outcome. rewrite M. split; [|reflexivity].
      split; [reflexivity|constructor| |congruence]. intros p q E N. now destruct p.
  - cbn [import_dotted].
    assert (self : im_module I name <> NotFound -> longest I name name []).
    { intros N. split; [unfold dotted; now rewrite app_nil_r|constructor| |exact N]. intros p q E K. now destruct p. }
    destruct (im_module I name) as [o| |e] eqn:M.
    + left. exists name, []. unfold outcome. rewrite M. split; [apply self; discriminate|reflexivity].
    + destruct (rsplit_dot name) as [[a b]|] eqn:R.
      * apply rsplit_Some in R. destruct R as [-> Nb].
        assert (La : length a <= n) by (rewrite app_length in L; cbn in L; lia).
        assert (eq : (match im_module I a with NotFound => import_dotted I n a | r => r end) = import_dotted I n a).
        { destruct (im_module I a) as [o| |e] eqn:Ma; [| reflexivity |]; destruct n; cbn; now rewrite Ma. }
        rewrite eq. clear eq. destruct (IH a La) as [(m & path & [E F B N] & O)|(H & O)].
        -- left. exists m, (path ++ [b]). split.
           ++ split; [now rewrite dotted_snoc, <- E|apply Forall_app; auto| |exact N].
              intros p q K Np. destruct q as [|y q] using rev_ind.
              ** rewrite app_nil_r in K. subst p. now rewrite dotted_snoc, <- E.
              ** clear IHq. rewrite app_assoc in K. apply app_inj_tail in K. destruct K as [K _]. now apply (B p q).
           ++ rewrite O. unfold outcome. destruct (im_module I m) as [o| |e]; [|reflexivity|reflexivity].
              rewrite attribute_snoc. destruct (attribute I o path) as [o'|]; [|reflexivity]. now destruct (im_attr I o' b).
        -- right. rewrite O. split; [|reflexivity]. intros m path E F. destruct path as [|y path] using rev_ind.
           ++ unfold dotted in E. cbn in E. rewrite app_nil_r in E. now subst m.
           ++ clear IHpath. rewrite dotted_snoc in E. apply Forall_app in F. destruct F as [F Fy]. inversion Fy as [|? ? Ny _]; subst.
              assert (Some (a, b) = Some (dotted m path, y)) as X.
              { rewrite <- (proj2 (rsplit_Some _ _ _) (conj eq_refl Nb)), <- (proj2 (rsplit_Some _ _ _) (conj eq_refl Ny)). now rewrite E. }
              injection X as -> _. now apply (H m path).
      * right. split; [|reflexivity]. apply rsplit_None in R. intros m path E F. destruct path as [|y path].
        -- unfold dotted in E. cbn in E. rewrite app_nil_r in E. now subst m.
        -- exfalso. apply R. rewrite E. unfold dotted. apply in_or_app. right. now left.
    + left. exists name, []. unfold outcome. rewrite M. split; [apply self; discriminate|reflexivity].
Qed.

Lemma import_longest I name m path : longest I (colons_to_dots name) m path -> import_string I name = outcome I m path.
Proof.
  intros L. unfold import_string. destruct (import_cases I _ (colons_to_dots name) (le_n _)) as [(m' & path' & L' & E)|(H & _)].
  - destruct (longest_unique _ _ _ _ _ _ L L') as [-> ->]. exact E.
  - exfalso. destruct L as [E F _ N]. now apply N, (H m path).
Qed.

Theorem import_found I name o : import_string I name = Found o <->
  exists m path o', longest I (colons_to_dots name) m path /\ im_module I m = Found o' /\ attribute I o' path = Some o.
Proof.
  split.
  - intros H. destruct (import_cases I _ (colons_to_dots name) (le_n _)) as [(m & path & L & E)|(_ & E)];
      unfold import_string in H; rewrite E in H; [|discriminate].
    unfold outcome in H. destruct (im_module I m) as [o'| |] eqn:M; try discriminate.
    destruct (attribute I o' path) as [x|] eqn:A; [|discriminate]. injection H as ->. exists m, path, o'. auto.
  - intros (m & path & o' & L & M & A). rewrite (import_longest I name m path L). unfold outcome. now rewrite M, A.
Qed.

Theorem import_broken I name e : import_string I name = Broken e <->
  exists m path, longest I (colons_to_dots name) m path /\ im_module I m = Broken e.
Proof.
  split.
  - intros H. destruct (import_cases I _ (colons_to_dots name) (le_n _)) as [(m & path & L & E)|(_ & E)];
      unfold import_string in H; rewrite E in H; [|discriminate].
    unfold outcome in H. destruct (im_module I m) as [o'| |] eqn:M; try discriminate.
    + destruct (attribute I o' path); discriminate.
    + injection H as ->. eauto.
  - intros (m & path & L & M). rewrite (import_longest I name m path L). unfold outcome. now rewrite M.
Qed.

Theorem import_not_found I name : import_string I name = NotFound <->
  (forall m path, colons_to_dots name = dotted m path -> Forall no_dot path -> im_module I m = NotFound) \/
  exists m path o, longest I (colons_to_dots name) m path /\ im_module I m = Found o /\ attribute I o path = None.
Proof.
  split.
  - intros H. destruct (import_cases I _ (colons_to_dots name) (le_n _)) as [(m & path & L & E)|(N & E)];
      [|now left]. unfold import_string in H; rewrite E in H. unfold outcome in H.
    destruct (im_module I m) as [o'| |] eqn:M; try discriminate.
    + destruct (attribute I o' path) as [x|] eqn:A; [discriminate|]. right. exists m, path, o'. auto.
    + exfalso. destruct L as [_ _ _ N]. congruence.
  - intros [H|(m & path & o & L & M & A)].
    + destruct (import_cases I _ (colons_to_dots name) (le_n _)) as [(m & path & [E F _ N] & _)|(_ & E)]; [|exact E].
      exfalso. apply N. now apply (H m path).
    + rewrite (import_longest I name m path L). unfold outcome. now rewrite M, A.
Qed.

(** A colon is as good as a dot. *)
Theorem import_colon I a b : import_string I (a ++ 58%N :: b) = import_string I (a ++ 46%N :: b).
Proof. unfold import_string, colons_to_dots. now rewrite !map_app. Qed.
