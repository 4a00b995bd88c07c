(** Facts about enumerations. *)
From Verif.Model Require Import Py Core Num Equality Types Enum.
From Verif.Spec Require Import EnumSpec TypeSpec.
From Verif.Proofs Require Import DictLemmas EqLemmas.

Lemma named_in l s m : enum_named l s = Some m -> In (s, m) l.
Proof.
  induction l as [|[x y] l IH]; cbn; [discriminate|]. destruct (pstr_eqb s x) eqn:E.
  - apply pstr_eqb_eq in E. subst. intros [= <-]. auto.
  - auto.
Qed.
Lemma in_named l s m : NoDup (map fst l) -> In (s, m) l -> enum_named l s = Some m.
Proof.
  induction l as [|[x y] l IH]; cbn; [intros _ []|]. intros N [[= -> ->]|H]; [now rewrite pstr_eqb_refl|].
  inversion N as [|? ? N1 N2]; subst. destruct (pstr_eqb s x) eqn:E; [|auto].
  apply pstr_eqb_eq in E. subst. exfalso. apply N1. now apply (in_map fst) in H.
Qed.
Lemma valued_in l v m : enum_valued l v = Some m -> In (fst m, m) l /\ atom_eq (key_val (snd m)) v = true.
Proof.
  induction l as [|[x y] l IH]; cbn; [discriminate|]. destruct (pstr_eqb x (fst y)) eqn:E; cbn.
  - apply pstr_eqb_eq in E. subst. destruct (atom_eq (key_val (snd y)) v) eqn:A; [intros [= <-]; auto|].
    intros H. apply IH in H as [? ?]. auto.
  - intros H. apply IH in H as [? ?]. auto.
Qed.
Lemma in_valued l v m : In (fst m, m) l -> atom_eq (key_val (snd m)) v = true -> exists m', enum_valued l v = Some m'.
Proof.
  induction l as [|[x y] l IH]; cbn; [intros []|]. intros [[= -> ->]|H] A.
  - rewrite pstr_eqb_refl, A. cbn. eauto.
  - destruct (_ && _); eauto.
Qed.
Lemma key_atom a b : atom_eq (key_val a) (key_val b) = true <-> a = b.
Proof.
  destruct a as [s|z], b as [t|y]; cbn; try (split; discriminate).
  - rewrite pstr_eqb_eq. split; congruence.
  - rewrite Z.eqb_eq. split; [intros H; f_equal; lia|intros [= ->]; reflexivity].
Qed.

Lemma by_name c uv m : good_class c -> is_member c m -> enum_native c uv (VStr (fst m)) = Ok (enum_member c m).
Proof. intros (N & _ & _) M. unfold enum_native. cbn [find_by_name]. now rewrite (in_named _ _ _ N M). Qed.
Lemma by_alias c uv x m : good_class c -> In (x, m) (ec_members c) -> enum_native c uv (VStr x) = Ok (enum_member c m).
Proof. intros (N & _ & _) M. unfold enum_native. cbn [find_by_name]. now rewrite (in_named _ _ _ N M). Qed.
Lemma by_value c m : good_class c -> is_member c m ->
  (forall m', In m' (ec_members c) -> snd m = KStr (fst m') -> snd m' = m) ->
  enum_native c true (key_val (snd m)) = Ok (enum_member c m).
Proof.
  intros (N & A & D) M S. unfold enum_native.
  assert (K : find_by_value c true (key_val (snd m)) = Some m).
  { cbn [find_by_value]. destruct (in_valued (ec_members c) (key_val (snd m)) m M) as [m' H]; [now apply key_atom|].
    rewrite H. apply valued_in in H as [H1 H2]. apply key_atom in H2. f_equal. now apply D. }
  replace (match key_val (snd m) with VEnum i _ _ => N.eqb i (ec_id c) | _ => false end) with false by (now destruct (snd m)).
  rewrite K. destruct (find_by_name c (key_val (snd m))) as [m'|] eqn:F; [|reflexivity].
  destruct m as [n [s|z]]; cbn in F; [|discriminate]. apply named_in in F. specialize (S (s, m') F eq_refl). cbn in S. now rewrite S.
Qed.
Lemma result_member c uv v w : good_class c -> enum_native c uv v = Ok w ->
  w = v \/ exists m, is_member c m /\ w = enum_member c m.
Proof.
  intros (N & A & D). unfold enum_native. destruct (match v with VEnum i _ _ => N.eqb i (ec_id c) | _ => false end).
  - intros [= <-]. auto.
  - destruct (find_by_name c v) as [m|] eqn:F.
    + intros [= <-]. right. exists m. split; [|reflexivity]. destruct v; try discriminate F. apply named_in in F. eauto.
    + destruct (find_by_value c uv v) as [m|] eqn:G; [|discriminate]. intros [= <-]. right. exists m. split; [|reflexivity].
      destruct uv; [|discriminate G]. now apply valued_in in G.
Qed.
Lemma enum_accepts c uv v : good_class c ->
  (exists w, enum_native c uv v = Ok w) <->
  (exists n x, v = VEnum (ec_id c) n x) \/ (exists s m, v = VStr s /\ In (s, m) (ec_members c)) \/
  (uv = true /\ exists m, is_member c m /\ atom_eq (key_val (snd m)) v = true).
Proof.
  intros (N & A & D). unfold enum_native. split.
  - intros [w H]. destruct (match v with VEnum i _ _ => N.eqb i (ec_id c) | _ => false end) eqn:E.
    + destruct v; try discriminate E. apply N.eqb_eq in E. subst. eauto.
    + destruct (find_by_name c v) as [m|] eqn:F.
      * destruct v; try discriminate F. apply named_in in F. eauto 10.
      * destruct (find_by_value c uv v) as [m|] eqn:G; [|discriminate]. destruct uv; [|discriminate G].
        apply valued_in in G as [G1 G2]. eauto 10.
  - intros [(n & x & ->)|[(s & m & -> & H)|(-> & m & M & H)]].
    + rewrite N.eqb_refl. eauto.
    + cbn [find_by_name]. rewrite (in_named _ _ _ N H). eauto.
    + destruct (match v with VEnum i _ _ => N.eqb i (ec_id c) | _ => false end); [eauto|].
      destruct (find_by_name c v); [eauto|]. cbn [find_by_value]. destruct (in_valued _ _ _ M H) as [m' ->]. eauto.
Qed.
Lemma enum_idempotent R c uv v w : lf_native (enum_type R c uv) v = Ok w -> lf_native (enum_type R c uv) w = Ok w.
Proof.
  cbn [lf_native enum_type]. unfold enum_native at 1. destruct (match v with VEnum i _ _ => N.eqb i (ec_id c) | _ => false end) eqn:E.
  - intros [= <-]. unfold enum_native. now rewrite E.
  - assert (K : forall m, enum_native c uv (enum_member c m) = Ok (enum_member c m)).
    { intros m. unfold enum_native, enum_member. now rewrite N.eqb_refl. }
    destruct (find_by_name c v) as [m|]; [intros [= <-]; apply K|].
    destruct (find_by_value c uv v) as [m|]; [intros [= <-]; apply K|discriminate].
Qed.
Lemma enum_round_name R c m : good_class c -> is_member c m ->
  rbind (enum_prim R false (enum_member c m)) (enum_native c false) = Ok (enum_member c m).
Proof. intros G M. cbn [enum_prim enum_member rbind]. now apply by_name. Qed.
Lemma enum_round_value R c m : good_class c -> is_member c m ->
  (forall m', In m' (ec_members c) -> snd m = KStr (fst m') -> snd m' = m) ->
  rbind (enum_prim R true (enum_member c m)) (enum_native c true) = Ok (enum_member c m).
Proof. intros G M S. cbn [enum_prim enum_member rbind]. now apply by_value. Qed.
