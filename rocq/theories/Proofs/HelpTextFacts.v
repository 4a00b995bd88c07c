(** Help texts: proofs. *)
From Verif.Model Require Import Py Core Atoms Text HelpText.
From Verif.Spec Require Import HelpTextSpec.
From Verif.Proofs Require Import DictLemmas.
From Verif.Conformance Require Import Sample.
From Coq Require Import Lia FinFun.

(** *** Trimming *)
Lemma drop_split p l : exists a, l = a ++ drop p l /\ Forall (fun c => p c = true) a /\ forall c r, drop p l = c :: r -> p c = false.
Proof.
  induction l as [|c l [a (E & F & H)]]; cbn.
  - exists []. repeat split; [constructor|discriminate].
  - destruct (p c) eqn:P.
    + exists (c :: a). cbn. rewrite <- E. repeat split; [now constructor|exact H].
    + exists []. repeat split; [constructor|]. intros c' r [= <- <-]. exact P.
Qed.
Lemma strip_trimmed p s : trimmed p s (strip p s).
Proof.
  unfold strip. destruct (drop_split p s) as [a (E & F & H)].
  destruct (drop_split p (rev (drop p s))) as [b (E' & F' & H')].
  set (d := drop p (rev (drop p s))) in *.
  assert (E2 : drop p s = rev d ++ rev b) by (rewrite <- rev_app_distr, <- E'; symmetry; apply rev_involutive).
  exists a, (rev b). repeat split.
  - now rewrite <- E2.
  - apply Forall_app. split; [exact F|]. now apply Forall_rev.
  - intros c r Hd. rewrite Hd in E2. eapply H. rewrite E2. reflexivity.
  - intros c r Hd. apply (H' c (rev r)). rewrite <- (rev_involutive d), Hd, rev_app_distr. reflexivity.
  - intros Hd. rewrite Hd in E2. cbn in E2. destruct (rev b) as [|c r] eqn:B; [reflexivity|].
    pose proof (H c r E2) as X. assert (Y : Forall (fun c => p c = true) (rev b)) by now apply Forall_rev.
    rewrite B in Y. apply Forall_cons_iff in Y as [Y _]. congruence.
Qed.
Lemma trimmed_front (p : N -> bool) : forall a a' x y, a ++ x = a' ++ y -> Forall (fun c => p c = true) a -> Forall (fun c => p c = true) a' ->
  (forall c r, x = c :: r -> p c = false) -> (forall c r, y = c :: r -> p c = false) -> x = y.
Proof.
  induction a as [|c a IH]; intros a' x y E F F' H H'.
  - destruct a' as [|c' a']; [exact E|]. cbn in E. apply Forall_cons_iff in F' as [F' _]. rewrite (H c' (a' ++ y) E) in F'. discriminate.
  - apply Forall_cons_iff in F as [P F]. destruct a' as [|c' a'].
    + cbn in E. rewrite (H' c (a ++ x) (eq_sym E)) in P. discriminate.
    + apply Forall_cons_iff in F' as [_ F']. injection E as -> E. eapply IH; eauto.
Qed.
Lemma trimmed_unique p s d d' : trimmed p s d -> trimmed p s d' -> d = d'.
Proof.
  intros (a & b & E & F & H1 & H2 & H3) (a' & b' & E' & F' & H1' & H2' & H3').
  apply Forall_app in F as [Fa Fb]. apply Forall_app in F' as [Fa' Fb'].
  assert (X : d ++ b = d' ++ b').
  { eapply (trimmed_front p a a'); [congruence|assumption|assumption| |]; intros c r Hc.
    - destruct d; cbn in Hc; [|injection Hc as -> _; now eapply H1]. rewrite H3 in Hc; [discriminate|reflexivity].
    - destruct d'; cbn in Hc; [|injection Hc as -> _; now eapply H1']. rewrite H3' in Hc; [discriminate|reflexivity]. }
  apply (f_equal (@rev N)) in X. rewrite !rev_app_distr in X.
  rewrite <- (rev_involutive d), <- (rev_involutive d'). f_equal.
  eapply (trimmed_front p (rev b) (rev b')); [exact X|now apply Forall_rev|now apply Forall_rev| |]; intros c r Hc.
  - apply (H2 c (rev r)). now rewrite <- (rev_involutive d), Hc.
  - apply (H2' c (rev r)). now rewrite <- (rev_involutive d'), Hc.
Qed.
Lemma strip_iff p s d : strip p s = d <-> trimmed p s d.
Proof. split; [intros <-; apply strip_trimmed|intros H; eapply trimmed_unique; [apply strip_trimmed|exact H]]. Qed.

(** *** Lines *)
Lemma join_lines l r : lines (l :: r) (join nl (l :: r)).
Proof.
  revert l. induction r as [|x r IH]; intros l; [constructor|]. change (join nl (l :: x :: r)) with (l ++ nl ++ join nl (x :: r)).
  constructor. apply IH.
Qed.
Lemma lines_join ls t : lines ls t -> t = join nl ls.
Proof.
  induction 1 as [l|l r t H IH]; [reflexivity|]. subst t. destruct r as [|x r]; [inversion H|reflexivity].
Qed.
Lemma lines_iff l r t : join nl (l :: r) = t <-> lines (l :: r) t.
Proof. split; [intros <-; apply join_lines|intros H; symmetry; now apply lines_join]. Qed.

(** *** Indentation *)
Lemma line_break_iff c : line_break c = true <-> ends_line c.
Proof.
  unfold line_break, ends_line. rewrite !Bool.orb_true_iff, !Bool.andb_true_iff, !N.leb_le, !N.eqb_eq. cbn [In]. lia.
Qed.
Definition indent (ls : list pstr) : pstr := concat (map (fun l => u "    " ++ l) ls).
Lemma split_indented s : (forall cur, cur <> [] -> exists t, indent (splitlines cur s) = sp4 ++ cur ++ t /\ indented false s t) /\
  indented true s (indent (splitlines [] s)).
Proof.
  remember (length s) as n eqn:Hn. assert (Le : length s <= n) by lia. clear Hn. revert s Le.
  induction n as [|n IH]; intros s Le.
  - destruct s; [|cbn in Le; lia]. split.
    + intros [|c cur] H; [congruence|]. exists []. cbn. rewrite app_nil_r. split; [reflexivity|constructor].
    + constructor.
  - destruct s as [|c s]; [split|].
    + intros [|c cur] H; [congruence|]. exists []. cbn. rewrite app_nil_r. split; [reflexivity|constructor].
    + constructor.
    + cbn in Le.
      assert (A : forall cur, exists t, indent (splitlines cur (c :: s)) = sp4 ++ cur ++ t /\ indented false (c :: s) t).
      { intros cur. cbn [splitlines]. destruct (line_break c) eqn:B.
        - apply line_break_iff in B. destruct s as [|d s].
          + exists [c]. cbn. rewrite app_nil_r. split; [reflexivity|]. constructor; [exact B|congruence|constructor].
          + destruct ((c =? 13) && (d =? 10))%N eqn:CR.
            * apply andb_prop in CR as [C D]. apply N.eqb_eq in C, D. subst c d.
              destruct (IH s) as [_ I]; [cbn in Le; lia|]. exists (13%N :: 10%N :: indent (splitlines [] s)).
              split; [|now constructor]. unfold indent. cbn [map concat]. rewrite <- !app_assoc. reflexivity.
            * destruct (IH (d :: s)) as [_ I]; [lia|]. exists (c :: indent (splitlines [] (d :: s))).
              split; [unfold indent; cbn [map concat]; rewrite <- !app_assoc; reflexivity|]. constructor; [exact B| |exact I].
              intros -> r [= -> _]. discriminate CR.
        - destruct (IH s) as [I _]; [lia|]. destruct (I (cur ++ [c])) as (t & E & J); [destruct cur; discriminate|].
          exists (c :: t). split; [rewrite E; rewrite <- !app_assoc; reflexivity|]. constructor; [|exact J].
          intros X. apply line_break_iff in X. congruence. }
      split; [intros cur _; apply A|]. destruct (A []) as (t & E & J). rewrite E. cbn [app]. constructor. exact J.
Qed.
Lemma indented_fun b s t : indented b s t -> forall t', indented b s t' -> t = t'.
Proof.
  induction 1 as [b|c s t _ IH|s t _ IH|c s t B N _ IH|c s t B _ IH]; intros t' H'.
  - now inversion H'.
  - inversion H'; subst. f_equal. now apply IH.
  - inversion H' as [| |s0 t0 H0|c0 s0 t0 B0 N0 H0|c0 s0 t0 B0 H0]; subst.
    + do 2 f_equal. now apply IH.
    + now destruct (N0 eq_refl s).
    + exfalso. apply B0. cbv. auto 10.
  - inversion H' as [| |s0 t0 H0|c0 s0 t0 B0 N0 H0|c0 s0 t0 B0 H0]; subst.
    + now destruct (N eq_refl s0).
    + f_equal. now apply IH.
    + contradiction.
  - inversion H' as [| |s0 t0 H0|c0 s0 t0 B0 N0 H0|c0 s0 t0 B0 H0]; subst.
    + exfalso. apply B. cbv. auto 10.
    + contradiction.
    + f_equal. now apply IH.
Qed.

(** *** The mixin *)
Section Facts.
  Context (U : Text.unicode) (fmt : pyval -> pstr) (dedent fill : pstr -> pstr).
  Context (meta : field -> list (key * pyval)) (native_name : field -> option pstr).
  Definition entry_of (nf : pstr * field) : key * entry :=
    (KStr (fst nf), Ent (KStr (fst nf)) (get_default "label" (VStr (fst nf)) (meta (snd nf)))
       (get_default "example" VNone (meta (snd nf))) (get_default "description" VNone (meta (snd nf))) (Some (snd nf))).
  Lemma drain_at fs r : drain fs (S (length r)) (GAt r) = map (fun nf => At (Some (fst nf)) (Some (snd nf)) VUndef) r.
  Proof. induction r as [|[n f] r IH]; [reflexivity|]. cbn [map fst snd]. rewrite <- IH. reflexivity. Qed.
  Lemma drain_all fs : drain fs (S (length fs)) GStart = map (fun nf => At (Some (fst nf)) (Some (snd nf)) VUndef) fs.
  Proof. rewrite <- (drain_at fs). destruct fs; reflexivity. Qed.
  Lemma fold_entries l : forall d, NoDup (map fst d ++ map (fun nf => KStr (fst nf)) l) ->
    fold_left (fun d a => match atom_entry meta a with Some (n, e) => dset n e d | None => d end)
      (map (fun nf => At (Some (fst nf)) (Some (snd nf)) VUndef) (keyed l)) d = d ++ map entry_of l.
  Proof.
    induction l as [|[n f] l IH]; intros d N; cbn -[atom_entry]; [now rewrite app_nil_r|].
    cbn [atom_entry at_name at_field]. cbn in N. rewrite dkeys_dset_new.
    - rewrite IH.
      + rewrite <- app_assoc. reflexivity.
      + rewrite map_app. cbn. rewrite <- app_assoc. exact N.
    - apply NoDup_remove_2 in N. intros X. apply N. apply in_or_app. now left.
  Qed.
  Lemma metadata_all l : NoDup (map fst l) -> all_metadata meta (keyed l) = map entry_of l.
  Proof.
    intros N. unfold all_metadata. rewrite drain_all. rewrite fold_entries; [reflexivity|]. cbn.
    rewrite <- (map_map fst KStr). apply Injective_map_NoDup; [intros a b [= ->]; reflexivity|exact N].
  Qed.

  Lemma told_iff f x v : told meta f x v <-> get_default x VNone (meta f) = v.
  Proof.
    unfold get_default. split.
    - intros [w H|H]; unfold said, unsaid in H; now rewrite H.
    - destruct (dget (k x) (meta f)) eqn:E; intros <-; [now apply told_given|now apply told_none].
  Qed.
  Lemma told_default f x : told meta f x (get_default x VNone (meta f)).
  Proof. now apply told_iff. Qed.
  Lemma label_iff n f v : label_of meta n f v <-> get_default "label" (VStr n) (meta f) = v.
  Proof.
    unfold get_default. split.
    - intros [w H|H]; unfold said, unsaid in H; now rewrite H.
    - destruct (dget (k "label") (meta f)) eqn:E; intros <-; [now apply lab_given|now apply lab_name].
  Qed.
  Lemma is_none_iff v : is_none v = true <-> v = VNone.
  Proof. destruct v; cbn; split; congruence. Qed.
  Lemma field_help_iff nf ls : entry_lines fmt (snd (entry_of nf)) = ls <-> field_help fmt meta nf ls.
  Proof.
    destruct nf as [n f]. unfold entry_lines, entry_of, field_help. cbn [fst snd en_label en_name en_value en_desc name_text app].
    set (lab := get_default "label" (VStr n) (meta f)). set (ex := get_default "example" VNone (meta f)).
    set (d := get_default "description" VNone (meta f)).
    split.
    - intros <-. eexists _, _. split; [|split; [|reflexivity]].
      + destruct (truthy lab) eqn:T; econstructor; [now apply label_iff|exact T|now apply label_iff|exact T].
      + destruct (is_none ex) eqn:I; cbn [negb orb app].
        * apply is_none_iff in I. destruct (truthy d) eqn:T; cbn [negb app].
          -- econstructor; [|apply told_default|exact T]. now apply told_iff.
          -- eapply ml_nothing; [|apply told_default|exact T]. now apply told_iff.
        * assert (ex <> VNone) by (intros X; apply is_none_iff in X; congruence).
          destruct (truthy d) eqn:T; cbn [negb app].
          -- eapply (ml_both fmt meta f ex d); [now apply told_iff|assumption|apply told_default|exact T].
          -- eapply (ml_example fmt meta f ex d); [now apply told_iff|assumption|apply told_default|exact T].
    - intros (a & b & A & B & ->). f_equal.
      + inversion A as [v L T|v L T]; apply label_iff in L; fold lab in L; subst v; rewrite T; reflexivity.
      + inversion B as [v w V V0 W T|v w V V0 W T|w V W T|w V W T];
          apply told_iff in V, W; fold ex in V; fold d in W; rewrite V, W in *; rewrite T; cbn [is_none negb orb app];
          try (destruct (is_none v) eqn:I; [apply is_none_iff in I; contradiction|]); reflexivity.
  Qed.
  Lemma helps_iff l ls : map (fun p => entry_lines fmt (snd p)) (map entry_of l) = ls <-> Forall2 (field_help fmt meta) l ls.
  Proof.
    revert ls. induction l as [|nf l IH]; intros ls; cbn.
    - split; [intros <-; constructor|intros H; now inversion H].
    - split.
      + intros <-. constructor; [now apply field_help_iff|now apply IH].
      + intros H. inversion H as [|x y xs ys Hx Hs]; subst. f_equal; [now apply field_help_iff|now apply IH].
  Qed.

  Lemma doc_iff doc d : docstring U dedent doc = Ok d <-> exists s, doc = Some s /\ trimmed (is_space U) (dedent s) d.
  Proof.
    unfold docstring. destruct doc as [s|].
    - split.
      + intros [= <-]. exists s. split; [reflexivity|apply strip_trimmed].
      + intros (s' & [= <-] & T). apply strip_iff in T. now rewrite T.
    - split; [discriminate|intros (s & [=] & _)].
  Qed.

  Theorem helptext_iff doc l t : NoDup (map fst l) ->
    (get_helptext U fmt dedent meta doc (keyed l) = Ok t <->
     exists s d ls, doc = Some s /\ trimmed (is_space U) (dedent s) d /\ Forall2 (field_help fmt meta) l ls /\
       lines (d :: concat ls) t).
  Proof.
    intros N. unfold get_helptext. rewrite (metadata_all l N). rewrite flat_map_concat_map. split.
    - destruct (docstring U dedent doc) as [d|] eqn:D; cbn [rbind]; [|discriminate]. intros [= <-].
      apply doc_iff in D as (s & -> & T). exists s, d, (map (fun p => entry_lines fmt (snd p)) (map entry_of l)).
      split; [reflexivity|]. split; [exact T|]. split; [now apply helps_iff|]. apply join_lines.
    - intros (s & d & ls & -> & T & F & L). apply helps_iff in F. rewrite F.
      assert (D : docstring U dedent (Some s) = Ok d) by (apply doc_iff; eauto). rewrite D. cbn [rbind].
      f_equal. now apply lines_iff.
  Qed.
  Theorem helptext_undocumented l : get_helptext U fmt dedent meta None (keyed l) = Raise (XPy ETypeError).
  Proof. reflexivity. Qed.

  Lemma usage_iff nf x : usage_line fmt (snd (entry_of nf)) = x <-> example_item fmt meta nf x.
  Proof.
    destruct nf as [n f]. unfold usage_line, entry_of, example_item. cbn [fst snd en_name en_value name_text]. split.
    - intros <-. eexists. split; [apply told_default|reflexivity].
    - intros (v & T & ->). apply told_iff in T. now rewrite T.
  Qed.
  Lemma usages_iff l xs : map (fun p => usage_line fmt (snd p)) (map entry_of l) = xs <-> Forall2 (example_item fmt meta) l xs.
  Proof.
    revert xs. induction l as [|nf l IH]; intros xs; cbn.
    - split; [intros <-; constructor|intros H; now inversion H].
    - split.
      + intros <-. constructor; [now apply usage_iff|now apply IH].
      + intros H. inversion H as [|x y ys zs Hx Hs]; subst. f_equal; [now apply usage_iff|now apply IH].
  Qed.
  Theorem example_iff cls l t : NoDup (map fst l) ->
    (get_example_usage fmt meta cls (keyed l) = t <->
     exists items, Forall2 (example_item fmt meta) l items /\ lines ((cls ++ u "({") :: items ++ [u "})"]) t).
  Proof.
    intros N. unfold get_example_usage. rewrite (metadata_all l N). split.
    - intros <-. eexists. split; [apply usages_iff; reflexivity|]. apply join_lines.
    - intros (items & F & L). apply usages_iff in F. rewrite F. now apply lines_iff.
  Qed.

  Lemma param_iff nf x : param_line fmt fill native_name (snd (entry_of nf)) = Ok x <->
    exists p, parameter fmt meta native_name nf p /\ x = fill p.
  Proof.
    destruct nf as [n f]. unfold param_line, entry_of. cbn [fst snd en_name en_field en_desc name_text]. split.
    - destruct (native_name f) as [t|] eqn:E; cbn [rbind]; [|discriminate]. intros [= <-].
      eexists. split; [|reflexivity]. destruct (truthy (get_default "description" VNone (meta f))) eqn:T.
      + pose proof (par_told fmt meta native_name (n, f) t _ E (told_default f "description") T) as P.
        exact P.
      + pose proof (par_plain fmt meta native_name (n, f) t _ E (told_default f "description") T) as P.
        exact P.
    - intros (p & P & ->). inversion P as [t d E D T|t d E D T]; cbn [fst snd] in *; rewrite E; cbn [rbind];
        apply told_iff in D; rewrite D, T; rewrite ?app_nil_r; reflexivity.
  Qed.
  Lemma params_iff l xs : param_lines fmt fill native_name (map entry_of l) = Ok xs <->
    Forall2 (fun nf x => exists p, parameter fmt meta native_name nf p /\ x = fill p) l xs.
  Proof.
    revert xs. induction l as [|nf l IH]; intros xs; cbn [map param_lines].
    - split; [intros [= <-]; constructor|intros H; now inversion H].
    - destruct (entry_of nf) as [n e] eqn:En. assert (e = snd (entry_of nf)) as -> by now rewrite En. split.
      + destruct (param_line fmt fill native_name (snd (entry_of nf))) as [x|] eqn:P; cbn [rbind]; [|discriminate].
        destruct (param_lines fmt fill native_name (map entry_of l)) as [ys|] eqn:Q; cbn [rbind]; [|discriminate].
        intros [= <-]. constructor; [now apply param_iff|now apply IH].
      + intros H. inversion H as [|a b c d Hx Hs]; subst. apply param_iff in Hx. apply IH in Hs. rewrite Hx, Hs. reflexivity.
  Qed.
  (** Empty lists of lines are the empty text. *)
  Lemma params_fail l e : param_lines fmt fill native_name (map entry_of l) = Raise e ->
    e = XPy EAttributeError /\ exists nf, In nf l /\ native_name (snd nf) = None.
  Proof.
    induction l as [|[n f] l IH]; cbn [map param_lines]; [discriminate|]. unfold entry_of at 1. unfold param_line at 1. cbn [fst snd en_field].
    destruct (native_name f) as [t|] eqn:E; cbn [rbind].
    - destruct (param_lines fmt fill native_name (map entry_of l)) as [ys|] eqn:Q; cbn [rbind]; [discriminate|].
      intros [= <-]. destruct (IH eq_refl) as (-> & nf & I & H). split; [reflexivity|]. exists nf. split; [now right|exact H].
    - intros [= <-]. split; [reflexivity|]. exists (n, f). split; [now left|exact E].
  Qed.
  Lemma params_defined l : (exists xs, param_lines fmt fill native_name (map entry_of l) = Ok xs) <->
    forall nf, In nf l -> native_name (snd nf) <> None.
  Proof.
    split.
    - intros [xs H] nf I. apply params_iff in H. induction H as [|a b c d (p & P & _) _ IH]; [easy|].
      destruct I as [->|I]; [|now apply IH]. inversion P; congruence.
    - intros H. destruct (param_lines fmt fill native_name (map entry_of l)) as [xs|e] eqn:P; [eauto|].
      apply params_fail in P as (_ & nf & I & X). now apply H in I.
  Qed.

  Lemma text_of_iff ls t : join nl ls = t <-> text_of ls t.
  Proof. destruct ls as [|x r]; [cbn; split; congruence|]. apply lines_iff. Qed.
  Theorem descriptions_iff l t : NoDup (map fst l) ->
    (get_parameter_descriptions fmt fill meta native_name (keyed l) = Ok t <->
     exists ps, Forall2 (parameter fmt meta native_name) l ps /\ text_of (map fill ps) t).
  Proof.
    intros N. unfold get_parameter_descriptions. rewrite (metadata_all l N). split.
    - destruct (param_lines fmt fill native_name (map entry_of l)) as [xs|] eqn:P; cbn [rbind]; [|discriminate]. intros [= <-].
      apply params_iff in P. assert (X : exists ps, Forall2 (parameter fmt meta native_name) l ps /\ xs = map fill ps).
      { clear N. induction P as [|a b c d (p & P & ->) _ (ps & F & ->)]; [exists []; split; [constructor|reflexivity]|].
        exists (p :: ps). split; [now constructor|reflexivity]. }
      destruct X as (ps & F & ->). exists ps. split; [exact F|]. now apply text_of_iff.
    - intros (ps & F & T). apply text_of_iff in T.
      assert (P : param_lines fmt fill native_name (map entry_of l) = Ok (map fill ps)).
      { apply params_iff. clear N T. induction F as [|a b c d Hp _ IH]; cbn; constructor; eauto. }
      rewrite P. cbn [rbind]. now rewrite T.
  Qed.
  Theorem descriptions_raise l e : NoDup (map fst l) ->
    (get_parameter_descriptions fmt fill meta native_name (keyed l) = Raise e <->
     e = XPy EAttributeError /\ exists nf, In nf l /\ native_name (snd nf) = None).
  Proof.
    intros N. unfold get_parameter_descriptions. rewrite (metadata_all l N). split.
    - destruct (param_lines fmt fill native_name (map entry_of l)) as [xs|e'] eqn:P; cbn [rbind]; [discriminate|]. intros [= <-].
      now apply params_fail.
    - intros (-> & nf & I & H). destruct (param_lines fmt fill native_name (map entry_of l)) as [xs|e'] eqn:P; cbn [rbind].
      + exfalso. assert (X : exists xs, param_lines fmt fill native_name (map entry_of l) = Ok xs) by eauto.
        apply params_defined with (nf := nf) in X; [|exact I]. contradiction.
      + apply params_fail in P as [-> _]. reflexivity.
  Qed.

  Theorem api_iff cls doc l t :
    get_api_docstring U fmt dedent fill meta native_name cls doc (keyed l) = Ok t <->
    exists s d ps code, doc = Some s /\ trimmed (is_space U) (dedent s) d /\
      get_parameter_descriptions fmt fill meta native_name (keyed l) = Ok ps /\
      indented true (get_example_usage fmt meta cls (keyed l)) code /\
      lines [[34; 34; 34]%N; d; []; u "Example:"; []; code; []; []; ps; [34; 34; 34]%N] t.
  Proof.
    unfold get_api_docstring. set (us := get_example_usage fmt meta cls (keyed l)).
    pose proof (proj2 (split_indented us)) as I. split.
    - destruct (get_parameter_descriptions fmt fill meta native_name (keyed l)) as [ps|] eqn:P; cbn [rbind]; [|discriminate].
      destruct (docstring U dedent doc) as [d|] eqn:D; cbn [rbind]; [|discriminate]. intros [= <-].
      apply doc_iff in D as (s & -> & T). exists s, d, ps, (indent (splitlines [] us)).
      split; [reflexivity|]. split; [exact T|]. split; [reflexivity|]. split; [exact I|].
      apply lines_iff. cbn [join]. unfold nl. rewrite <- ?app_assoc. reflexivity.
    - intros (s & d & ps & code & -> & T & P & J & L). rewrite P. cbn [rbind].
      assert (D : docstring U dedent (Some s) = Ok d) by (apply doc_iff; eauto). rewrite D. cbn [rbind].
      pose proof (indented_fun _ _ _ I _ J) as <-. apply lines_iff in L. rewrite <- L. cbn [join]. unfold nl. rewrite <- ?app_assoc. reflexivity.
  Qed.
  Theorem api_raises cls doc l e : NoDup (map fst l) ->
    (get_api_docstring U fmt dedent fill meta native_name cls doc (keyed l) = Raise e <->
     e = XPy EAttributeError /\ (exists nf, In nf l /\ native_name (snd nf) = None) \/
     e = XPy ETypeError /\ doc = None /\ forall nf, In nf l -> native_name (snd nf) <> None).
  Proof.
    intros N. unfold get_api_docstring.
    destruct (get_parameter_descriptions fmt fill meta native_name (keyed l)) as [ps|e'] eqn:P; cbn [rbind].
    - assert (G : forall nf, In nf l -> native_name (snd nf) <> None).
      { apply params_defined. unfold get_parameter_descriptions in P. rewrite (metadata_all l N) in P.
        destruct (param_lines fmt fill native_name (map entry_of l)); [eauto|discriminate]. }
      split.
      + destruct doc as [s|]; cbn; [discriminate|]. intros [= <-]. right. auto.
      + intros [(_ & nf & I & H)|(-> & -> & _)]; [now apply G in I|reflexivity].
    - apply descriptions_raise in P as (-> & nf & I & H); [|exact N]. split.
      + intros [= <-]. left. eauto.
      + intros [(-> & _)|(_ & _ & G)]; [reflexivity|]. now apply G in I.
  Qed.
End Facts.

Lemma examples_alike fmt : fmt (VInt 1) = u "1" -> fmt (VStr (u "1")) = u "1" ->
  exists (meta meta' : field -> list (key * pyval)) n f,
    said meta f "example" (VInt 1) /\ said meta' f "example" (VStr (u "1")) /\
    forall cls, get_example_usage fmt meta cls (keyed [(n, f)]) = get_example_usage fmt meta' cls (keyed [(n, f)]).
Proof.
  intros H1 H2. exists (fun _ => help_text_metadata VNone VNone (VInt 1)), (fun _ => help_text_metadata VNone VNone (VStr (u "1"))), (u "a"),
    (snd (fld "a" (o0 1) (TLeaf any_leaf))).
  split; [reflexivity|]. split; [reflexivity|]. intros cls.
  set (m1 := fun _ : field => help_text_metadata VNone VNone (VInt 1)). set (m2 := fun _ : field => help_text_metadata VNone VNone (VStr (u "1"))).
  set (nf := (u "a", snd (fld "a" (o0 1) (TLeaf any_leaf)))).
  unfold get_example_usage. rewrite !metadata_all by (repeat constructor; intros []). cbn [map].
  assert (E : usage_line fmt (snd (entry_of m1 nf)) = usage_line fmt (snd (entry_of m2 nf))); [|now rewrite E].
  unfold usage_line. replace (en_value (snd (entry_of m1 nf))) with (VInt 1) by reflexivity.
  replace (en_value (snd (entry_of m2 nf))) with (VStr (u "1")) by reflexivity. rewrite H1, H2. reflexivity.
Qed.
