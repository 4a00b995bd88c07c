(** The texts of error messages: proofs. *)
From Verif.Model Require Import Py Core Num Text Types DateTime Enum Net Url Mongo Equality Messages.
From Verif.Spec Require Import MessagesSpec.
From Verif.Proofs Require Import DictLemmas DateErrors.
From Coq Require Import Lia.

Section Format.
  Context (U : unicode) (fmt : pyval -> pstr) (other : list pyval -> pstr -> res pstr) (args : list pyval).
  Notation run := (format_from U fmt other args).
  Notation renders := (renders U fmt args).
  Lemma reads_iff acc s n : number_name U acc s = Some n <-> reads U acc s n.
  Proof.
    revert acc. induction s as [|c s IH]; intros acc; cbn.
    - split; [intros [= <-]; constructor|intros H; now inversion H].
    - destruct (udigit U c) as [d|] eqn:D.
      + rewrite IH. split; [intros H; econstructor; eassumption|intros H; inversion H as [|a b c0 d0 e D' R]; subst]. rewrite D in D'. injection D' as <-. exact R.
      + split; [discriminate|intros H; inversion H; congruence].
  Qed.
  Lemma digit_plain c d : udigit U c = Some d -> (c =? 125)%N = false /\ (c =? 123)%N = false /\ existsb (N.eqb c) [33; 46; 58; 91]%N = false.
  Proof.
    unfold udigit. destruct (c <? 128)%N eqn:L.
    - destruct ((48 <=? c) && (c <=? 57))%N eqn:B; [|discriminate]. intros _. apply andb_prop in B as [B1 B2]. apply N.leb_le in B1, B2.
      cbn [existsb]. rewrite !(proj2 (N.eqb_neq _ _)) by lia. auto.
    - intros _. apply N.ltb_ge in L. cbn [existsb]. rewrite !(proj2 (N.eqb_neq _ _)) by lia. auto.
  Qed.
  Lemma reads_digits ds : forall acc n, reads U acc ds n -> Forall (fun c => exists d, udigit U c = Some d) ds.
  Proof. intros acc n H. induction H; constructor; eauto. Qed.
  (** Through the name of a field. *)
  Lemma field_through ds : Forall (fun c => exists d, udigit U c = Some d) ds -> forall name st s,
    run (InField name) st (ds ++ 125%N :: s) =
    rbind (field_value U args st (name ++ ds)) (fun '(st', v) => rbind (run InText st' s) (fun t => Ok (fmt v ++ t))).
  Proof.
    induction 1 as [|c ds (d & D) F IH]; intros name st s.
    - cbn. now rewrite app_nil_r.
    - apply digit_plain in D as (A & B & C). cbn [app format_from]. rewrite A, B, C. rewrite IH. rewrite <- app_assoc. reflexivity.
  Qed.
  Lemma renders_run st s t : renders st s t -> run InText st s = Ok t.
  Proof.
    induction 1 as [st|st c s t N1 N2 _ IH|st s t _ IH|st s t _ IH|st ds i v s t Hs Ne Rd Nth _ IH|v s t Nth _ IH|n v s t Nth _ IH].
    - reflexivity.
    - apply N.eqb_neq in N1, N2. cbn [format_from]. rewrite N1, N2, IH. reflexivity.
    - cbn. rewrite IH. reflexivity.
    - cbn. rewrite IH. reflexivity.
    - pose proof (reads_digits _ _ _ Rd) as F.
      assert (E : run InText st (123%N :: ds ++ 125%N :: s) = run (InField []) st (ds ++ 125%N :: s)).
      { destruct ds as [|c ds]; [congruence|]. apply Forall_cons_iff in F as [(d & D) _]. apply digit_plain in D as (_ & B & _).
        cbn [app format_from]. change (123 =? 123)%N with true. cbn iota. rewrite B. reflexivity. }
      rewrite E, (field_through ds F). cbn [app]. unfold field_value. destruct ds as [|c ds]; [congruence|].
      apply reads_iff in Rd. rewrite Rd. unfold arg_at. rewrite Nth. destruct Hs as [->| ->]; cbn [rbind]; rewrite IH; reflexivity.
    - cbn [format_from]. change (123 =? 123)%N with true. change (125 =? 123)%N with false. change (125 =? 125)%N with true. cbn iota.
      unfold field_value, arg_at. rewrite Nth. cbn [rbind]. rewrite IH. reflexivity.
    - cbn [format_from]. change (123 =? 123)%N with true. change (125 =? 123)%N with false. change (125 =? 125)%N with true. cbn iota.
      unfold field_value, arg_at. rewrite Nth. cbn [rbind]. rewrite IH. reflexivity.
  Qed.
  Context (none : forall a s t, other a s <> Ok t).
  Lemma field_inv s : forall name st t, run (InField name) st s = Ok t ->
    exists ds s' st' v t', s = ds ++ 125%N :: s' /\ field_value U args st (name ++ ds) = Ok (st', v) /\ run InText st' s' = Ok t' /\ t = fmt v ++ t'.
  Proof using none.
    induction s as [|c s IH]; intros name st t; cbn [format_from]; [discriminate|].
    destruct (c =? 125)%N eqn:A.
    - apply N.eqb_eq in A. subst c. destruct (field_value U args st name) as [[st' v]|] eqn:F; cbn [rbind]; [|discriminate].
      destruct (run InText st' s) as [t'|] eqn:R; cbn [rbind]; [|discriminate]. intros [= <-].
      exists [], s, st', v, t'. rewrite app_nil_r. auto.
    - destruct (c =? 123)%N; [discriminate|]. destruct (existsb _ _); [intros H; now apply none in H|].
      intros H. apply IH in H as (ds & s' & st' & v & t' & -> & F & R & ->). exists (c :: ds), s', st', v, t'.
      rewrite <- app_assoc in F. auto.
  Qed.
  Lemma run_renders s : forall st t, run InText st s = Ok t -> renders st s t.
  Proof using none.
    remember (length s) as n eqn:Hn. assert (Le : length s <= n) by lia. clear Hn. revert s Le.
    induction n as [|n IH]; intros s Le st t.
    { destruct s; [|cbn in Le; lia]. cbn. intros [= <-]. constructor. }
    destruct s as [|c s]; [cbn; intros [= <-]; constructor|]. cbn in Le. cbn [format_from].
    destruct (c =? 123)%N eqn:A; [apply N.eqb_eq in A; subst c|destruct (c =? 125)%N eqn:B; [apply N.eqb_eq in B; subst c|]].
    - destruct s as [|d s]; [discriminate|]. destruct (d =? 123)%N eqn:D.
      + apply N.eqb_eq in D. subst d. destruct (run InText st s) as [t'|] eqn:R; cbn [rbind]; [|discriminate]. intros [= <-].
        apply rn_open. apply IH; [cbn in Le; lia|exact R].
      + intros H. apply field_inv in H as (ds & s' & st' & v & t' & E & F & R & ->). cbn [app] in F. rewrite E.
        assert (Ls : length s' <= n). { apply (f_equal (@length N)) in E. rewrite app_length in E. cbn in E, Le. lia. }
        apply IH in R; [|exact Ls]. unfold field_value, arg_at in F. destruct ds as [|x ds].
        * cbn [app]. destruct st as [|m|]; [| |discriminate].
          -- destruct (nth_error args 0) eqn:Nth; cbn [rbind] in F; [|discriminate]. injection F as <- <-. now apply rn_first.
          -- destruct (nth_error args m) eqn:Nth; cbn [rbind] in F; [|discriminate]. injection F as <- <-. now apply rn_next.
        * destruct (number_name U 0 (x :: ds)) as [i|] eqn:Rd; [|discriminate].
          assert (P : st = Undecided \/ st = Manual) by (destruct st; [now left|discriminate|now right]).
          assert (F' : rbind (match nth_error args (N.to_nat i) with Some v => Ok v | None => Raise (XPy EIndexError) end)
                         (fun v => Ok (Manual, v)) = Ok (st', v)) by (destruct P as [-> | ->]; exact F).
          destruct (nth_error args (N.to_nat i)) as [w|] eqn:Nth; cbn [rbind] in F'; [|discriminate]. injection F' as <- <-.
          apply (rn_index U fmt args st (x :: ds) i w s' t' P); [discriminate|apply reads_iff; exact Rd|exact Nth|exact R].
    - destruct s as [|d s]; [discriminate|]. destruct (d =? 125)%N eqn:D; [|discriminate]. apply N.eqb_eq in D. subst d.
      destruct (run InText st s) as [t'|] eqn:R; cbn [rbind]; [|discriminate]. intros [= <-]. apply rn_close. apply IH; [cbn in Le; lia|exact R].
    - destruct (run InText st s) as [t'|] eqn:R; cbn [rbind]; [|discriminate]. intros [= <-].
      constructor; [now apply N.eqb_neq|now apply N.eqb_neq|]. apply IH; [lia|exact R].
  Qed.
  Theorem format_iff tpl t : str_format U fmt other args tpl = Ok t <-> renders Undecided tpl t.
  Proof using none. split; [apply run_renders|apply renders_run]. Qed.
End Format.

Lemma renders_functional U fmt args st s t t' : renders U fmt args st s t -> renders U fmt args st s t' -> t = t'.
Proof.
  intros A B. apply (renders_run U fmt (fun _ _ => Raise XFuel)) in A. apply (renders_run U fmt (fun _ _ => Raise XFuel)) in B. congruence.
Qed.

(** Templates that cannot be rendered. *)
Lemma format_raises U fmt other args : (forall a s e, other a s = Raise e -> exists x, e = XPy x) -> forall s p st e,
  format_from U fmt other args p st s = Raise e -> exists x, e = XPy x.
Proof.
  intros H s. remember (length s) as n eqn:Hn. assert (Le : length s <= n) by lia. clear Hn. revert s Le.
  induction n as [|n IH]; intros s Le p st e.
  { destruct s; [|cbn in Le; lia]. destruct p; cbn; [discriminate|intros [= <-]; eauto]. }
  destruct s as [|c s]; [destruct p; cbn; [discriminate|intros [= <-]; eauto]|]. cbn in Le.
  assert (G : forall p st (f : pstr -> pstr) s', length s' <= n ->
    rbind (format_from U fmt other args p st s') (fun t => Ok (f t)) = Raise e -> exists x, e = XPy x).
  { intros p' st' f s' L. destruct (format_from U fmt other args p' st' s') as [t|e'] eqn:R; cbn [rbind]; [discriminate|].
    intros [= <-]. now apply IH in R. }
  destruct p as [|name]; cbn [format_from].
  - destruct (c =? 123)%N.
    + destruct s as [|d s]; [intros [= <-]; eauto|]. cbn in Le. destruct (d =? 123)%N; [apply G; lia|apply IH; cbn; lia].
    + destruct (c =? 125)%N; [|apply G; lia]. destruct s as [|d s]; [intros [= <-]; eauto|]. cbn in Le.
      destruct (d =? 125)%N; [apply G; lia|intros [= <-]; eauto].
  - destruct (c =? 125)%N.
    + destruct (field_value U args st name) as [[st' v]|e'] eqn:F; cbn [rbind].
      * apply (G InText st' (fun t => fmt v ++ t)). lia.
      * intros [= <-]. unfold field_value, arg_at in F. destruct name; [destruct st|destruct (number_name U 0 (n0 :: name)); [destruct st|]];
          try destruct (nth_error _ _); cbn [rbind] in F; inversion F; eauto.
    + destruct (c =? 123)%N; [intros [= <-]; eauto|]. destruct (existsb _ _); [apply H|apply IH; lia].
Qed.
(** With which exception. *)
Lemma format_raises_kind U fmt other args : forall s p st e,
  format_from U fmt other args p st s = Raise e -> In e [XPy EValueError; XPy EIndexError; XPy EKeyError] \/ exists r, other args r = Raise e.
Proof.
  intros s. remember (length s) as n eqn:Hn. assert (Le : length s <= n) by lia. clear Hn. revert s Le.
  induction n as [|n IH]; intros s Le p st e.
  { destruct s; [|cbn in Le; lia]. destruct p; cbn; [discriminate|intros [= <-]; left; cbn; auto]. }
  destruct s as [|c s]; [destruct p; cbn; [discriminate|intros [= <-]; left; cbn; auto]|]. cbn in Le.
  assert (G : forall p st (f : pstr -> pstr) s', length s' <= n ->
    rbind (format_from U fmt other args p st s') (fun t => Ok (f t)) = Raise e -> In e [XPy EValueError; XPy EIndexError; XPy EKeyError] \/ exists r, other args r = Raise e).
  { intros p' st' f s' L. destruct (format_from U fmt other args p' st' s') as [t|e'] eqn:R; cbn [rbind]; [discriminate|].
    intros [= <-]. now apply IH in R. }
  destruct p as [|name]; cbn [format_from].
  - destruct (c =? 123)%N.
    + destruct s as [|d s]; [intros [= <-]; left; cbn; auto|]. cbn in Le. destruct (d =? 123)%N; [apply G; lia|apply IH; cbn; lia].
    + destruct (c =? 125)%N; [|apply G; lia]. destruct s as [|d s]; [intros [= <-]; left; cbn; auto|]. cbn in Le.
      destruct (d =? 125)%N; [apply G; lia|intros [= <-]; left; cbn; auto].
  - destruct (c =? 125)%N.
    + destruct (field_value U args st name) as [[st' v]|e'] eqn:F; cbn [rbind].
      * apply (G InText st' (fun t => fmt v ++ t)). lia.
      * intros [= <-]. unfold field_value, arg_at in F. destruct name; [destruct st|destruct (number_name U 0 (n0 :: name)); [destruct st|]];
          try destruct (nth_error _ _); cbn [rbind] in F; inversion F; left; cbn; auto.
    + destruct (c =? 123)%N; [intros [= <-]; left; cbn; auto|]. destruct (existsb _ _); [intros Q; right; eauto|apply IH; lia].
Qed.

(** *** Messages of types *)
Section Types.
  Context (U : unicode) (fmt : pyval -> pstr) (other : list pyval -> pstr -> res pstr).
  Context (unused : forall a s, exists x, other a s = Raise (XPy x)).
  Lemma other_none a s t : other a s <> Ok t.
  Proof using unused. destruct (unused a s) as [x E]. congruence. Qed.
  Lemma other_py a s e : other a s = Raise e -> exists x, e = XPy x.
  Proof using unused. destruct (unused a s) as [x E]. intros H. exists x. congruence. Qed.
  Lemma in_force_at T given x tpl : NoDup (dkeys given) -> in_force T given x tpl ->
    message_at (dupdate (mt_defaults T) given) x = Ok tpl.
  Proof. intros N H. unfold message_at. rewrite dget_dupdate by exact N. destruct H as [->|[-> ->]]; reflexivity. Qed.
  Lemma formatted_text T given x args tpl : NoDup (dkeys given) -> in_force T given x tpl ->
    site_text U fmt other T given (Formatted x args) = str_format U fmt other args tpl.
  Proof. intros N H. cbn [site_text]. rewrite (in_force_at _ _ _ _ N H). reflexivity. Qed.

  (** One place, for conversions and validators. *)
  Lemma conv_text T given v x args tpl t : NoDup (dkeys given) -> in_force T given x tpl -> mt_site T (u x) v = Some (Formatted x args) ->
    (with_text U fmt other T given v (XConv [u x]) = XConv [t] <-> renders U fmt args Undecided tpl t).
  Proof using unused.
    intros N H S. unfold with_text. rewrite S, (formatted_text T given x args tpl N H).
    destruct (str_format U fmt other args tpl) as [t'|e] eqn:F.
    - apply format_iff in F; [|apply other_none]. split.
      + intros [= <-]. exact F.
      + intros R. now rewrite (renders_functional _ _ _ _ _ _ _ F R).
    - split.
      + intros ->. apply format_raises in F as [y [=]]. exact other_py.
      + intros R. apply (format_iff U fmt other args other_none) in R. congruence.
  Qed.
  Lemma valid_text T given v stop x args tpl t : NoDup (dkeys given) -> in_force T given x tpl -> mt_site T (u x) v = Some (Formatted x args) ->
    (with_text U fmt other T given v (XValid stop [u x]) = XValid stop [t] <-> renders U fmt args Undecided tpl t).
  Proof using unused.
    intros N H S. unfold with_text. rewrite S, (formatted_text T given x args tpl N H).
    destruct (str_format U fmt other args tpl) as [t'|e] eqn:F.
    - apply format_iff in F; [|apply other_none]. split.
      + intros [= <-]. exact F.
      + intros R. now rewrite (renders_functional _ _ _ _ _ _ _ F R).
    - split.
      + intros ->. apply format_raises in F as [y [=]]. exact other_py.
      + intros R. apply (format_iff U fmt other args other_none) in R. congruence.
  Qed.

  Lemma quoting_site l T x ok extra v : quoting l T x ok extra -> ok v -> mt_site T (u x) v = Some (Formatted x (v :: extra)).
  Proof.
    assert (S : forall x, In x ["convert"; "decode"]%string -> forall T, In T [string_m; ip_m IPany; ip_m IPv4; ip_m IPv6; mac_m; url_m; email_m] ->
      mt_site T (u x) v = Some (Formatted x [v])).
    { intros x0 Hx T0 HT. cbn [In] in Hx, HT.
      destruct Hx as [<-|[<-|[]]]; repeat (destruct HT as [<-|HT]; [reflexivity|]); contradiction. }
    intros H O. destruct H as [R|T H|T H|R n|R n|R st lo hi|R lo hi|R lo hi|R p|R c b cls|R o e fs|R o e fs|R o e fs x H|R o e fs x H];
      try reflexivity; try (apply S; [cbn; auto|assumption]).
    - cbn [In] in H. destruct H as [<-|[<-|[]]]; reflexivity.
    - assert (Sh : shown R (dt_how o) v = v).
      { unfold shown. destruct (dt_how o) eqn:Hw; try reflexivity. specialize (O eq_refl). destruct (py_float R v) as [[f|]|]; try reflexivity. now destruct (O f). }
      cbn [In] in H. destruct H as [<-|[<-|[<-|[]]]]; cbn; rewrite Sh; reflexivity.
  Qed.
  Theorem quoted l T x ok extra given tpl v t :
    quoting l T x ok extra -> ok v -> NoDup (dkeys given) -> in_force T given x tpl -> lf_native l v = Raise (XConv [u x]) ->
    (native_text U fmt other T given l v = Raise (XConv [t]) <-> renders U fmt (v :: extra) Undecided tpl t).
  Proof using unused.
    intros Q O N F E. unfold native_text. rewrite E. rewrite <- (conv_text T given v x (v :: extra) tpl t N F (quoting_site _ _ _ _ _ _ Q O)).
    split; congruence.
  Qed.

  (** The first item that is refused. *)
  Lemma first_refused (check : list (key * pyval) -> option exn) :
    check [] = None -> (forall p r, check (p :: r) = match check [p] with Some e => Some e | None => check r end) ->
    forall d e, check d = Some e -> exists d1 p d2, d = d1 ++ p :: d2 /\ check d1 = None /\ check [p] = Some e /\
      find (fun p => match check [p] with Some _ => true | None => false end) d = Some p.
  Proof.
    intros C0 C1. induction d as [|p d IH]; intros e; [rewrite C0; discriminate|]. rewrite C1. destruct (check [p]) as [e'|] eqn:P.
    - intros [= <-]. exists [], p, d. cbn. rewrite P. auto.
    - intros H. apply IH in H as (d1 & q & d2 & -> & A & B & F). exists (p :: d1), q, d2. cbn [app find]. rewrite P.
      split; [reflexivity|]. split; [|split; [exact B|exact F]]. rewrite C1, P. exact A.
  Qed.
  Lemma length_items_cons lo hi p r : multi_length_items lo hi (p :: r) =
    match multi_length_items lo hi [p] with Some e => Some e | None => multi_length_items lo hi r end.
  Proof. destruct p as [x v]. cbn. destruct (local_len v); [|reflexivity]. destruct (match hi with Some m => _ | None => _ end); [reflexivity|].
    destruct (match lo with Some m => _ | None => _ end); reflexivity. Qed.
  Lemma regex_items_cons re lre p r : multi_regex_items re lre (p :: r) =
    match multi_regex_items re lre [p] with Some e => Some e | None => multi_regex_items re lre r end.
  Proof.
    destruct p as [x v]. cbn. unfold no_match. destruct re as [q|], lre as [q'|]; try reflexivity; repeat match goal with
      | |- context [match ?v with VNone => _ | _ => _ end] => destruct v
      | |- context [if ?b then _ else _] => destruct b end; reflexivity.
  Qed.

  Lemma py_lt_raises v w e : py_lt v w = Raise e -> e = XPy ETypeError.
  Proof. unfold py_lt. destruct (num_of v), (num_of w); congruence. Qed.
  Ltac ltr := match goal with H : py_lt _ _ = Raise _ |- _ => apply py_lt_raises in H; congruence end.
  Lemma judging_site f T x P v stop : judging f T x P -> f v = Some (XValid stop [u x]) ->
    exists a, P v a /\ mt_site T (u x) v = Some (Formatted x a).
  Proof.
    intros J E. destruct J as [name low lo hi|name low lo hi|E0 n l d so sl| | |lo hi re lre|lo hi re lre|lo hi re lre x0 Hx].
    - eexists. split; reflexivity.
    - eexists. split; reflexivity.
    - eexists. split; reflexivity.
    - exists (geo_args (u "point_min") v). split; [|reflexivity]. unfold geo_range in E. unfold geo_args.
      change (pstr_eqb (u "point_min") (u "point_min")) with true. cbn iota.
      destruct (geo_normalize v) as [[|lat [|lon [|]]]|] eqn:G; try discriminate; [|destruct v; cbn in G; congruence]. exists lat, lon. split; [reflexivity|].
      unfold geo_check, valid_err in E. destruct (py_lt lat (VInt (-90))) as [[]|e] eqn:?; [left; auto| |ltr].
      right. split; [reflexivity|]. destruct (py_lt (VInt 90) lat) as [[]|e] eqn:?; [discriminate| |ltr].
      destruct (py_lt lon (VInt (-180))) as [[]|e] eqn:?; [auto| |ltr].
      destruct (py_lt (VInt 180) lon) as [[]|e] eqn:?; [discriminate|discriminate|ltr].
    - exists (geo_args (u "point_max") v). split; [|reflexivity]. unfold geo_range in E. unfold geo_args.
      change (pstr_eqb (u "point_max") (u "point_min")) with false. cbn iota.
      destruct (geo_normalize v) as [[|lat [|lon [|]]]|] eqn:G; try discriminate; [|destruct v; cbn in G; congruence]. exists lat, lon. split; [reflexivity|].
      unfold geo_check, valid_err in E. destruct (py_lt lat (VInt (-90))) as [[]|e] eqn:?; [discriminate| |ltr].
      destruct (py_lt (VInt 90) lat) as [[]|e] eqn:?; [left; auto| |ltr].
      right. split; [reflexivity|]. destruct (py_lt lon (VInt (-180))) as [[]|e] eqn:?; [discriminate| |ltr].
      destruct (py_lt (VInt 180) lon) as [[]|e] eqn:?; [auto|discriminate|ltr].
    - exists (bad_locale (multi_length_items lo hi) v). split; [|reflexivity]. destruct v; try discriminate E. cbn in E.
      apply (first_refused _ eq_refl (length_items_cons lo hi)) in E as (d1 & [y w] & d2 & -> & A & B & F).
      exists d1, y, w, d2. split; [reflexivity|]. split; [exact A|]. split; [cbn in B |- *; congruence|]. unfold bad_locale. rewrite F. reflexivity.
    - exists (bad_locale (multi_length_items lo hi) v). split; [|reflexivity]. destruct v; try discriminate E. cbn in E.
      apply (first_refused _ eq_refl (length_items_cons lo hi)) in E as (d1 & [y w] & d2 & -> & A & B & F).
      exists d1, y, w, d2. split; [reflexivity|]. split; [exact A|]. split; [cbn in B |- *; congruence|]. unfold bad_locale. rewrite F. reflexivity.
    - exists (bad_locale (multi_regex_items re lre) v). split; [|cbn [In] in Hx; destruct Hx as [<-|[<-|[]]]; reflexivity].
      assert (V : exists d, v = VDict d /\ multi_regex_items re lre d = Some (XValid stop [u x0])).
      { unfold multi_regex in E. destruct re, lre; try discriminate; destruct v; try discriminate; eauto. }
      destruct V as (d & -> & E').
      apply (first_refused _ eq_refl (regex_items_cons re lre)) in E' as (d1 & [y w] & d2 & -> & A & B & F).
      assert (G : forall l, multi_regex re lre (VDict l) = multi_regex_items re lre l).
      { intros l. unfold multi_regex. destruct re, lre; try reflexivity. clear. induction l as [|[a b] l IH]; [reflexivity|]. cbn in *. exact IH. }
      exists d1, y, w, d2. split; [reflexivity|]. rewrite !G. split; [exact A|]. split; [congruence|]. unfold bad_locale. rewrite F. reflexivity.
  Qed.
  Theorem judged f T x P given tpl v stop :
    judging f T x P -> NoDup (dkeys given) -> in_force T given x tpl -> f v = Some (XValid stop [u x]) ->
    exists a, P v a /\ forall t, validator_text U fmt other T given f v = Some (XValid stop [t]) <-> renders U fmt a Undecided tpl t.
  Proof using unused.
    intros J N F E. destruct (judging_site f T x P v stop J E) as (a & Ha & S). exists a. split; [exact Ha|]. intros t.
    unfold validator_text. rewrite E. rewrite <- (valid_text T given v stop x a tpl t N F S). split; congruence.
  Qed.

  Lemma plainly_site f T x v : plainly f T x -> mt_site T (u x) v = Some (Unformatted x).
  Proof.
    intros H. destruct H as [lo hi T x HT Hx|re T HT|U0|idna fq|R o fs x Hx]; try reflexivity.
    - cbn [In] in HT, Hx. destruct Hx as [<-|[<-|[]]]; repeat (destruct HT as [<-|HT]; [reflexivity|]); contradiction.
    - cbn [In] in HT. repeat (destruct HT as [<-|HT]; [reflexivity|]); contradiction.
    - cbn [In] in Hx. destruct Hx as [<-|[<-|[<-|[<-|[]]]]]; reflexivity.
  Qed.
  Theorem plain f T x given tpl v stop :
    plainly f T x -> NoDup (dkeys given) -> in_force T given x tpl -> f v = Some (XValid stop [u x]) ->
    validator_text U fmt other T given f v = Some (XValid stop [tpl]).
  Proof.
    intros P N F E. unfold validator_text, with_text. rewrite E, (plainly_site f T x v P). cbn [site_text].
    rewrite (in_force_at _ _ _ _ N F). reflexivity.
  Qed.

  (** DateType does not look at the messages given to the field. *)
  Theorem date_ignores R fs f given v :
    native_text U fmt other (date_m f) given (date_type R fs) v = native_text U fmt other (date_m f) [] (date_type R fs) v.
  Proof.
    unfold native_text. destruct (lf_native (date_type R fs) v) as [w|e] eqn:E; [reflexivity|]. f_equal.
    assert (X : e = XConv [u "parse"]).
    { cbn in E. unfold date_native in E. destruct v; try discriminate; destruct (first_format _ _); inversion E; reflexivity. }
    subst e. destruct f; reflexivity.
  Qed.
End Types.

(** *** The messages of the library can always be formatted *)
Definition keyed {A} (ks : list string) (r : res A) : Prop :=
  forall e, r = Raise e -> (exists x, e = XPy x) \/ exists y, In y ks /\ (e = XConv [u y] \/ exists st, e = XValid st [u y]).
Lemma keyed_ok {A} ks (a : A) : keyed ks (Ok a).
Proof. intros e [=]. Qed.
Lemma keyed_py {A} ks x : keyed ks (@Raise A (XPy x)).
Proof. intros e [= <-]. left. eauto. Qed.
Lemma keyed_conv {A} ks y : In y ks -> keyed ks (@conv_err A y).
Proof. intros H e [= <-]. right. exists y. auto. Qed.
Lemma keyed_bind {A B} ks (r : res A) (f : A -> res B) : keyed ks r -> (forall a, keyed ks (f a)) -> keyed ks (rbind r f).
Proof. intros H K e. destruct r as [a|e']; cbn; [apply K|]. intros [= <-]. now apply H. Qed.
Ltac keys := first [apply keyed_ok | apply keyed_py | apply keyed_conv; cbn; tauto].
Lemma keyed_float R ks v : keyed ks (py_float R v).
Proof. intros e H. apply py_float_err in H as [-> _]. eauto. Qed.
Lemma keyed_normalize ks o d t off : keyed ks (normalize o d t off).
Proof. intros e H. apply normalize_err in H as [_ [[-> _]|[-> _]]]; eauto. Qed.
Definition dt_keys : list string := ["parse"; "parse_formats"; "parse_external"; "parse_tzd_require"; "parse_tzd_reject"; "tzd_require"; "tzd_reject"]%string.
Lemma keyed_datetime R o v : keyed dt_keys (dt_native R o v).
Proof.
  assert (G : forall x, keyed dt_keys (dt_given o x)).
  { intros [[d t] [off|]]; cbn [dt_given].
    - destruct (dt_policy o); try keys; apply keyed_normalize.
    - destruct (dt_drop o), (dt_policy o); keys. }
  assert (P : forall x, keyed dt_keys (dt_parsed o x)).
  { intros [[d t] [off|]]; cbn [dt_parsed].
    - destruct (dt_policy o); try keys; apply keyed_normalize.
    - destruct (dt_policy o), (dt_drop o); keys. }
  assert (B : keyed dt_keys (dt_builtin R v)).
  { unfold dt_builtin. apply keyed_bind; [apply keyed_float|]. intros [f|].
    - apply keyed_bind; [|intros [x|]; keys]. intros e H. apply timestamp_err in H as ->. eauto.
    - destruct v; try keys. destruct (dt_parse _ _); keys. }
  assert (D : keyed dt_keys (rbind (dt_read R (dt_how o) v) (fun x => rbind (dt_parsed o x) (fun x => Ok (dt_val x))))).
  { apply keyed_bind; [|intros x; apply keyed_bind; [apply P|intros; keys]]. destruct (dt_how o); cbn [dt_read]; [| |exact B].
    - destruct (first_format _ _); keys.
    - destruct (f v); keys. }
  destruct v; try exact D. cbn [dt_native]. apply keyed_bind; [apply G|]. intros; keys.
Qed.

Section Defaults.
  Context (U : unicode) (fmt : pyval -> pstr) (other : list pyval -> pstr -> res pstr).
  Definition formats (T : mtype) (v : pyval) (x : string) : Prop :=
    exists a t, mt_site T (u x) v = Some a /\ site_text U fmt other T [] a = Ok t.
  Lemma keyed_formats {A} T v ks (r : res A) : keyed ks r -> (forall x, In x ks -> formats T v x) ->
    forall e, r = Raise e -> (exists x, e = XPy x) \/ (exists t, with_text U fmt other T [] v e = XConv [t]) \/
      exists st t, with_text U fmt other T [] v e = XValid st [t].
  Proof.
    intros K F e H. destruct (K e H) as [P|(y & Hy & E)]; [auto|right]. destruct (F y Hy) as (a & t & S & X).
    destruct E as [->|[st ->]]; [left; exists t|right; exists st, t]; unfold with_text; rewrite S, X; reflexivity.
  Qed.
  Ltac go := let x := fresh in let H := fresh in intros x H; cbn [In] in H;
    repeat (destruct H as [<-|H]; [eexists _, _; split; reflexivity|]); contradiction.
  Lemma string_formats T v : In T [string_m; hash_m; ip_m IPany; ip_m IPv4; ip_m IPv6; mac_m; url_m; email_m] ->
    forall x, In x ["convert"; "decode"]%string -> formats T v x.
  Proof. cbn [In]. intros H. repeat (destruct H as [<-|H]; [go|]). contradiction. Qed.
  Lemma keyed_string v : keyed ["convert"; "decode"]%string (string_native v).
  Proof. destruct v; try keys. cbn. destruct (utf8_decode _); keys. Qed.
  Theorem defaults_format l T v e : library l T -> lf_native l v = Raise e -> (exists x, e = XPy x) \/
    (exists t, native_text U fmt other T [] l v = Raise (XConv [t])) \/ exists st t, native_text U fmt other T [] l v = Raise (XValid st [t]).
  Proof.
    intros L E. unfold native_text. rewrite E.
    enough (K : (exists x, e = XPy x) \/ (exists t, with_text U fmt other T [] v e = XConv [t]) \/
      exists st t, with_text U fmt other T [] v e = XValid st [t]).
    { destruct K as [K|[[t ->]|(st & t & ->)]]; eauto. }
    revert e E. destruct L as [R|T H|R st lo hi|R lo hi|R lo hi|R n| |R fs f|R o x fs|R p| |c d lo hi re lre|R c b cls|R B]; cbn [lf_native].
    - apply (keyed_formats _ _ ["convert"]%string); [|go]. destruct v; try keys. cbn. destruct (uuid_text _ _); keys.
    - apply (keyed_formats _ _ ["convert"; "decode"]%string); [apply keyed_string|apply string_formats; cbn in *; tauto].
    - apply (keyed_formats _ _ ["number_coerce"]%string); [|go].
      assert (P : forall w, keyed ["number_coerce"]%string (py_int R w)).
      { intros w. destruct w; try keys. destruct f; keys. }
      cbn. unfold int_native. cbv zeta. destruct v; try keys; (apply keyed_bind; [apply P|]; intros [?|]; [|keys]; destruct (_ && _)%bool; keys).
    - apply (keyed_formats _ _ ["number_coerce"]%string); [|go]. cbn. unfold float_native. cbv zeta.
      destruct v; try keys; (apply keyed_bind; [apply keyed_float|]; intros [?|]; keys).
    - apply (keyed_formats _ _ ["number_coerce"]%string); [|go]. cbn. unfold decimal_native. cbv zeta.
      destruct v; try keys; try (destruct (decimal_text _ _) as [[]|]; keys). destruct n; [keys|]. destruct (decimal_text _ _) as [[]|]; keys.
    - apply (keyed_formats _ _ ["convert"; "decode"; "hash_length"; "hash_hex"]%string); [|go]. cbn. unfold hash_native. apply keyed_bind.
      + intros e H. destruct (keyed_string v e H) as [|(y & Hy & E)]; [auto|]. right. exists y. cbn in *. tauto.
      + intros w. destruct w; try keys. destruct (Nat.eqb _ _); [destruct (int_text _ _ _); keys|].
        intros e [= <-]. right. exists "hash_length"%string. split; [cbn; tauto|right; eexists; reflexivity].
    - apply (keyed_formats _ _ ["Must be either true or false."]%string); [|go]. cbn. destruct v; try keys; cbn.
      + destruct (Z.eqb _ _); [keys|]. destruct (Z.eqb _ _); keys.
      + destruct (_ || _)%bool; [keys|]. destruct (_ || _)%bool; keys.
    - apply (keyed_formats _ _ ["parse"]%string); [|destruct f; go]. cbn. unfold date_native. destruct v; try keys; destruct (first_format _ _); keys.
    - apply (keyed_formats _ _ dt_keys); [apply keyed_datetime|]. unfold dt_keys. go.
    - apply (keyed_formats _ _ ["convert"]%string); [|go]. cbn.
      assert (D : keyed ["convert"]%string (rbind (py_float R v) (fun o => match o with None => conv_err "convert"
         | Some f => match timedelta_of (unit_us p) f with Ok us => Ok (VTimedelta us) | Raise (XPy EValueError) => conv_err "convert" | Raise e => Raise e end end))).
      { apply keyed_bind; [apply keyed_float|]. intros [f|]; [|keys]. destruct (timedelta_of _ _) as [us|e] eqn:E; [keys|].
        destruct (timedelta_err _ _ _ E) as [->| ->]; keys. }
      destruct v; first [exact D|keys].
    - apply (keyed_formats _ _ ["GeoPointType can only accept tuples, lists, or dicts"; "Value must be a two-dimensional point";
        "Both values in point must be float or int"]%string); [|go]. cbn. unfold geo_native. destruct (geo_elems v); [|keys]. destruct (negb _); [keys|]. destruct (negb _); keys.
    - apply (keyed_formats _ _ ["Value must be a dict or None"]%string); [|go]. cbn. destruct v; keys.
    - apply (keyed_formats _ _ ["convert"]%string); [|go]. cbn. unfold enum_native. destruct (match v with VEnum _ _ _ => _ | _ => _ end); [keys|].
      destruct (find_by_name _ _); [keys|]. destruct (find_by_value _ _ _); keys.
    - apply (keyed_formats _ _ ["convert"]%string); [|go]. cbn. unfold objectid_native. cbv zeta.
      destruct v; try (destruct (bs_parse _ _); keys). destruct (bs_is_id _ _); [keys|]. destruct (bs_parse _ _); keys.
  Qed.
End Defaults.

(** *** Exports of multilingual texts *)
Section Export.
  Context (U : unicode) (fmt : pyval -> pstr) (other : list pyval -> pstr -> res pstr).
  Theorem multi_export c d lo hi re lre given x tpl v : NoDup (dkeys given) -> in_force (multi_m lo hi re lre) given x tpl ->
    lf_prim (multi_type c d) v = Raise (XConv [u x]) -> In x ["no_locale"; "locale_not_found"; "convert"]%string ->
    prim_text U fmt other (multi_m lo hi re lre) given (multi_type c d) v = Raise (XConv [tpl]).
  Proof.
    intros N F E H. unfold prim_text, with_text. rewrite E. cbn [In] in H.
    assert (S : mt_site (multi_m lo hi re lre) (u x) v = Some (Unformatted x)) by (destruct H as [<-|[<-|[<-|[]]]]; reflexivity).
    rewrite S. cbn [site_text]. rewrite (in_force_at _ _ _ _ N F). reflexivity.
  Qed.
End Export.

(** *** What does not hold *)
(** A template that names a missing argument: the caller gets IndexError. *)
Theorem missing_argument U fmt other l T x ok extra v : quoting l T x ok extra -> ok v -> lf_native l v = Raise (XConv [u x]) ->
  native_text U fmt other T [(k x, u "Not {9}")] l v = Raise (XPy EIndexError).
Proof.
  intros Q O E. unfold native_text, with_text. rewrite E, (quoting_site _ _ _ _ _ _ Q O). f_equal.
  rewrite (formatted_text U fmt other T [(k x, u "Not {9}")] x (v :: extra) (u "Not {9}")).
  - destruct Q; reflexivity.
  - repeat constructor. intros [].
  - left. cbn [dget]. now rewrite key_eqb_refl.
Qed.
(** A text that is a timestamp is shown as a float. *)
Theorem timestamp_shown U fmt other R o e fs v f : dt_how o = PBuiltin -> py_float R v = Ok (Some f) ->
  lf_native (dt_type R o e) v = Raise (XConv [u "parse_tzd_reject"]) ->
  native_text U fmt other (datetime_m R (dt_how o) fs) [] (dt_type R o e) v =
  Raise (XConv [u "Could not parse " ++ fmt (VFloat f) ++ u ". Time zone offset not allowed."]).
Proof.
  intros H F E. unfold native_text, with_text. rewrite E. cbn [mt_site datetime_m].
  assert (S : shown R (dt_how o) v = VFloat f) by (unfold shown; rewrite H, F; reflexivity). rewrite S. reflexivity.
Qed.
