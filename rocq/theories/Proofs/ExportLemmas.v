(** Export. *)
From Verif.Model Require Import Py Core Export Api.
From Verif.Spec Require Import ImportSpec ValidateSpec CompoundSpec ExportSpec.
From Verif.Proofs Require Import DictLemmas ImportLemmas ApiLemmas.

Lemma reading_atom E obj n : atom_value E obj n = reading E obj n.
Proof.
  unfold atom_value, reading, py_getitem, model_getitem, fields_of. destruct obj; try reflexivity.
  - now destruct (dget n d).
  - destruct (dget n (mc_fields (e_class E c))) as [f|]; [|reflexivity]. unfold field_get.
    destruct (fd_get f) as [g|].
    + destruct (g (VModel c m)) as [v|]; [|reflexivity]. now destruct v.
    + destruct (chain_get m n) as [v|]; [|reflexivity]. now destruct v.
Qed.

Lemma level_spec E f x l : get_export_level E f x = l <-> level_in_force E f x l.
Proof.
  unfold get_export_level. split.
  - intros <-. destruct (ec_level x) eqn:H1; [now apply lv_call|].
    destruct (fo_level (fs_opts f)) eqn:H2; [now apply lv_field|].
    destruct (fo_owner (fs_opts f)) eqn:H3; [now apply lv_class|now apply lv_default].
  - intros [l0 H|l0 H1 H2|c H1 H2 H3|H1 H2 H3]; rewrite ?H, ?H1, ?H2, ?H3; reflexivity.
Qed.
Lemma level_fun E f x l l' : level_in_force E f x l -> level_in_force E f x l' -> l = l'.
Proof. rewrite <- !level_spec. congruence. Qed.

Lemma filter_spec E c x filt : export_filter (e_class E c) x = Ok filt <-> role_in_force E c x filt.
Proof.
  unfold export_filter. split.
  - destruct (ec_role x) as [|n|g] eqn:R.
    + intros [= <-]. now apply rf_none.
    + destruct (dget n (mc_roles (e_class E c))) as [g|] eqn:G; [intros [= <-]; eapply rf_named; eassumption|].
      destruct (key_true n && ec_raise x) eqn:B; [discriminate|]. intros [= <-]. eapply rf_unknown; try eassumption.
      apply andb_false_iff in B. exact B.
    + intros [= <-]. now apply rf_function.
  - intros [g R|n g R G|n R G B|R]; rewrite R, ?G; try reflexivity.
    destruct B as [B|B]; rewrite B; [reflexivity|]. now rewrite andb_false_r.
Qed.
Lemma filter_raise E c x e : export_filter (e_class E c) x = Raise e <-> unknown_role E c x /\ e = XPy EValueError.
Proof.
  unfold export_filter, unknown_role. split.
  - destruct (ec_role x) as [|n|g]; try discriminate.
    destruct (dget n (mc_roles (e_class E c))) as [g|] eqn:G; [discriminate|].
    destruct (key_true n) eqn:B1; [|discriminate]. destruct (ec_raise x) eqn:B2; [|discriminate]. intros [= <-].
    split; [|reflexivity]. exists n. auto.
  - intros [(n & R & G & B1 & B2) ->]. now rewrite R, G, B1, B2.
Qed.

Lemma empty_len_spec w : empty_len w = true <-> empty_value w.
Proof.
  unfold empty_value. split.
  - destruct w; try discriminate; cbn; destruct s + destruct l + destruct d; try discriminate; intros _; auto 6.
  - intros [->|[->|[->|[->| ->]]]]; reflexivity.
Qed.

Section F.
  Context (E : env) (fe : exporter) (x : ectx) (filt : option rolefn) (obj : pyval).
  Let R n := reading E obj n.

  Lemma hidden_dec n v : match filt with Some g => g n v | None => false end = true <-> hidden filt n v.
  Proof.
    unfold hidden. split.
    - destruct filt as [g|]; [eauto|discriminate].
    - intros (g & -> & H). exact H.
  Qed.

  Lemma export_field_cases n f :
    (exists w, export_field E fe x filt obj n f = Ok (Some (public_name n f, w)) /\ writes E fe x filt obj n f w /\
       forall e, ~ export_fails E fe x filt obj n f e) \/
    (export_field E fe x filt obj n f = Ok None /\ (forall w, ~ writes E fe x filt obj n f w) /\
       forall e, ~ export_fails E fe x filt obj n f e) \/
    (exists e, export_field E fe x filt obj n f = Raise e /\ export_fails E fe x filt obj n f e /\
       forall w, ~ writes E fe x filt obj n f w).
  Proof.
    unfold export_field. rewrite reading_atom. fold (R n). set (v := R n).
    destruct (match filt with Some g => g n v | None => false end) eqn:H.
    { right; left. apply hidden_dec in H. split; [reflexivity|]. split; intros ? [K _]; exact (K H). }
    assert (Hh : ~ hidden filt n v) by (rewrite <- hidden_dec, H; discriminate). clear H.
    set (lvl := get_export_level E (fd_spec f) x). assert (Hl : level_in_force E (fd_spec f) x lvl) by now apply level_spec.
    destruct (Z.eqb_spec lvl DROP) as [D|D].
    { right; left. split; [reflexivity|]. split.
      - intros w (_ & lvl' & w0 & L & _ & [S _] & _). apply S. rewrite (level_fun _ _ _ _ _ L Hl). exact D.
      - intros e (_ & _ & _ & lvl' & L & S). apply S. rewrite (level_fun _ _ _ _ _ L Hl). exact D. }
    assert (Hx : forall w0, (if is_nil v then Ok v else fe (fd_spec f) v x) = Ok w0 <-> exported fe (fd_spec f) x v w0).
    { unfold exported. intros w0. destruct (is_nil v); split.
      - intros [= <-]; auto.
      - intros [[_ ->]|[K _]]; [reflexivity|discriminate].
      - auto.
      - intros [[K _]|[_ K]]; [discriminate|exact K]. }
    destruct (if is_nil v then Ok v else fe (fd_spec f) v x) as [w0|e0] eqn:X; cbn [rbind].
    2:{ right; right. exists e0. split; [reflexivity|]. destruct (is_nil v) eqn:Nv; [discriminate|]. split.
        - split; [exact Hh|]. split; [exact Nv|]. split; [exact X|]. exists lvl. auto.
        - intros w (_ & lvl' & w0 & _ & K & _). apply Hx in K. discriminate. }
    assert (Hw : exported fe (fd_spec f) x v w0) by now apply Hx.
    assert (Nf : forall e, ~ export_fails E fe x filt obj n f e).
    { intros e (_ & K1 & K2 & _). fold (R n) in K1, K2. fold v in K1, K2. rewrite K1 in X. congruence. }
    assert (One : forall w, writes E fe x filt obj n f w <-> shown lvl (is_compound (fd_spec f)) w0 /\ w = (if is_undef w0 then VNone else w0)).
    { intros w. split.
      - intros (_ & lvl' & w1 & L & K & S & ->). fold (R n) in K. fold v in K. apply Hx in K. injection K as <-.
        rewrite (level_fun _ _ _ _ _ Hl L). auto.
      - intros [S ->]. split; [exact Hh|]. exists lvl, w0. auto. }
    unfold DROP, DEFAULT, NOT_NONE, NONEMPTY in *.
    assert (A : shown lvl (is_compound (fd_spec f)) w0 \/ ~ shown lvl (is_compound (fd_spec f)) w0).
    { unfold shown. destruct (is_undef w0) eqn:U.
      - destruct (Z.leb_spec lvl 10); [right; intros (_ & K & _)|left; split; [exact D|]].
        + destruct w0; try discriminate. specialize (K eq_refl). lia.
        + destruct w0; try discriminate. split; [lia|]. split; [discriminate|]. intros _ [K|[K|[K|[K|K]]]]; discriminate.
      - destruct (is_none w0) eqn:N.
        + destruct w0; try discriminate. destruct (Z.leb_spec lvl 2); [right; intros (_ & _ & K & _); specialize (K eq_refl); lia|].
          left. split; [exact D|]. split; [discriminate|]. split; [lia|]. intros _ [K|[K|[K|[K|K]]]]; discriminate.
        + assert (w0 <> VUndef /\ w0 <> VNone) as [K1 K2] by (destruct w0; split; discriminate).
          destruct (is_compound (fd_spec f)); [|left; repeat split; try congruence; try exact D].
          destruct (empty_len w0) eqn:L0.
          * apply empty_len_spec in L0. destruct (Z.leb_spec lvl 1); [right; intros (_ & _ & _ & K); specialize (K eq_refl L0); lia|].
            left. repeat split; try congruence; try exact D; try lia.
          * left. repeat split; try congruence. intros _ K. apply empty_len_spec in K. congruence. }
    destruct A as [A|A].
    - left. exists (if is_undef w0 then VNone else w0). split; [|split; [apply One; auto|exact Nf]].
      destruct A as (_ & A1 & A2 & A3). destruct (is_undef w0) eqn:U.
      + destruct w0; try discriminate. destruct (Z.leb_spec lvl 10); [specialize (A1 eq_refl); lia|reflexivity].
      + destruct (is_none w0) eqn:N.
        * destruct w0; try discriminate. destruct (Z.leb_spec lvl 2); [specialize (A2 eq_refl); lia|reflexivity].
        * destruct (is_compound (fd_spec f)); [|reflexivity]. cbn [andb]. destruct (empty_len w0) eqn:L0; [|reflexivity].
          apply empty_len_spec in L0. destruct (Z.leb_spec lvl 1); [specialize (A3 eq_refl L0); lia|reflexivity].
    - right; left. split; [|split; [|exact Nf]].
      2:{ intros w K. apply One in K as [K _]. auto. }
      destruct (is_undef w0) eqn:U.
      + destruct w0; try discriminate. destruct (Z.leb_spec lvl 10); [reflexivity|]. elim A. split; [exact D|].
        split; [lia|]. split; [discriminate|]. intros _ [K|[K|[K|[K|K]]]]; discriminate.
      + destruct (is_none w0) eqn:N.
        * destruct w0; try discriminate. destruct (Z.leb_spec lvl 2); [reflexivity|]. elim A. split; [exact D|].
          split; [discriminate|]. split; [lia|]. intros _ [K|[K|[K|[K|K]]]]; discriminate.
        * assert (w0 <> VUndef /\ w0 <> VNone) as [K1 K2] by (destruct w0; split; discriminate).
          destruct (is_compound (fd_spec f)); [|elim A; repeat split; try congruence; try exact D]. cbn [andb].
          destruct (empty_len w0) eqn:L0; cbn [andb].
          -- destruct (Z.leb_spec lvl 1); [reflexivity|]. elim A. repeat split; try congruence; try exact D; try lia.
          -- elim A. repeat split; try congruence; try exact D. intros _ K. apply empty_len_spec in K. congruence.
  Qed.

  Lemma writes_fun n f w w' : writes E fe x filt obj n f w -> writes E fe x filt obj n f w' -> w = w'.
  Proof.
    intros (_ & l1 & w1 & L1 & X1 & _ & ->) (_ & l2 & w2 & L2 & X2 & _ & ->).
    assert (w1 = w2) as ->; [|reflexivity].
    destruct X1 as [[N1 ->]|[N1 X1]], X2 as [[N2 ->]|[N2 X2]]; congruence.
  Qed.

  Lemma export_fields_ok fs data d : export_fields E fe x filt obj fs data = Ok d <->
    exists l, written E fe x filt obj fs l /\ d = dupdate data l.
  Proof.
    revert data. induction fs as [|[n f] fs IH]; intros data; cbn [export_fields].
    - split.
      + intros [= <-]. exists []. split; [constructor|reflexivity].
      + intros (l & H & ->). inversion H; subst. reflexivity.
    - destruct (export_field_cases n f) as [(w & H1 & H2 & H3)|[(H1 & H2 & H3)|(e & H1 & H2 & H3)]]; rewrite H1; cbn [rbind].
      + rewrite IH. split.
        * intros (l & K & ->). exists ((public_name n f, w) :: l). split; [now constructor|reflexivity].
        * intros (l & K & ->). inversion K as [|? ? w' ? l' K1 K2|? ? ? ? K1 K2 K3]; subst; [|now elim (K1 w)].
          exists l'. split; [exact K2|]. now rewrite (writes_fun _ _ _ _ H2 K1).
      + rewrite IH. split.
        * intros (l & K & ->). exists l. split; [now constructor|reflexivity].
        * intros (l & K & ->). inversion K as [|? ? w' ? l' K1 K2|? ? ? ? K1 K2 K3]; subst; [now elim (H2 w')|eauto].
      + split; [discriminate|]. intros (l & K & _).
        inversion K as [|? ? w' ? l' K1 K2|? ? ? ? K1 K2 K3]; subst; [now elim (H3 w')|now elim (K2 e)].
  Qed.

  Lemma export_fields_raise fs data e : export_fields E fe x filt obj fs data = Raise e <->
    exists pre n f post, fs = pre ++ (n, f) :: post /\ export_fails E fe x filt obj n f e /\
      forall n' f' e', In (n', f') pre -> ~ export_fails E fe x filt obj n' f' e'.
  Proof.
    revert data. induction fs as [|[n f] fs IH]; intros data; cbn [export_fields].
    - split; [discriminate|]. intros (pre & n & f & post & H & _). destruct pre; discriminate.
    - assert (G : (forall e, ~ export_fails E fe x filt obj n f e) -> forall data,
        (export_fields E fe x filt obj fs data = Raise e <->
         exists pre n0 f0 post, (n, f) :: fs = pre ++ (n0, f0) :: post /\ export_fails E fe x filt obj n0 f0 e /\
           forall n' f' e', In (n', f') pre -> ~ export_fails E fe x filt obj n' f' e')).
      { intros H3 data0. rewrite IH. split.
        - intros (pre & n0 & f0 & post & -> & K1 & K2). exists ((n, f) :: pre), n0, f0, post. split; [reflexivity|].
          split; [exact K1|]. intros n' f' e' [[= <- <-]|Hi]; [apply H3|eauto].
        - intros (pre & n0 & f0 & post & K0 & K1 & K2). destruct pre as [|[n1 f1] pre]; cbn in K0; injection K0 as -> -> ->.
          + now elim (H3 e).
          + exists pre, n0, f0, post. split; [reflexivity|]. split; [exact K1|]. intros; apply K2; right; assumption. }
      destruct (export_field_cases n f) as [(w & H1 & H2 & H3)|[(H1 & H2 & H3)|(e0 & H1 & H2 & H3)]]; rewrite H1; cbn [rbind].
      + apply G, H3.
      + apply G, H3.
      + split.
        * intros [= <-]. exists [], n, f, fs. split; [reflexivity|]. split; [exact H2|]. intros ? ? ? [].
        * intros (pre & n0 & f0 & post & K0 & K1 & K2). destruct pre as [|[n1 f1] pre]; cbn in K0; injection K0 as <- <- ->.
          -- destruct K1 as (_ & _ & K1 & _), H2 as (_ & _ & H2 & _). congruence.
          -- elim (K2 n f e0); [left; reflexivity|exact H2].
  Qed.

  Lemma written_In fs l s w : written E fe x filt obj fs l ->
    (In (s, w) l <-> exists n f, In (n, f) fs /\ s = public_name n f /\ writes E fe x filt obj n f w).
  Proof.
    induction 1 as [|n f w0 fs l H1 H2 IH|n f fs l H1 H2 H3 IH].
    - split; [intros []|intros (? & ? & [] & _)].
    - cbn. rewrite IH. split.
      + intros [[= <- <-]|(n' & f' & K1 & K2)]; [exists n, f; auto|exists n', f'; tauto].
      + intros (n' & f' & [[= <- <-]|K1] & -> & K2); [left; now rewrite (writes_fun _ _ _ _ H1 K2)|right; eauto].
    - rewrite IH. split.
      + intros (n' & f' & K1 & K2). exists n', f'. cbn; tauto.
      + intros (n' & f' & [[= <- <-]|K1] & -> & K2); [now elim (H1 w)|eauto].
  Qed.
  Lemma written_NoDup fs l : written E fe x filt obj fs l ->
    NoDup (map (fun p => public_name (fst p) (snd p)) fs) -> NoDup (dkeys l).
  Proof.
    induction 1 as [|n f w0 fs l H1 H2 IH|n f fs l H1 H2 H3 IH]; cbn; intros N; [constructor| |].
    - inversion N as [|? ? N1 N2]; subst. constructor; [|auto]. intros K. apply N1.
      apply in_map_iff in K as ((s & w) & K1 & K2). cbn in K1. subst s.
      apply (written_In _ _ _ _ H2) in K2 as (n' & f' & K2 & K3 & _). apply in_map_iff. exists (n', f'). cbn. auto.
    - inversion N; subst; auto.
  Qed.
End F.

Section L.
  Context (E : env) (fe : exporter) (x : ectx) (c : cid) (obj : pyval).
  Lemma export_loop_ok d : export_loop E fe x c obj = Ok d <->
    exists filt l, role_in_force E c x filt /\ written E fe x filt obj (fields_of E c) l /\ d = dupdate [] l.
  Proof.
    unfold export_loop. split.
    - destruct (export_filter (e_class E c) x) as [filt|] eqn:F; cbn [rbind]; [|discriminate]. intros H.
      apply filter_spec in F. apply export_fields_ok in H as (l & H & ->). eauto.
    - intros (filt & l & F & H & ->). apply filter_spec in F. rewrite F. cbn [rbind]. apply export_fields_ok. eauto.
  Qed.
  Lemma role_fun filt filt' : role_in_force E c x filt -> role_in_force E c x filt' -> filt = filt'.
  Proof. rewrite <- !filter_spec. congruence. Qed.
  Lemma export_loop_order d : NoDup (map (fun p => public_name (fst p) (snd p)) (fields_of E c)) ->
    (export_loop E fe x c obj = Ok d <->
     exists filt, role_in_force E c x filt /\ written E fe x filt obj (fields_of E c) d).
  Proof.
    intros N. rewrite export_loop_ok. split.
    - intros (filt & l & H1 & H2 & ->). exists filt. split; [exact H1|].
      rewrite dupdate_nil_l; [exact H2|]. eapply written_NoDup; eassumption.
    - intros (filt & H1 & H2). exists filt, d. split; [exact H1|]. split; [exact H2|].
      symmetry. apply dupdate_nil_l. eapply written_NoDup; eassumption.
  Qed.
  Lemma export_loop_get d filt s w : NoDup (map (fun p => public_name (fst p) (snd p)) (fields_of E c)) ->
    export_loop E fe x c obj = Ok d -> role_in_force E c x filt ->
    (dget s d = Some w <-> exists n f, In (n, f) (fields_of E c) /\ s = public_name n f /\ writes E fe x filt obj n f w).
  Proof.
    intros N H F. apply export_loop_order in H as (filt' & F' & H); [|exact N].
    rewrite (role_fun _ _ F F'). rewrite <- (written_In _ _ _ _ _ _ _ _ _ H). split; [apply dget_In|].
    apply In_dget. eapply written_NoDup; eassumption.
  Qed.
  (** Without the assumption on names: the names that occur. *)
  Lemma export_loop_keys d filt s : export_loop E fe x c obj = Ok d -> role_in_force E c x filt ->
    (In s (dkeys d) <-> exists n f w, In (n, f) (fields_of E c) /\ s = public_name n f /\ writes E fe x filt obj n f w).
  Proof.
    intros H F. apply export_loop_ok in H as (filt' & l & F' & H & ->). rewrite (role_fun _ _ F F').
    rewrite dkeys_dupdate_in. cbn [dkeys map In]. unfold dkeys. rewrite in_map_iff. split.
    - intros [[]|((s' & w) & <- & K)]. apply (written_In _ _ _ _ _ _ _ _ _ H) in K as (n & f & K). exists n, f, w. exact K.
    - intros (n & f & w & K). right. exists (s, w). split; [reflexivity|]. apply (written_In _ _ _ _ _ _ _ _ _ H). eauto.
  Qed.
  Lemma export_loop_raise e : export_loop E fe x c obj = Raise e <->
    unknown_role E c x /\ e = XPy EValueError \/
    exists filt pre n f post, role_in_force E c x filt /\ fields_of E c = pre ++ (n, f) :: post /\
      export_fails E fe x filt obj n f e /\
      forall n' f' e', In (n', f') pre -> ~ export_fails E fe x filt obj n' f' e'.
  Proof.
    unfold export_loop. split.
    - destruct (export_filter (e_class E c) x) as [filt|e0] eqn:F; cbn [rbind].
      + apply filter_spec in F. intros H. apply export_fields_raise in H as (pre & n & f & post & H). right. exists filt, pre, n, f, post. tauto.
      + intros [= ->]. apply filter_raise in F. auto.
    - intros [H|(filt & pre & n & f & post & F & H)].
      + apply filter_raise in H. now rewrite H.
      + apply filter_spec in F. rewrite F. cbn [rbind]. apply export_fields_raise. exists pre, n, f, post. exact H.
  Qed.
End L.

(** ** Lists and dictionaries *)
Section LD.
  Context (E : env) (fe : exporter) (g : fspec) (x : ectx).
  Lemma skip_spec lvl w : skip_elem g lvl w = true <->
    w = VNone /\ (lvl <= 2)%Z \/ is_compound g = true /\ empty_value w /\ (lvl <= 1)%Z.
  Proof.
    unfold skip_elem, NOT_NONE, NONEMPTY. destruct (is_none w) eqn:N.
    - destruct w; try discriminate. rewrite Z.leb_le. split; [auto|]. intros [[_ H]|(_ & [H|[H|[H|[H|H]]]] & _)]; try discriminate; exact H.
    - rewrite !andb_true_iff, empty_len_spec, Z.leb_le. split; [tauto|]. intros [[-> _]|H]; [discriminate|tauto].
  Qed.
  Lemma noskip_spec lvl w : skip_elem g lvl w = false <->
    (w = VNone -> (2 < lvl)%Z) /\ (is_compound g = true -> empty_value w -> (1 < lvl)%Z).
  Proof.
    rewrite <- not_true_iff_false, skip_spec. split.
    - intros H. split; [intros ->|intros H1 H2]; apply Z.nle_gt; intros K; apply H; tauto.
    - intros [H1 H2] [[-> H]|(H & H0 & H3)]; [specialize (H1 eq_refl); lia|specialize (H2 H H0); lia].
  Qed.
  Lemma list_export_loop_ok lvl l data r : list_export_loop fe g lvl x l data = Ok r <->
    exists r0, written_elems fe g x lvl l r0 /\ r = data ++ r0.
  Proof.
    revert data. induction l as [|v l IH]; intros data; cbn [list_export_loop].
    - split; [intros [= <-]; exists []; split; [constructor|now rewrite app_nil_r]|].
      intros (r0 & H & ->). inversion H; subst. now rewrite app_nil_r.
    - destruct (fe g v x) as [w|e] eqn:F; cbn [rbind].
      + rewrite IH. destruct (skip_elem g lvl w) eqn:S; split.
        * intros (r0 & H & ->). exists r0. split; [eapply we_skip; [exact F|now apply skip_spec|exact H]|reflexivity].
        * intros (r0 & H & ->). inversion H as [|? w' ? ? F' N1 N2 H'|? w' ? ? F' N H']; subst; [|eauto].
          assert (w' = w) as -> by congruence. assert (skip_elem g lvl w = false) by (apply noskip_spec; auto). congruence.
        * intros (r0 & H & ->). exists (w :: r0). rewrite <- app_assoc. split; [|reflexivity].
          apply noskip_spec in S as [S1 S2]. now apply we_put.
        * intros (r0 & H & ->). inversion H as [|? w' ? ? F' N1 N2 H'|? w' ? ? F' N H']; subst.
          -- assert (w' = w) as -> by congruence. eexists. rewrite <- app_assoc. split; [exact H'|reflexivity].
          -- assert (w' = w) as -> by congruence. apply skip_spec in N. congruence.
      + split; [discriminate|]. intros (r0 & H & _). inversion H; subst; congruence.
  Qed.
  Lemma list_export_ok v w : list_export E fe g v x = Ok w <->
    exists lvl, level_in_force E g x lvl /\
      (lvl = 0%Z /\ w = VList [] \/
       lvl <> 0%Z /\ exists l r, py_iter E v = Ok l /\ written_elems fe g x lvl l r /\ w = VList r).
  Proof.
    unfold list_export. set (lvl := get_export_level E g x). assert (Hl : level_in_force E g x lvl) by now apply level_spec.
    destruct (Z.eqb_spec lvl DROP) as [D|D]; split.
    - intros [= <-]. exists lvl. auto.
    - intros (lvl' & L & [[_ ->]|[K _]]); [reflexivity|]. rewrite (level_fun _ _ _ _ _ L Hl) in K. now elim K.
    - destruct (py_iter E v) as [l|] eqn:I; cbn [rbind]; [|discriminate].
      destruct (list_export_loop fe g lvl x l []) as [r|] eqn:H; cbn [rbind]; [|discriminate].
      intros [= <-]. apply list_export_loop_ok in H as (r0 & H & ->). exists lvl. split; [exact Hl|]. right. split; [exact D|].
      exists l, r0. auto.
    - intros (lvl' & L & K). rewrite (level_fun _ _ _ _ _ L Hl) in K. destruct K as [[K _]|(_ & l & r & I & H & ->)]; [now elim D|].
      rewrite I. cbn [rbind]. replace (list_export_loop fe g lvl x l []) with (Ok r); [reflexivity|].
      symmetry. apply list_export_loop_ok. eauto.
  Qed.
  Lemma dict_export_loop_ok lvl l data r : dict_export_loop fe g lvl x l data = Ok r <->
    exists r0, written_entries fe g x lvl l r0 /\ r = dupdate data r0.
  Proof.
    revert data. induction l as [|[y v] l IH]; intros data; cbn [dict_export_loop].
    - split; [intros [= <-]; exists []; split; [constructor|reflexivity]|].
      intros (r0 & H & ->). inversion H; subst. reflexivity.
    - destruct (fe g v x) as [w|e] eqn:F; cbn [rbind].
      + rewrite IH. destruct (skip_elem g lvl w) eqn:S; split.
        * intros (r0 & H & ->). exists r0. split; [eapply wn_skip; [exact F|now apply skip_spec|exact H]|reflexivity].
        * intros (r0 & H & ->). inversion H as [|? ? w' ? ? F' N1 N2 H'|? ? w' ? ? F' N H']; subst; [|eauto].
          assert (w' = w) as -> by congruence. assert (skip_elem g lvl w = false) by (apply noskip_spec; auto). congruence.
        * intros (r0 & H & ->). exists ((y, w) :: r0). split; [|reflexivity].
          apply noskip_spec in S as [S1 S2]. now apply wn_put.
        * intros (r0 & H & ->). inversion H as [|? ? w' ? ? F' N1 N2 H'|? ? w' ? ? F' N H']; subst.
          -- assert (w' = w) as -> by congruence. eexists. split; [exact H'|reflexivity].
          -- assert (w' = w) as -> by congruence. apply skip_spec in N. congruence.
      + split; [discriminate|]. intros (r0 & H & _). inversion H; subst; congruence.
  Qed.
  Lemma written_entries_keys lvl l r : written_entries fe g x lvl l r -> NoDup (dkeys l) -> NoDup (dkeys r) /\ forall y, In y (dkeys r) -> In y (dkeys l).
  Proof.
    induction 1 as [|y v w l r F N1 N2 H IH|y v w l r F N H IH]; cbn; intros Nd.
    - split; [constructor|auto].
    - inversion Nd as [|? ? D1 D2]; subst. destruct (IH D2) as [I1 I2]. split; [constructor; auto|]. intros y0 [->|K]; auto.
    - inversion Nd as [|? ? D1 D2]; subst. destruct (IH D2) as [I1 I2]. split; auto.
  Qed.
  Lemma dict_export_ok d w : NoDup (dkeys d) -> (dict_export E fe g (VDict d) x = Ok w <->
    exists lvl, level_in_force E g x lvl /\
      (lvl = 0%Z /\ w = VDict [] \/ lvl <> 0%Z /\ exists r, written_entries fe g x lvl d r /\ w = VDict r)).
  Proof.
    intros Nd. unfold dict_export. set (lvl := get_export_level E g x). assert (Hl : level_in_force E g x lvl) by now apply level_spec.
    cbn [py_item_pairs rbind]. destruct (Z.eqb_spec lvl DROP) as [D|D]; split.
    - intros [= <-]. exists lvl. auto.
    - intros (lvl' & L & [[_ ->]|[K _]]); [reflexivity|]. rewrite (level_fun _ _ _ _ _ L Hl) in K. now elim K.
    - destruct (dict_export_loop fe g lvl x d []) as [r|] eqn:H; cbn [rbind]; [|discriminate].
      intros [= <-]. apply dict_export_loop_ok in H as (r0 & H & ->). exists lvl. split; [exact Hl|]. right. split; [exact D|].
      exists r0. split; [exact H|]. rewrite dupdate_nil_l; [reflexivity|]. eapply written_entries_keys; eassumption.
    - intros (lvl' & L & K). rewrite (level_fun _ _ _ _ _ L Hl) in K. destruct K as [[K _]|(_ & r & H & ->)]; [now elim D|].
      replace (dict_export_loop fe g lvl x d []) with (Ok r); [reflexivity|].
      symmetry. apply dict_export_loop_ok. exists r. split; [exact H|]. symmetry. apply dupdate_nil_l. eapply written_entries_keys; eassumption.
  Qed.
End LD.

(** ** Levels given in the call *)
Lemma export_all E fe x c obj d filt : ec_level x = Some 99%Z -> role_in_force E c x filt ->
  export_loop E fe x c obj = Ok d ->
  forall n f, In (n, f) (fields_of E c) -> ~ hidden filt n (reading E obj n) -> In (public_name n f) (dkeys d).
Proof.
  intros HL F H n f Hi Hh. apply (export_loop_keys _ _ _ _ _ _ _ _ H F).
  apply export_loop_ok in H as (filt' & l & F' & H & _). rewrite (role_fun _ _ _ _ _ F' F) in H.
  assert (K : (exists w, writes E fe x filt obj n f w) \/ (forall w, ~ writes E fe x filt obj n f w) /\ forall e, ~ export_fails E fe x filt obj n f e).
  { clear -H Hi. induction H as [|n0 f0 w fs l H1 H2 IH|n0 f0 fs l H1 H2 H3 IH]; [destruct Hi| |]; (destruct Hi as [[= -> ->]|Hi]; [|auto]); eauto. }
  destruct K as [[w K]|[K1 K2]]; [exists n, f, w; auto|].
  destruct (is_nil (reading E obj n)) eqn:Nv.
  - exists n, f, VNone. split; [exact Hi|]. split; [reflexivity|]. split; [exact Hh|].
    exists 99%Z, (reading E obj n). split; [now apply lv_call|]. split; [left; auto|].
    split; [|destruct (reading E obj n); try discriminate; reflexivity].
    repeat split; lia.
  - destruct (fe (fd_spec f) (reading E obj n) x) as [w|e] eqn:X.
    + elim (K1 (if is_undef w then VNone else w)). split; [exact Hh|]. exists 99%Z, w. split; [now apply lv_call|].
      split; [right; auto|]. split; [repeat split; lia|reflexivity].
    + elim (K2 e). split; [exact Hh|]. split; [exact Nv|]. split; [exact X|]. exists 99%Z. split; [now apply lv_call|lia].
Qed.
Lemma export_drop E fe x c obj : ec_level x = Some 0%Z -> ~ unknown_role E c x -> export_loop E fe x c obj = Ok [].
Proof.
  intros HL U. destruct (export_loop E fe x c obj) as [d|e] eqn:H.
  - f_equal. apply export_loop_ok in H as (filt & l & F & H & ->).
    assert (l = []) as ->; [|reflexivity]. clear F. induction H as [|n0 f0 w fs l H1 H2 IH|n0 f0 fs l H1 H2 H3 IH]; [reflexivity| |exact IH].
    destruct H1 as (_ & lvl & w0 & L & _ & [S _] & _). elim S. apply (level_fun _ _ _ _ _ L). now apply lv_call.
  - apply export_loop_raise in H as [[H _]|(filt & pre & n & f & post & _ & _ & (_ & _ & _ & lvl & L & S) & _)]; [now elim U|].
    elim S. apply (level_fun _ _ _ _ _ L). now apply lv_call.
Qed.

(** ** Roles hide *)
Section Alike.
  Context (E : env) (x : ectx).
  Lemma alike_nil f v1 v2 : alike E x f v1 v2 -> is_nil v1 = is_nil v2.
  Proof. intros H; inversion H; reflexivity. Qed.
  Lemma export_field_alike fe filt o1 o2 n f :
    (forall f v1 v2, alike E x f v1 v2 -> fe f v1 x = fe f v2 x) ->
    hidden filt n (reading E o1 n) /\ hidden filt n (reading E o2 n) \/
       ~ hidden filt n (reading E o1 n) /\ ~ hidden filt n (reading E o2 n) /\
         alike E x (fd_spec f) (reading E o1 n) (reading E o2 n) ->
    export_field E fe x filt o1 n f = export_field E fe x filt o2 n f.
  Proof.
    intros Hfe H. unfold export_field. rewrite !reading_atom. destruct H as [[H1 H2]|(H1 & H2 & H3)].
    - apply hidden_dec in H1, H2. now rewrite H1, H2.
    - rewrite <- hidden_dec in H1, H2. apply not_true_is_false in H1, H2. rewrite H1, H2.
      destruct (Z.eqb _ _); [reflexivity|].
      assert (K : is_nil (reading E o1 n) = true -> reading E o1 n = reading E o2 n) by (inversion H3; cbn; congruence).
      rewrite <- (alike_nil _ _ _ H3). destruct (is_nil (reading E o1 n)); [now rewrite K|]. now rewrite (Hfe _ _ _ H3).
  Qed.
  Lemma export_loop_alike fe c o1 o2 : (forall f v1 v2, alike E x f v1 v2 -> fe f v1 x = fe f v2 x) ->
    alike_instances E x c o1 o2 -> export_loop E fe x c o1 = export_loop E fe x c o2.
  Proof.
    intros Hfe H. inversion H as [? ? ? K]; subst. unfold export_loop.
    destruct (export_filter (e_class E c) x) as [filt|] eqn:F; [|reflexivity]. cbn [rbind]. apply filter_spec in F.
    specialize (K filt). generalize (@nil (key * pyval)) as data. change (mc_fields (e_class E c)) with (fields_of E c).
    assert (K' : forall n f, In (n, f) (fields_of E c) -> export_field E fe x filt o1 n f = export_field E fe x filt o2 n f)
      by (intros n f Hi; apply export_field_alike; auto).
    clear -K'. induction (fields_of E c) as [|[n f] fs IH]; intros data; cbn [export_fields]; [reflexivity|].
    rewrite (K' n f (or_introl eq_refl)). destruct (export_field E fe x filt o2 n f) as [o|]; [|reflexivity]. cbn [rbind].
    apply IH. intros; apply K'; right; assumption.
  Qed.
  Lemma export_alike n f v1 v2 : alike E x f v1 v2 -> export_at E n f v1 x = export_at E n f v2 x.
  Proof.
    revert f v1 v2. induction n as [|n IH]; intros f v1 v2 H; [reflexivity|]. cbn [export_at].
    inversion H as [| | |? ? ? ? HL|? ? ? ? ? HK HL]; subst; [reflexivity| | | |]; cbn [export_step fs_type].
    - unfold export_step; cbn. unfold model_export. erewrite export_loop_alike; [reflexivity|exact IH|eassumption].
    - unfold export_step; cbn. unfold poly_export. erewrite export_loop_alike; [reflexivity|exact IH|eassumption].
    - unfold export_step; cbn. unfold list_export. destruct (Z.eqb _ _); [reflexivity|]. cbn [py_iter rbind].
      replace (list_export_loop (export_at E n) g (get_export_level E g x) x l2 []) with (list_export_loop (export_at E n) g (get_export_level E g x) x l1 []); [reflexivity|].
      generalize (@nil pyval) as data. clear H. induction HL as [|g v1 v2 l1 l2 H1 H2 IHl]; intros data; cbn [list_export_loop]; [reflexivity|].
      rewrite (IH _ _ _ H1). destruct (export_at E n g v2 x); [|reflexivity]. cbn [rbind]. apply IHl.
    - unfold export_step; cbn. unfold dict_export. destruct (Z.eqb _ _); [reflexivity|]. cbn [py_item_pairs rbind].
      replace (dict_export_loop (export_at E n) g (get_export_level E g x) x d2 []) with (dict_export_loop (export_at E n) g (get_export_level E g x) x d1 []); [reflexivity|].
      generalize (@nil (key * pyval)) as data. clear H. revert d2 HK HL.
      induction d1 as [|[y v1] d1 IHl]; intros [|[y2 v2] d2] HK HL data; cbn in HK; try discriminate; [reflexivity|].
      injection HK as <- HK. cbn [map snd] in HL. inversion HL as [|? ? ? ? ? H1 H2]; subst. cbn [dict_export_loop].
      rewrite (IH _ _ _ H1). destruct (export_at E n g v2 x); [|reflexivity]. cbn [rbind]. now apply IHl.
  Qed.
  Lemma export_top_alike n c m1 m2 : alike_instances E x c (VModel c m1) (VModel c m2) ->
    model_export_top E (export_at E n) c m1 x = model_export_top E (export_at E n) c m2 x.
  Proof. intros H. apply export_loop_alike; [intros; now apply export_alike|exact H]. Qed.
End Alike.
