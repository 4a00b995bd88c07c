(** validate(convert=False) and validate() agree on values that need no conversion. *)
From Coq Require Import Lia.
From Verif.Model Require Import Py Core Export Api.
From Verif.Spec Require Import ImportSpec ValidateSpec SettledSpec OptionSpec.
From Verif.Proofs Require Import DictLemmas RoundTrip OptionFacts.
Open Scope list_scope.

(** The first run gave up for lack of fuel, or both runs are the same. *)
Definition rsim {A} (a b : res A) : Prop := a = Raise XFuel \/ a = b.
Lemma rsim_refl {A} (a : res A) : rsim a a. Proof. now right. Qed.
Lemma rsim_bind {A B} (a b : res A) (k l : A -> res B) : rsim a b -> (forall v, a = Ok v -> rsim (k v) (l v)) -> rsim (rbind a k) (rbind b l).
Proof. intros [->|<-] H; [now left|]. destruct a; cbn; [now apply H|now right]. Qed.
(** The context without conversion. *)
Definition keep (x : ictx) : ictx :=
  Ctx (cx_trusted x) (cx_mapping x) (cx_partial x) (cx_strict x) (cx_init_values x) (cx_apply_defaults x) false (cx_validate x) (cx_oo x) (cx_recursive x).
Definition checking (x : ictx) : Prop := cx_convert x = true /\ cx_validate x = true.
(** Same outcome with and without conversion, and the value itself if it is a success. *)
Definition fixed (fc : fspec -> pyval -> ictx -> res pyval) (f : fspec) (v : pyval) : Prop :=
  forall x, checking x -> rsim (fc f v x) (fc f v (keep x)) /\ forall w, fc f v x = Ok w -> w = v.

Lemma validators_result_ok vs v w : validators_result vs v = Ok w -> w = v.
Proof. unfold validators_result. destruct (run_validators vs v []) as [[|]|]; try discriminate. now intros [= <-]. Qed.

Section Fixed.
  Context (E : env).
  Lemma list_loop_fixed fc g x l : checking x -> (forall v, In v l -> fixed fc g v) -> forall i data errs,
    rsim (list_loop fc g x i l data errs) (list_loop fc g (keep x) i l data errs) /\
    forall d, list_loop fc g x i l data errs = Ok (d, []) -> d = data ++ l.
  Proof.
    intros C. induction l as [|v l IH]; intros H i data errs; cbn [list_loop].
    - split; [apply rsim_refl|]. rewrite app_nil_r. now intros d [= <- _].
    - destruct (H v (or_introl eq_refl) x C) as [[Q|Q] V].
      + rewrite Q. cbn. split; [now left|discriminate].
      + rewrite <- Q. destruct (fc g v x) as [w|e].
        * rewrite (V w eq_refl). destruct (IH (fun u I => H u (or_intror I)) (i + 1)%Z (data ++ [v]) errs) as [A B].
          split; [exact A|]. intros d D. rewrite (B d D), <- app_assoc. reflexivity.
        * destruct (is_base_error e); [|split; [apply rsim_refl|discriminate]].
          destruct (IH (fun u I => H u (or_intror I)) (i + 1)%Z data (dset (KInt i) (err_node e) errs)) as [A B]. split; [exact A|].
          intros d D. exfalso. eapply list_loop_errs; [|exact D|reflexivity]. apply dset_nonempty.
  Qed.
  Lemma dset_fresh {A} y (v : A) d : ~ In y (dkeys d) -> dset y v d = d ++ [(y, v)].
  Proof.
    induction d as [|[z w] d IH]; cbn [dkeys map fst dset]; intros N; [reflexivity|].
    destruct (key_eqb y z) eqn:Q; [apply key_eqb_eq in Q as ->; destruct N; now left|]. cbn. rewrite IH; [reflexivity|]. intros I. apply N. now right.
  Qed.
  Lemma dict_loop_fixed fc g ck x l : checking x -> (forall y v, In (y, v) l -> ck y = Ok y /\ fixed fc g v) -> forall data errs,
    rsim (dict_loop fc g ck x l data errs) (dict_loop fc g ck (keep x) l data errs) /\
    forall d, NoDup (dkeys (data ++ l)) -> dict_loop fc g ck x l data errs = Ok (d, []) -> d = data ++ l.
  Proof.
    intros C. induction l as [|[y v] l IH]; intros H data errs; cbn [dict_loop].
    - split; [apply rsim_refl|]. rewrite app_nil_r. now intros d _ [= <- _].
    - destruct (H y v (or_introl eq_refl)) as [K F]. destruct (F x C) as [[Q|Q] V].
      + rewrite Q. cbn. split; [now left|discriminate].
      + rewrite <- Q. destruct (fc g v x) as [w|e]; cbn [rbind].
        * rewrite (V w eq_refl), K. cbn [rbind]. destruct (IH (fun a b I => H a b (or_intror I)) (dset y v data) errs) as [A B].
          split; [exact A|]. intros d N D. assert (Fr : ~ In y (dkeys data)).
          { unfold dkeys in *. rewrite map_app in N. cbn in N. apply NoDup_remove_2 in N. intros I. apply N, in_or_app. now left. }
          rewrite (dset_fresh y v data Fr) in B, D. rewrite (B d); [now rewrite <- app_assoc|now rewrite <- app_assoc|exact D].
        * destruct (is_base_error e); [|split; [apply rsim_refl|discriminate]].
          destruct (IH (fun a b I => H a b (or_intror I)) data (dset y (err_node e) errs)) as [A B]. split; [exact A|].
          intros d N D. exfalso. eapply dict_loop_errs; [|exact D|reflexivity]. apply dset_nonempty.
  Qed.

  Record conv_fixed (r : conv) : Prop := {
    cf_field : forall f v, v = VNone \/ v = VUndef \/ settled f v -> fixed (cv_field r) f v;
    cf_convert : forall f v, settled f v -> fixed (cv_convert r) f v;
    cf_validate : forall f v, settled f v -> fixed (cv_validate r) f v;
    cf_accept : forall f v x t, settled f v -> checking x -> cv_convert r f v x <> Raise (XConv t);
    cf_leaf : forall f l v x y, fs_type f = TLeaf l ->
      cv_convert r f v x = cv_convert r f v y /\ (cv_convert r f v x = Raise XFuel \/ cv_convert r f v x = lf_native l v) }.
  Lemma union_fixed r ms1 m ms2 v x : conv_fixed r -> checking x ->
    (forall g, In g ms1 -> exists l t, fs_type g = TLeaf l /\ lf_native l v = Raise (XConv t)) -> settled m v ->
    let a := union_resolve (fun g u => cv_convert r g u x) (ms1 ++ m :: ms2) v in
    rsim a (union_resolve (fun g u => cv_convert r g u (keep x)) (ms1 ++ m :: ms2) v) /\
    (forall g w, a = Ok (g, w) -> g = m /\ w = v) /\ forall t, a <> Raise (XConv t).
  Proof.
    intros H C R S a. subst a. induction ms1 as [|g ms1 IH]; cbn [app union_resolve].
    - destruct (cf_convert r H m v S x C) as [[Q|Q] V].
      + rewrite Q. split; [now left|]. split; [discriminate|discriminate].
      + pose proof (fun t => cf_accept r H m v x t S C) as A. rewrite <- Q. destruct (cv_convert r m v x) as [w|e].
        * split; [apply rsim_refl|]. split; [|discriminate]. intros g w' [= <- <-]. split; [reflexivity|now apply V].
        * destruct e as [t| | | | |]; try (split; [apply rsim_refl|]; split; discriminate). now destruct (A t).
    - destruct (R g (or_introl eq_refl)) as (l & t & T & N). destruct (cf_leaf r H g l v x (keep x) T) as [Q [Z|Z]].
      + rewrite Z. split; [now left|]. split; discriminate.
      + rewrite <- Q, Z, N. apply IH. intros g' I. apply R. now right.
  Qed.
  Lemma conv_step_fixed r : conv_fixed r -> conv_fixed (conv_step E r).
  Proof.
    intros H.
    assert (Cv : forall f v, settled f v -> fixed (convert_step E r) f v).
    { intros f v S x C. unfold convert_step. inversion S as [o l v0 L|o g l L|o g ck d N D|o ms1 m ms2 v0 R M]; subst; cbn [fs_type].
      - split; [apply rsim_refl|]. rewrite L. now intros w [= <-].
      - unfold list_convert. cbn [list_elems]. destruct (list_loop_fixed (cv_field r) g x l C) with (i := 0%Z) (data := @nil pyval) (errs := @nil (key * errnode)) as [A B].
        { intros u I. apply cf_field; [assumption|]. now apply L. }
        split.
        + apply rsim_bind; [exact A|]. intros; apply rsim_refl.
        + destruct (list_loop (cv_field r) g x 0 l [] []) as [[d e]|]; cbn [rbind]; [|discriminate]. destruct e; [|discriminate].
          intros w [= <-]. now rewrite (B d eq_refl).
      - unfold dict_convert. destruct (dict_loop_fixed (cv_field r) g ck x d C) with (data := @nil (key * pyval)) (errs := @nil (key * errnode)) as [A B].
        { intros y u I. destruct (D y u I) as [K Q]. split; [exact K|]. apply cf_field; [assumption|]. exact Q. }
        split.
        + apply rsim_bind; [exact A|]. intros; apply rsim_refl.
        + destruct (dict_loop (cv_field r) g ck x d [] []) as [[d' e]|]; cbn [rbind]; [|discriminate]. destruct e; [|discriminate].
          intros w [= <-]. now rewrite (B d' N eq_refl).
      - destruct (union_fixed r ms1 m ms2 v x H C R M) as (A & B & _). split.
        + apply rsim_bind; [exact A|]. intros; apply rsim_refl.
        + destruct (union_resolve _ _ _) as [[g w]|] eqn:Q; cbn [rbind]; [|discriminate]. intros w' [= <-]. now apply (B g). }
    assert (Va : forall f v, settled f v -> fixed (cv_validate (conv_step E r)) f v).
    { intros f v S x C. cbn. unfold validate_step.
      assert (Un : forall o ms, f = FS o (TUnion ms) -> fixed (fun g u y => rbind (union_resolve (fun m u => cv_convert r m u y) ms u) (fun '(m, _) => cv_validate r m u y)) f v).
      { intros o ms ->. inversion S as [| | |o' ms1 m ms2 v0 R M]; subst. intros y Cy. destruct (union_fixed r ms1 m ms2 v y H Cy R M) as (A & B & _).
        destruct (union_resolve _ (ms1 ++ m :: ms2) v) as [[g w]|e] eqn:Q.
        - destruct (B g w eq_refl) as [-> ->]. destruct A as [A|A]; [discriminate|]. rewrite <- A. cbn [rbind]. now apply cf_validate.
        - destruct A as [A|A]; [rewrite A; cbn [rbind]; split; [now left|discriminate]|]. rewrite <- A. cbn [rbind]. split; [apply rsim_refl|discriminate]. }
      assert (K : cx_convert (keep x) = false) by reflexivity. destruct C as [C1 C2]. rewrite K, C1.
      inversion S as [o l v0 L|o g l L|o g ck d N D|o ms1 m ms2 v0 R M]; subst.
      4:{ cbn [fs_type]. exact (Un _ _ eq_refl x (conj C1 C2)). }
      all: cbn [fs_type fs_opts is_compound].
      - destruct (cf_leaf r H (FS o (TLeaf l)) l v x x eq_refl) as [_ [Q|Q]]; rewrite Q; cbn [rbind]; [split; [now left|discriminate]|].
        rewrite L. cbn [rbind]. split; [apply rsim_refl|]. intros w. apply validators_result_ok.
      - destruct (cf_convert r H _ _ S x (conj C1 C2)) as [[Q|Q] V]; [rewrite Q; cbn [rbind]; split; [now left|discriminate]|].
        rewrite <- Q. destruct (cv_convert r (FS o (TList g)) (VList l) x) as [w|]; cbn [rbind]; [|split; [apply rsim_refl|discriminate]].
        rewrite (V w eq_refl). split; [apply rsim_refl|]. intros w'. apply validators_result_ok.
      - destruct (cf_convert r H _ _ S x (conj C1 C2)) as [[Q|Q] V]; [rewrite Q; cbn [rbind]; split; [now left|discriminate]|].
        rewrite <- Q. destruct (cv_convert r (FS o (TDict g ck)) (VDict d) x) as [w|]; cbn [rbind]; [|split; [apply rsim_refl|discriminate]].
        rewrite (V w eq_refl). split; [apply rsim_refl|]. intros w'. apply validators_result_ok. }
    split; cbn [conv_step cv_field cv_convert cv_validate].
    - intros f v D x C. unfold field_step. change (check_required f v (keep x)) with (check_required f v x).
      destruct (check_required f v x); [split; [apply rsim_refl|discriminate]|]. destruct (is_nil v) eqn:Nl; [split; [apply rsim_refl|now intros w [= <-]]|].
      destruct D as [->|[->|D]]; [discriminate..|]. change (cx_validate (keep x)) with (cx_validate x). rewrite (proj2 C).
      now apply (cf_validate r H).
    - exact Cv.
    - exact Va.
    - intros f v x t S C. unfold convert_step. inversion S as [o l v0 L|o g l L|o g ck d N D|o ms1 m ms2 v0 R M]; subst; cbn [fs_type].
      + rewrite L. discriminate.
      + unfold list_convert. cbn [list_elems]. destruct (list_loop _ _ _ _ _ _ _) as [[d e]|ex] eqn:Q; cbn [rbind]; [destruct e; discriminate|].
        intros [= ->]. exact (list_loop_raise _ _ _ _ _ _ _ _ Q t eq_refl).
      + unfold dict_convert. destruct (dict_loop _ _ _ _ _ _ _) as [[d' e]|ex] eqn:Q; cbn [rbind]; [destruct e; discriminate|].
        intros [= ->]. exact (dict_loop_raise _ _ _ _ _ _ _ _ Q t eq_refl).
      + destruct (union_fixed r ms1 m ms2 v x H C R M) as (_ & _ & A). destruct (union_resolve _ _ _) as [[g w]|e]; cbn [rbind]; [discriminate|].
        intros [= ->]. now apply (A t).
    - intros f l v x y T. unfold convert_step. rewrite T. auto.
  Qed.
  Lemma conv_at_fixed n : conv_fixed (conv_at E n).
  Proof.
    induction n as [|n IH]; cbn [conv_at]; [|now apply conv_step_fixed].
    split; cbn; [intros ? ? ? ? ?; split; [now left|discriminate]..| |]; intros; try discriminate. auto.
  Qed.

  Lemma dset_In {A} y (v : A) d z u : In (z, u) (dset y v d) -> In (z, u) d \/ (z = y /\ u = v).
  Proof.
    induction d as [|[t w] d IH]; cbn [dset]; [intros [Q|[]]; injection Q as <- <-; auto|].
    destruct (key_eqb y t) eqn:Q.
    - apply key_eqb_eq in Q as ->. intros [Q|I]; [injection Q as <- <-; auto|left; now right].
    - intros [R|I]; [left; now left|]. destruct (IH I); auto. left. now right.
  Qed.
  Lemma dupdate_In {A} (e : list (key * A)) : forall d z u, In (z, u) (dupdate d e) -> In (z, u) d \/ In (z, u) e.
  Proof.
    unfold dupdate. induction e as [|[y v] e IH]; intros d z u; cbn [fold_left]; [auto|]. intros I.
    destruct (IH _ _ _ I) as [J|J]; [|right; now right]. cbn in J. destruct (dset_In _ _ _ _ _ J) as [K|[-> ->]]; [auto|]. right. now left.
  Qed.

  (** ** The loop *)
  Definition calm_value (f : fspec) (v : pyval) : Prop := v = VNone \/ v = VUndef \/ settled f v.
  Definition calm_entries (x : ictx) (fs : list (key * field)) (d : list (key * pyval)) : Prop := forall n f, In (n, f) fs ->
    (forall y v, In y (accepted_names n (fd_spec f) (cx_mapping x)) -> In (y, v) d -> calm_value (fd_spec f) v) /\
    (cx_apply_defaults x = true -> calm_value (fd_spec f) (fo_default (fs_opts (fd_spec f)))).
  Context (fc : fspec -> pyval -> ictx -> res pyval) (pre : fspec -> pyval -> res pyval).
  Context (Hfc : forall f v, calm_value f v -> fixed fc f v).
  Lemma find_alt_calm f d n ks v :
    (forall y u, In y ks -> key_true y = true -> dget y d = Some u -> calm_value f u) ->
    find_alt E (VDict d) n ks = Ok v -> calm_value f v.
  Proof.
    intros H. induction ks as [|y ks IH]; cbn [find_alt]; [intros [= <-]; right; now left|].
    destruct (key_true y && negb (key_eqb y n) && py_contains E (VDict d) y) eqn:B.
    - apply andb_true_iff in B as [B P]. apply andb_true_iff in B as [B _]. cbn. destruct (dget y d) as [u|] eqn:G; [|discriminate].
      intros [= <-]. apply (H y); [now left|assumption..].
    - apply IH. intros z u I. apply H. now right.
  Qed.
  Lemma input_accepted n f mp y : In y (input_keys n f mp) -> key_true y = true -> In y (accepted_names n f mp).
  Proof.
    unfold input_keys, accepted_names. intros [->|I] K; [now left|]. cbn [app] in I. right. apply filter_In. split; [|exact K].
    apply in_app_or in I as [I|I]; apply in_or_app.
    - left. destruct (fo_sname _) as [z|]; [|contradiction]. now destruct (key_true z).
    - right. destruct mp. exact I.
  Qed.
  Lemma field_ctx_keep x n f : field_ctx E (keep x) n f = keep (field_ctx E x n f).
  Proof. unfold field_ctx. destruct (is_compound f); reflexivity. Qed.
  Lemma field_ctx_checking x n f : checking x -> checking (field_ctx E x n f).
  Proof. unfold field_ctx. now destruct (is_compound f). Qed.
  Lemma import_field_fixed x got d n f s fs : checking x -> calm_entries x fs d -> In (n, f) fs ->
    rsim (import_field E fc x got (VDict d) n f s) (import_field E fc (keep x) got (VDict d) n f s).
  Proof.
    intros C H I. unfold import_field. destruct s as [data errs]. destruct (H n f I) as [Hd Hf].
    change (cx_mapping (keep x)) with (cx_mapping x). change (cx_apply_defaults (keep x)) with (cx_apply_defaults x).
    change (cx_init_values (keep x)) with (cx_init_values x). rewrite field_ctx_keep.
    apply rsim_bind; [apply rsim_refl|]. intros v1 V1.
    assert (A1 : calm_value (fd_spec f) v1).
    { destruct (got && is_undef (atom_value E (VDict d) n)).
      - eapply find_alt_calm; [|exact V1]. intros y u Iy K G. apply (Hd y); [now apply input_accepted|now apply dget_In].
      - injection V1 as <-. unfold atom_value. cbn. destruct (dget n d) as [u|] eqn:G; [|right; now left]. apply (Hd n); [now left|now apply dget_In]. }
    destruct (is_undef v1 && dmem n data); [apply rsim_refl|].
    set (v2 := if is_undef v1 && cx_apply_defaults x then _ else v1).
    assert (A2 : calm_value (fd_spec f) v2).
    { subst v2. destruct (is_undef v1 && cx_apply_defaults x) eqn:B; [|assumption]. apply andb_true_iff in B as [_ B]. now apply Hf. }
    set (v3 := if is_undef v2 && cx_init_values x then VNone else v2).
    assert (A3 : calm_value (fd_spec f) v3) by (subst v3; destruct (is_undef v2 && cx_init_values x); [now left|assumption]).
    cbn zeta. destruct got; [|apply rsim_refl].
    destruct (Hfc _ _ A3 _ (field_ctx_checking x n (fd_spec f) C)) as [[Q|Q] _]; [rewrite Q; now left|]. rewrite <- Q. apply rsim_refl.
  Qed.
  Lemma import_fields_fixed x got d all : checking x -> calm_entries x all d -> forall fs s, incl fs all ->
    rsim (import_fields E fc x got (VDict d) fs s) (import_fields E fc (keep x) got (VDict d) fs s).
  Proof.
    intros C H. induction fs as [|[n f] fs IH]; intros s I; cbn [import_fields]; [apply rsim_refl|].
    change (cx_validate (keep x)) with (cx_validate x). rewrite (proj2 C). cbn [negb andb].
    apply rsim_bind; [apply (import_field_fixed x got d n f s all C H), I; now left|]. intros s' _. apply IH. intros z Z. apply I. now right.
  Qed.
  (** The same for the whole loop, when there are no setters. *)
  Definition osim (a b : loop_out) : Prop := lo_res a = Raise XFuel \/ a = b.
  Lemma import_loop_fixed x fs mut a d : checking x -> (forall n f, In (n, f) fs -> fd_set f = None) ->
    calm_entries x fs d -> (forall items, py_dict E mut = Ok items -> calm_entries x fs items) ->
    osim (import_loop E fc pre x fs mut a (VDict d)) (import_loop E fc pre (keep x) fs mut a (VDict d)).
  Proof.
    intros C NS H1 H2. unfold import_loop. change (cx_trusted (keep x)) with (cx_trusted x). change (cx_validate (keep x)) with (cx_validate x).
    destruct (if truthy (cx_trusted x) then _ else _) as [data0|]; [|now right]. cbn [is_none negb andb]. rewrite (proj2 C).
    rewrite <- (proj1 (mutate_idle E fc fc pre pre x (keep x) a fs mut (VDict d) NS)).
    assert (Q : forall d', snd (fst (mutate E fc pre x a fs mut (VDict d))) = VDict d' -> calm_entries x fs d').
    { unfold mutate. rewrite mutate_fields_idle by assumption. destruct (py_dict E mut) as [items|] eqn:D; cbn [fst snd]; intros d' [= <-]; [|assumption].
      intros n f I. destruct (H1 n f I) as [A1 A2]. split; [|assumption]. intros y v Iy G.
      apply dupdate_In in G as [G|G]; [now apply (A1 y)|now apply (proj1 (H2 items eq_refl n f I) y)]. }
    assert (R : exists d', snd (fst (mutate E fc pre x a fs mut (VDict d))) = VDict d').
    { unfold mutate. rewrite mutate_fields_idle by assumption. destruct (py_dict E mut); cbn; eauto. }
    destruct R as [d' R]. specialize (Q d' R). destruct (mutate E fc pre x a fs mut (VDict d)) as [[mut1 raw1] rerrs]. cbn in R. subst raw1.
    unfold osim. cbn [lo_res].
    match goal with |- ?p = Raise XFuel \/ LO _ _ ?p = LO _ _ ?q => assert (S : rsim p q) end.
    { apply rsim_bind; [apply rsim_refl|]. intros errs0 _. apply rsim_bind; [apply rsim_refl|]. intros errs1 _.
      apply rsim_bind; [|intros; apply rsim_refl]. apply (import_fields_fixed x true d' fs C Q). apply incl_refl. }
    destruct S as [S|S]; [now left|right]. now rewrite S.
  Qed.
  Lemma validate_fn_fixed x c mut a d : checking x -> (forall n f, In (n, f) (mc_fields (e_class E c)) -> fd_set f = None) ->
    calm_entries x (mc_fields (e_class E c)) d -> (forall items, py_dict E mut = Ok items -> calm_entries x (mc_fields (e_class E c)) items) ->
    osim (validate_fn E fc pre x (e_class E c) mut a (VDict d)) (validate_fn E fc pre (keep x) (e_class E c) mut a (VDict d)).
  Proof.
    intros C NS H1 H2. unfold validate_fn. destruct (import_loop_fixed x _ mut a d C NS H1 H2) as [Q|Q]; [left; cbn [lo_res]; now rewrite Q|].
    right. now rewrite <- Q.
  Qed.
End Fixed.

Theorem validate_settled E j c m w : (forall n f, In (n, f) (fields_of E c) -> fd_set f = None) -> md_unsafe m = [] ->
  settled_instance E c w m ->
  snd (model_validate E (conv_at E j) c m (with_convert w true)) <> Some XFuel ->
  model_validate E (conv_at E j) c m (with_convert w false) = model_validate E (conv_at E j) c m (with_convert w true).
Proof.
  intros NS U [H1 H2]. unfold model_validate. cbn [with_convert kw_partial].
  assert (Q : snd (model_validate_body E (conv_at E j) c m (with_convert w true)) <> Some XFuel ->
    model_validate_body E (conv_at E j) c m (with_convert w false) = model_validate_body E (conv_at E j) c m (with_convert w true)).
  { unfold model_validate_body, model__convert. rewrite U. cbn [truthy kw_validate kw_mapping kw_partial kw_strict kw_init_values kw_apply_defaults kw_convert kw_recursive with_convert].
    match goal with |- context[validate_fn E _ _ ?x0 (e_class E c) ?mt ?al (VDict ?dd)] => match x0 with context[true] =>
      pose proof (validate_fn_fixed E (cv_field (conv_at E j)) (cv_pre (conv_at E j)) (fun f v => cf_field _ (conv_at_fixed E j) f v) x0 c mt al dd) as F end end.
    destruct F as [F|F]; [split; reflexivity|assumption|exact H1|exact H2| |].
    - cbn zeta. rewrite F. cbn. congruence.
    - intros _. cbn zeta. rewrite F. reflexivity. }
  destruct (md_converted m), (kw_partial w); try (intros; reflexivity); cbn zeta;
    destruct (model_validate_body E (conv_at E j) c m (with_convert w true)) as [m1 oe]; cbn [snd] in *; intros D; now rewrite (Q D).
Qed.

(** ** After an import *)
Section Imported.
  Context (E : env).
  Lemma list_loop_In fc g x l : forall i data errs d e u, list_loop fc g x i l data errs = Ok (d, e) -> In u d ->
    In u data \/ exists v, fc g v x = Ok u.
  Proof.
    induction l as [|v l IH]; intros i data errs d e u; cbn [list_loop]; [intros [= <- <-]; auto|].
    destruct (fc g v x) as [w|ex] eqn:F.
    - intros H I. destruct (IH _ _ _ _ _ _ H I) as [J|J]; [|auto]. apply in_app_or in J as [J|[<-|[]]]; eauto.
    - destruct (is_base_error ex); [|discriminate]. apply IH.
  Qed.
  Lemma dict_loop_In fc g ck x l : forall data errs d e y u, dict_loop fc g ck x l data errs = Ok (d, e) -> In (y, u) d ->
    In (y, u) data \/ (exists z, ck z = Ok y) /\ exists v, fc g v x = Ok u.
  Proof.
    induction l as [|[z v] l IH]; intros data errs d e y u; cbn [dict_loop]; [intros [= <- <-]; auto|].
    destruct (fc g v x) as [w|ex] eqn:F; cbn [rbind].
    - destruct (ck z) as [z'|ex] eqn:K; cbn [rbind].
      + intros H I. destruct (IH _ _ _ _ _ _ H I) as [J|J]; [|auto]. destruct (dset_In _ _ _ _ _ J) as [Q|[-> ->]]; [auto|]. right. split; eauto.
      + destruct (is_base_error ex); [|discriminate]. apply IH.
    - destruct (is_base_error ex); [|discriminate]. apply IH.
  Qed.
  Lemma dict_loop_NoDup fc g ck x l : forall data errs d e, dict_loop fc g ck x l data errs = Ok (d, e) -> NoDup (dkeys data) -> NoDup (dkeys d).
  Proof.
    induction l as [|[z v] l IH]; intros data errs d e; cbn [dict_loop]; [intros [= <- <-]; auto|].
    destruct (rbind _ _) as [[z' w]|ex].
    - intros H N. eapply IH; [exact H|]. now apply NoDup_dset.
    - destruct (is_base_error ex); [|discriminate]. apply IH.
  Qed.
  Record conv_settles (r : conv) : Prop := {
    cs_field : forall f v x w, stable_type f -> cx_validate x = false -> cv_field r f v x = Ok w -> calm_value f w;
    cs_convert : forall f v x w, stable_type f -> cx_validate x = false -> cv_convert r f v x = Ok w -> settled f w }.
  Lemma conv_at_settles n : conv_settles (conv_at E n).
  Proof.
    induction n as [|n IH]; [split; cbn; discriminate|]. cbn [conv_at]. split; cbn [conv_step cv_field cv_convert].
    - intros f v x w S V. unfold field_step. destruct (check_required f v x); [discriminate|]. destruct (is_nil v) eqn:N.
      + intros [= <-]. destruct v; try discriminate; [left|right; left]; reflexivity.
      + rewrite V. intros H. right; right. eapply cs_convert; eassumption.
    - intros f v x w S V. unfold convert_step. inversion S as [o l H|o g G|o g ck K G]; subst; cbn [fs_type].
      + intros L. constructor. eapply H; eassumption.
      + unfold list_convert. destruct (list_elems E v) as [l|]; [|discriminate]. destruct (list_loop _ _ _ _ _ _ _) as [[d e]|] eqn:L; cbn [rbind]; [|discriminate].
        destruct e; [|discriminate]. intros [= <-]. constructor. intros u I. destruct (list_loop_In _ _ _ _ _ _ _ _ _ _ L I) as [[]|[v' F]].
        exact (cs_field _ IH _ _ _ _ G V F).
      + unfold dict_convert. destruct v; try discriminate. destruct (dict_loop _ _ _ _ _ _ _) as [[d' e]|] eqn:L; cbn [rbind]; [|discriminate].
        destruct e; [|discriminate]. intros [= <-]. constructor.
        * eapply dict_loop_NoDup; [exact L|constructor].
        * intros y u I. destruct (dict_loop_In _ _ _ _ _ _ _ _ _ _ _ L I) as [[]|[[z Z] [v' F]]].
          split; [eapply K; exact Z|exact (cs_field _ IH _ _ _ _ G V F)].
  Qed.
  (** Every entry of the data is the calm value of a field. *)
  Definition entries (fs : list (key * field)) (d : list (key * pyval)) : Prop :=
    forall y v, In (y, v) d -> exists f, In (y, f) fs /\ calm_value (fd_spec f) v.
  Lemma import_field_entries fs fc x got raw n f data errs data' : got = true -> In (n, f) fs ->
    (forall v y w, cx_validate y = false -> fc (fd_spec f) v y = Ok w -> calm_value (fd_spec f) w) -> cx_validate x = false ->
    entries fs data -> import_field E fc x got raw n f (data, errs) = Ok (data', []) -> errs = [] /\ entries fs data'.
  Proof.
    intros -> I F V En. unfold import_field. destruct (if true && _ then _ else _) as [v1|]; cbn [rbind]; [|discriminate].
    destruct (is_undef v1 && dmem n data); [intros [= <- ->]; auto|].
    destruct (fc _ _ _) as [w|e] eqn:Q.
    - destruct (is_undef w); intros [= <- ->]; [auto|]. split; [reflexivity|]. intros y v J. destruct (dset_In _ _ _ _ _ J) as [K|[-> ->]]; [now apply En|].
      exists f. split; [assumption|]. eapply F; [|exact Q]. unfold field_ctx. now destruct (is_compound (fd_spec f)).
    - destruct (caught_by_loop e); [|discriminate]. intros [= _ Z]. exfalso. revert Z. apply dset_nonempty.
  Qed.
  Lemma import_fields_entries all fc x raw : cx_validate x = false ->
    (forall n f, In (n, f) all -> forall v y w, cx_validate y = false -> fc (fd_spec f) v y = Ok w -> calm_value (fd_spec f) w) ->
    forall fs data errs data', incl fs all -> entries all data -> import_fields E fc x true raw fs (data, errs) = Ok (data', []) -> errs = [] /\ entries all data'.
  Proof.
    intros V F. induction fs as [|[n f] fs IH]; intros data errs data' I En; cbn [import_fields]; [intros [= <- ->]; auto|].
    assert (In (n, f) all) as Nf by (apply I; now left). assert (incl fs all) as I' by (intros z Z; apply I; now right).
    destruct (negb (cx_validate x) && has_setter f); [now apply IH|].
    destruct (import_field E fc x true raw n f (data, errs)) as [[d1 e1]|] eqn:Q; cbn [rbind]; [|discriminate]. intros H.
    assert (K : e1 = []).
    { clear -H. revert d1 e1 H. induction fs as [|[n1 f1] fs IH]; intros d1 e1; cbn [import_fields]; [now intros [= _ ->]|].
      destruct (negb (cx_validate x) && has_setter f1); [apply IH|]. destruct (import_field E fc x true raw n1 f1 (d1, e1)) as [[d2 e2]|] eqn:Q; cbn [rbind]; [|discriminate].
      intros H. apply IH in H. subst e2. revert Q. unfold import_field. destruct (if true && _ then _ else _) as [v1|]; cbn [rbind]; [|discriminate].
      destruct (is_undef v1 && dmem n1 d1); [now intros [= _ ->]|]. destruct (fc _ _ _) as [w|ex]; [destruct (is_undef w); now intros [= _ ->]|].
      destruct (caught_by_loop ex); [|discriminate]. intros [= _ Z]. exfalso. revert Z. apply dset_nonempty. }
    subst e1. destruct (import_field_entries all fc x true raw n f data errs d1 eq_refl Nf (F n f Nf) V En Q) as [-> En1].
    split; [reflexivity|]. now apply (IH d1 [] data' I' En1 H).
  Qed.
  Theorem imported_settled j c raw w0 w m :
    (forall n f, In (n, f) (fields_of E c) -> stable_type (fd_spec f)) -> plain_fields (fields_of E c) ->
    separate_names (fields_of E c) (kw_mapping w) -> NoDup (dkeys (fields_of E c)) -> kw_apply_defaults w = false -> kw_validate w0 = false ->
    model_init E (conv_at E j) c raw (VDict []) w0 = Ok m -> md_unsafe m = [] /\ settled_instance E c w m.
  Proof.
    intros St Pl Sep Nd Ap V0. unfold model_init, model__convert. rewrite V0.
    destruct (if truthy raw then _ else _) as [d0|]; [|discriminate]. cbn [md_unsafe truthy]. cbn zeta.
    match goal with |- context[import_loop E _ _ ?x0 ?fs0 ?mt ?al (VDict d0)] => set (x := x0); set (o := import_loop E _ _ x fs0 mt al (VDict d0)) end.
    assert (Q : forall data, lo_res o = Ok data -> entries (fields_of E c) data).
    { intros data. subst o. subst x. unfold import_loop. cbn -[import_fields rogues copy_settable]. rewrite V0. cbn -[import_fields rogues copy_settable]. cbn [lo_res rbind].
      destruct (rogues E _ _ _ _) as [errs1|]; cbn [rbind]; [|discriminate].
      destruct (import_fields E _ _ _ _ _ _) as [[dd errs]|] eqn:I; cbn [rbind]; [|discriminate]. destruct errs; [|discriminate]. intros [= <-].
      apply import_fields_entries with (all := fields_of E c) in I as [_ I]; [| exact V0| |apply incl_refl|intros y v []].
      - assert (CS : forall fs d, (forall n f, In (n, f) fs -> fd_set f = None) -> copy_settable E (VDict d0) fs d = d).
        { induction fs as [|[n f] fs IHf]; intros d H; cbn [copy_settable]; [reflexivity|]. unfold has_setter. rewrite (H n f (or_introl eq_refl)). cbn.
          apply IHf. intros; eapply H; right; eassumption. }
        rewrite CS; [exact I|]. intros n f J. exact (proj2 (Pl n f J)).
      - intros n f J v y u Vy. exact (cs_field _ (conv_at_settles j) _ _ _ _ (St n f J) Vy). }
    assert (M : lo_mut o = VModel c (MD [] [] [] None)).
    { subst o. subst x. unfold import_loop. cbn -[import_fields rogues copy_settable]. rewrite V0. cbn -[import_fields rogues copy_settable]. reflexivity. }
    clearbody o. rewrite M. destruct (lo_res o) as [data|]; [|discriminate]. intros [= <-]. specialize (Q data eq_refl).
    assert (S : forall d, (forall y v, In (y, v) d -> In (y, v) data) -> settled_entries E c w d).
    { intros d Sub n f I. split; [|congruence]. intros y v Iy J. destruct (Q y v (Sub y v J)) as (f' & If & Cf).
      assert (y = n) as -> by (eapply Sep; [exact I|exact If|exact Iy]). assert (f' = f) as -> by (eapply fields_same; eassumption). exact Cf. }
    split; [reflexivity|]. split; cbn [md_converted md_set_converted]; [apply S; auto|]. intros d D. apply S. intros y v J.
    cbn [py_dict py_keys rbind] in D. eapply py_items_In in D; [|exact J]. cbn [py_getitem] in D. unfold model_getitem in D.
    destruct (dget y (mc_fields (e_class E c))) as [f|] eqn:G; [|discriminate]. unfold field_get in D. destruct (Pl y f (dget_In _ _ _ G)) as [Hg _]. rewrite Hg in D.
    unfold chain_get in D. cbn in D. destruct (dget y data) as [u|] eqn:Gd; [|discriminate]. destruct (is_undef u); [discriminate|]. injection D as ->.
    now apply dget_In.
  Qed.
End Imported.
