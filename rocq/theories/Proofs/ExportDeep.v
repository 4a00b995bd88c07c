(** The export with bounded recursion computes the relation of DeepSpec. *)
From Verif.Model Require Import Py Core Export Api.
From Verif.Spec Require Import ImportSpec ValidateSpec CompoundSpec ExportSpec DeepSpec.
From Verif.Proofs Require Import DictLemmas ImportLemmas ApiLemmas CompoundLemmas PolyLemmas ExportLemmas Fuel.

Lemma shown_dec lvl cp w : shown lvl cp w \/ ~ shown lvl cp w.
Proof.
  unfold shown.
  destruct (Z.eq_dec lvl 0) as [->|D]; [right; tauto|].
  destruct (Z.leb_spec lvl 10) as [H10|H10].
  - destruct w; try (destruct (Z.leb_spec lvl 2) as [H2|H2]);
      match goal with
      | |- (_ /\ (VUndef = VUndef -> _) /\ _) \/ _ => right; intros (_ & K & _); specialize (K eq_refl); lia
      | H : (lvl <= 2)%Z |- (_ /\ _ /\ (VNone = VNone -> _) /\ _) \/ _ => right; intros (_ & _ & K & _); specialize (K eq_refl); lia
      | _ => idtac
      end;
      (destruct cp; [|left; repeat split; try discriminate; try congruence; try lia]);
      match goal with
      | |- context [empty_value ?v] =>
          destruct (empty_len v) eqn:L0;
          [apply empty_len_spec in L0; destruct (Z.leb_spec lvl 1);
             [right; intros (_ & _ & _ & K); specialize (K eq_refl L0); lia
             |left; repeat split; try discriminate; try congruence; try lia]
          |left; repeat split; try discriminate; try congruence; try lia; intros _ K; apply empty_len_spec in K; congruence]
      end.
  - left. repeat split; try lia; exact D.
Qed.

Section S.
  Context (E : env) (x : ectx).

  Section Step.
    Context (fe : exporter) (Hfe : forall f v w, fe f v x = Ok w -> exports E x f v w).
    Lemma exported_value f v w : exported fe f x v w -> exports_value E x f v w.
    Proof. intros [[N ->]|[N H]]; [now apply ev_nil|apply ev_some; auto]. Qed.
    Lemma written_exports filt obj fs l : written E fe x filt obj fs l -> exports_fields E x filt obj fs l.
    Proof.
      induction 1 as [|n f w fs l (Hh & lvl & w0 & L & X & S & ->) H2 IH|n f fs l H1 H2 H3 IH]; [constructor| |].
      - eapply xf_put; eauto using exported_value.
      - destruct (match filt with Some g => g n (reading E obj n) | None => false end) eqn:Hd.
        { apply hidden_dec in Hd. now apply xf_hidden. }
        assert (Hh : ~ hidden filt n (reading E obj n)) by (rewrite <- hidden_dec, Hd; discriminate).
        set (lvl := get_export_level E (fd_spec f) x). assert (Hl : level_in_force E (fd_spec f) x lvl) by now apply level_spec.
        destruct (Z.eq_dec lvl 0) as [D|D]; [rewrite D in Hl; now apply xf_drop|].
        assert (exists w0, exported fe (fd_spec f) x (reading E obj n) w0) as [w0 X].
        { unfold exported. destruct (is_nil (reading E obj n)) eqn:N; [eauto|].
          destruct (fe (fd_spec f) (reading E obj n) x) as [w0|e] eqn:F; [eauto|]. elim (H2 e). repeat split; eauto. }
        destruct (shown_dec lvl (is_compound (fd_spec f)) w0) as [S|S].
        + elim (H1 (if is_undef w0 then VNone else w0)). split; [exact Hh|]. exists lvl, w0. auto.
        + eapply xf_unshown; eauto using exported_value.
    Qed.
    Lemma object_exports c obj d : export_loop E fe x c obj = Ok d -> exports_object E x c obj d.
    Proof.
      intros H. apply export_loop_ok in H as (filt & l & R & W & ->). econstructor; [exact R|]. now apply written_exports.
    Qed.
    Lemma elems_exports g lvl l r : written_elems fe g x lvl l r -> exports_elems E x g lvl l r.
    Proof. induction 1; [constructor|apply xe_put; auto|eapply xe_skip; eauto]. Qed.
    Lemma entries_exports g lvl l r : written_entries fe g x lvl l r -> exports_entries E x g lvl l r.
    Proof. induction 1; [constructor|apply xn_put; auto|eapply xn_skip; eauto]. Qed.
    Lemma all_each g l ws : all_convert (fun h u _ => fe h u x) g default_ctx l ws -> each_exports E x g l.
    Proof. induction 1; [constructor|eapply ee_cons; eauto]. Qed.
    Lemma convert_chosen : forall f v,
      (forall u, export_convert E fe x f v = Ok u -> chosen E x f v) /\
      (forall es, export_convert E fe x f v = Raise (XConv es) -> declined E v f).
    Proof.
      fix IH 1. intros [o t] v. destruct t as [l|ms|c|p|g|g ck]; cbn [export_convert].
      - split; [intros u H; eapply ch_leaf; eauto|intros es H; eapply dc_leaf; eauto].
      - assert (K : (forall r, union_resolve (export_convert E fe x) ms v = Ok r ->
             exists pre m post, ms = pre ++ m :: post /\ Forall (declined E v) pre /\ chosen E x m v) /\
           (forall es, union_resolve (export_convert E fe x) ms v = Raise (XConv es) -> Forall (declined E v) ms)).
        { induction ms as [|m ms IHm]; cbn [union_resolve]; [split; [discriminate|constructor]|].
          destruct (IH m v) as [I1 I2]. destruct (export_convert E fe x m v) as [u|e] eqn:X.
          - split; [|discriminate]. intros r _. exists [], m, ms. split; [reflexivity|]. split; [constructor|]. eapply I1; reflexivity.
          - destruct e; try (split; discriminate). specialize (I2 _ eq_refl). destruct IHm as [J1 J2]. split.
            + intros r H. destruct (J1 r H) as (pre & m' & post & -> & P & C). exists (m :: pre), m', post.
              split; [reflexivity|]. split; [constructor; assumption|exact C].
            + intros es H. constructor; [exact I2|]. eapply J2; exact H. }
        destruct K as [K1 K2]. destruct (union_resolve (export_convert E fe x) ms v) as [[m u]|e]; cbn [rbind].
        + split; [|discriminate]. intros u' _. destruct (K1 _ eq_refl) as (pre & m' & post & -> & P & C). now apply ch_union.
        + split; [discriminate|]. intros es [= ->]. apply dc_union. eapply K2; reflexivity.
      - destruct (match v with VModel d _ => _ | VDict _ => _ | _ => _ end) eqn:G; split; try discriminate. intros es _.
        apply dc_model; [intros d ->; discriminate|]. intros c' m ->. exact G.
      - destruct v; cbn [is_none]; split; try discriminate. intros. apply ch_none.
      - split.
        + intros u H. apply list_convert_ok in H as (l & ws & Hl & -> & H). eapply ch_list; [exact Hl|]. eapply all_each; exact H.
        + intros es. unfold list_convert. destruct (list_elems E v) eqn:Hl; [|intros _; now apply dc_list].
          destruct (list_loop _ _ _ _ _ _ _) as [[data errs]|e] eqn:L; cbn [rbind]; [destruct errs; discriminate|].
          intros [= ->]. apply list_loop_raise in L as (v' & _ & _ & L). discriminate L.
      - split.
        + intros u H. apply dict_convert_ok in H as (d & ps & -> & -> & H). apply ch_dict.
          * induction H as [|[y v] [y' w] d ps [H1 H2] H IHd]; cbn; [constructor|]. eapply ee_cons; eauto.
          * induction H as [|[y v] [y' w] d ps [H1 H2] H IHd]; [intros y []|]. intros z [<-|Hz]; cbn in *; eauto.
        + intros es. unfold dict_convert. destruct v; try (intros _; apply dc_dict; discriminate).
          destruct (dict_loop _ _ _ _ _ _ _) as [[data errs]|e] eqn:L; cbn [rbind]; [destruct errs; discriminate|].
          intros [= ->]. apply dict_loop_raise in L as (y & v' & _ & _ & L). discriminate L.
    Qed.
    Lemma step_exports f v w : export_step E fe f v x = Ok w -> exports E x f v w.
    Proof.
      destruct f as [o [l|ms|c|p|g|g ck]]; unfold export_step; cbn [fs_type].
      - intros H. apply ex_leaf. exact H.
      - destruct (union_resolve (export_convert E fe x) ms v) as [[m u]|] eqn:U; cbn [rbind]; [|discriminate]. intros H.
        apply union_first in U as [(pre & post & -> & P & _) U]. apply ex_union.
        + eapply Forall_impl; [|exact P]. intros m' [es Hm]. eapply convert_chosen; exact Hm.
        + eapply convert_chosen; exact U.
        + now apply Hfe.
      - unfold model_export. destruct (export_loop E fe x _ v) as [d|] eqn:L; cbn [rbind]; [|discriminate].
        intros [= <-]. apply object_exports in L. destruct v; try (apply ex_mapping; [discriminate|exact L]). now apply ex_instance.
      - unfold poly_export. destruct (poly_allowed E p v) eqn:A; [|discriminate]. destruct v; try discriminate.
        destruct (export_loop E fe x _ _) as [d|] eqn:L; cbn [rbind]; [|discriminate].
        intros [= <-]. apply object_exports in L. now apply ex_poly.
      - intros H. apply list_export_ok in H as (lvl & L & [[-> ->]|(D & l & r & I & W & ->)]); [now apply ex_list_drop|].
        eapply ex_list; eauto using elems_exports.
      - unfold dict_export. set (lvl := get_export_level E g x). assert (Hl : level_in_force E g x lvl) by now apply level_spec.
        destruct (Z.eqb_spec lvl DROP) as [D|D].
        { unfold DROP in D. rewrite D in Hl. intros [= <-]. now apply ex_dict_drop. }
        destruct (py_item_pairs E v) as [l|] eqn:I; cbn [rbind]; [|discriminate].
        destruct (dict_export_loop fe g lvl x l []) as [r|] eqn:L; cbn [rbind]; [|discriminate]. intros [= <-].
        apply dict_export_loop_ok in L as (r0 & W & ->). eapply ex_dict; eauto using entries_exports.
    Qed.
  End Step.

  Lemma export_at_exports n : forall f v w, export_at E n f v x = Ok w -> exports E x f v w.
  Proof. induction n as [|n IH]; intros f v w; [discriminate|]. cbn [export_at]. apply step_exports. exact IH. Qed.

  (** From some recursion depth on. *)
  Definition ev (P : exporter -> Prop) : Prop := exists n, forall m, n <= m -> P (export_at E m).
  Lemma ev_and (P Q R : exporter -> Prop) : (forall fe, P fe -> Q fe -> R fe) -> ev P -> ev Q -> ev R.
  Proof. intros H [n HP] [m HQ]. exists (Nat.max n m). intros k Hk. apply H; [apply HP|apply HQ]; lia. Qed.
  Lemma ev_1 (P Q : exporter -> Prop) : (forall fe, P fe -> Q fe) -> ev P -> ev Q.
  Proof. intros H [n HP]. exists n. eauto. Qed.
  Lemma ev_0 (P : exporter -> Prop) : (forall fe, P fe) -> ev P.
  Proof. exists O. auto. Qed.
  Lemma ev_step f v w : ev (fun fe => export_step E fe f v x = Ok w) -> ev (fun fe => fe f v x = Ok w).
  Proof. intros [n H]. exists (S n). intros [|m] Hm; [lia|]. cbn [export_at]. apply H. lia. Qed.

  Lemma declined_refuses fe v : forall f, declined E v f -> exists es, export_convert E fe x f v = Raise (XConv es).
  Proof.
    fix IH 1. intros [o t] H. destruct t as [l|ms|c|p|g|g ck]; cbn [export_convert].
    - clear IH. inversion H; subst. eauto.
    - assert (F : Forall (declined E v) ms) by now inversion H.
      enough (K : exists es, union_resolve (export_convert E fe x) ms v = Raise (XConv es)) by (destruct K as [es ->]; cbn; eauto).
      clear H. induction ms as [|m ms IHm]; cbn [union_resolve]; [eauto|].
      destruct (IH m) as [es ->]; [now inversion F|]. apply IHm. now inversion F.
    - clear IH. inversion H as [| |? ? Hd Hm| |]; subst. destruct v; eauto; [now elim (Hd d)|]. rewrite (Hm c0 m eq_refl). eauto.
    - inversion H.
    - clear IH. inversion H as [| | |? ? Hl|]; subst. unfold list_convert. change (elements E v) with (list_elems E v) in *; rewrite Hl. eauto.
    - clear IH. inversion H as [| | | |? ? ? Hd]; subst. unfold dict_convert. destruct v; eauto. now elim (Hd d).
  Qed.
  Lemma union_chosen fe pre m post v u : Forall (declined E v) pre -> export_convert E fe x m v = Ok u ->
    union_resolve (export_convert E fe x) (pre ++ m :: post) v = Ok (m, u).
  Proof.
    intros P H. induction P as [|m' pre D P IH]; cbn [app union_resolve]; [now rewrite H|].
    destruct (declined_refuses fe v m' D) as [es ->]. exact IH.
  Qed.
  Lemma exports_export_at :
    (forall f v w, exports E x f v w -> ev (fun fe => fe f v x = Ok w)) /\
    (forall c obj d, exports_object E x c obj d -> ev (fun fe => export_loop E fe x c obj = Ok d)) /\
    (forall filt obj fs l, exports_fields E x filt obj fs l -> ev (fun fe => written E fe x filt obj fs l)) /\
    (forall f v w, exports_value E x f v w -> ev (fun fe => exported fe f x v w)) /\
    (forall g lvl l r, exports_elems E x g lvl l r -> ev (fun fe => written_elems fe g x lvl l r)) /\
    (forall g lvl l r, exports_entries E x g lvl l r -> ev (fun fe => written_entries fe g x lvl l r)) /\
    (forall f v, chosen E x f v -> ev (fun fe => exists u, export_convert E fe x f v = Ok u)) /\
    (forall g l, each_exports E x g l -> ev (fun fe => exists ws, all_convert (fun h u _ => fe h u x) g default_ctx l ws)).
  Proof.
    apply exports_all.
    - intros o l v w H. apply ev_step, ev_0. intros fe. exact H.
    - intros o pre m post v w P _ IH1 _ IH2. apply ev_step. revert IH1 IH2. apply ev_and. intros fe [u H1] H2.
      unfold export_step; cbn [fs_type]. rewrite (union_chosen fe pre m post v u P H1). exact H2.
    - intros o c c' m d _. intros IH. apply ev_step. revert IH. apply ev_1. intros fe H. unfold export_step, model_export; cbn [fs_type].
      now rewrite H.
    - intros o c v d Nv _. intros IH. apply ev_step. revert IH. apply ev_1. intros fe H. unfold export_step, model_export; cbn [fs_type].
      destruct v; try (now rewrite H). now elim (Nv c0 m).
    - intros o p c m d A _. intros IH. apply ev_step. revert IH. apply ev_1. intros fe H. unfold export_step, poly_export; cbn [fs_type].
      now rewrite A, H.
    - intros o g v L. apply ev_step, ev_0. intros fe. unfold export_step; cbn [fs_type]. apply list_export_ok. exists 0%Z. auto.
    - intros o g v lvl l r L D I _. intros IH. apply ev_step. revert IH. apply ev_1. intros fe H. unfold export_step; cbn [fs_type].
      apply list_export_ok. exists lvl. split; [exact L|]. right. eauto 6.
    - intros o g ck v L. apply ev_step, ev_0. intros fe. unfold export_step, dict_export; cbn [fs_type].
      apply level_spec in L. rewrite L. reflexivity.
    - intros o g ck v lvl l r L D I _. intros IH. apply ev_step. revert IH. apply ev_1. intros fe H.
      unfold export_step, dict_export; cbn [fs_type]. apply level_spec in L. rewrite L.
      destruct (Z.eqb_spec lvl DROP) as [K|_]; [contradiction|]. change (item_pairs E v) with (py_item_pairs E v) in I; rewrite I. cbn [rbind].
      replace (dict_export_loop fe g lvl x l []) with (Ok (dupdate [] r)); [reflexivity|].
      symmetry. apply dict_export_loop_ok. eauto.
    - intros c obj filt l R _. apply ev_1. intros fe H. apply export_loop_ok. eauto.
    - intros filt obj. apply ev_0. intros fe. constructor.
    - intros filt obj n f fs l Hh _. apply ev_1. intros fe H. apply wr_skip; [| |exact H].
      + intros w [K _]. auto.
      + intros e [K _]. auto.
    - intros filt obj n f fs l L _. apply ev_1. intros fe H. apply wr_skip; [| |exact H].
      + intros w (_ & lvl & w0 & L' & _ & [S _] & _). apply S. eapply level_fun; eassumption.
      + intros e (_ & _ & _ & lvl & L' & S). apply S. eapply level_fun; eassumption.
    - intros filt obj n f fs l lvl w Hh L D _ IH1 S _ IH2. revert IH1 IH2. apply ev_and. intros fe X H. apply wr_skip; [| |exact H].
      + intros w' (_ & lvl' & w0 & L' & X' & S' & _). apply S.
        assert (w0 = w) as <- by (destruct X as [[N1 ->]|[N1 X]], X' as [[N2 ->]|[N2 X']]; congruence).
        now rewrite (level_fun _ _ _ _ _ L L').
      + intros e (_ & K1 & K2 & _). destruct X as [[N1 ->]|[N1 X]]; congruence.
    - intros filt obj n f fs l lvl w Hh L _ IH1 S _ IH2. revert IH1 IH2. apply ev_and. intros fe X H. apply wr_put; [|exact H].
      split; [exact Hh|]. exists lvl, w. auto.
    - intros f v N. apply ev_0. intros fe. left. auto.
    - intros f v w N _. apply ev_1. intros fe H. right. auto.
    - intros g lvl. apply ev_0. constructor.
    - intros g lvl v w l r _ IH1 S1 S2 _ IH2. revert IH1 IH2. apply ev_and. intros fe H1 H2. now apply we_put.
    - intros g lvl v w l r _ IH1 S _ IH2. revert IH1 IH2. apply ev_and. intros fe H1 H2. eapply we_skip; eauto.
    - intros g lvl. apply ev_0. constructor.
    - intros g lvl y v w l r _ IH1 S1 S2 _ IH2. revert IH1 IH2. apply ev_and. intros fe H1 H2. now apply wn_put.
    - intros g lvl y v w l r _ IH1 S _ IH2. revert IH1 IH2. apply ev_and. intros fe H1 H2. eapply wn_skip; eauto.
    - intros o l v u H. apply ev_0. intros fe. exists u. exact H.
    - intros o pre m post v P _. apply ev_1. intros fe [u H]. cbn [export_convert]. rewrite (union_chosen fe pre m post v u P H). cbn. eauto.
    - intros o p. apply ev_0. intros fe. eexists. reflexivity.
    - intros o g v l Hl _. apply ev_1. intros fe [ws H]. exists (VList ws). cbn [export_convert]. apply list_convert_ok. eauto.
    - intros o g ck d _ IH Hk. revert IH. apply ev_1. intros fe [ws H]. cbn [export_convert].
      assert (K : exists ps, Forall2 (entry_converts (fun h u _ => fe h u x) g ck default_ctx) d ps).
      { revert ws H Hk. induction d as [|[y v] d IHd]; intros ws H Hk; [exists []; constructor|]. cbn in H. inversion H; subst.
        destruct (Hk y) as [y' Hy]; [now left|]. destruct (IHd _ H4) as [ps P]; [intros; apply Hk; now right|].
        exists ((y', y0) :: ps). constructor; [split; assumption|exact P]. }
      destruct K as [ps P]. exists (VDict (dupdate [] ps)). apply dict_convert_ok. eauto.
    - intros g. apply ev_0. intros fe. exists []. constructor.
    - intros g v w l _ IH1 _ IH2. revert IH1 IH2. apply ev_and. intros fe H1 [ws H2]. exists (w :: ws). now constructor.
  Qed.

  Theorem export_deep f v w : (exists n, export_at E n f v x = Ok w) <-> exports E x f v w.
  Proof.
    split; [intros [n H]; eapply export_at_exports; exact H|].
    intros H. destruct (proj1 exports_export_at _ _ _ H) as [n K]. exists n. apply K. lia.
  Qed.
  Theorem export_deep_object c m d :
    (exists n, model_export_top E (export_at E n) c m x = Ok d) <-> exports_object E x c (VModel c m) d.
  Proof.
    split.
    - intros [n H]. eapply object_exports; [|exact H]. apply export_at_exports.
    - intros H. destruct (proj1 (proj2 exports_export_at) _ _ _ H) as [n K]. exists n. apply K. lia.
  Qed.
End S.
