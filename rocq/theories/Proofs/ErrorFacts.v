(** Error objects: messages, reports, hashes. *)
From Verif.Model Require Import Py Errors.
From Verif.Spec Require Import ErrorSpec.
From Verif.Proofs Require Import DictLemmas EqLemmas.

Lemma messages_of_map ms : messages_of (map OMsg ms) = ms.
Proof. induction ms as [|m r IH]; [reflexivity|]; cbn; now rewrite IH. Qed.

Lemma ecls_eqb_eq a b : ecls_eqb a b = true <-> a = b.
Proof. destruct a, b; cbn; split; congruence. Qed.

Lemma says_sound c o ps : is_field_cls c = true -> says c o ps ->
  exists ms, item_messages c o = Ok ms /\ map (fun m => (ms_summary m, ms_info m)) ms = ps.
Proof.
  intros Hc H; destruct H as [s|s|t s Ht|t s i v Ht Hi|s t v|c' ms Hc'].
  - eexists; split; reflexivity.
  - eexists; split; reflexivity.
  - destruct Ht as [-> | ->]; eexists; split; reflexivity.
  - destruct Ht as [-> | ->]; (destruct Hi as [-> | [w [-> ->]]]; eexists; split; reflexivity).
  - eexists; split; reflexivity.
  - cbn [item_messages]. rewrite messages_of_map.
    assert (E : subclass c' c = true).
    { destruct Hc' as [-> | [-> ->]]; [|reflexivity]. unfold subclass.
      now rewrite (proj2 (ecls_eqb_eq c c) eq_refl). }
    rewrite E. eexists; split; reflexivity.
Qed.

Lemma says_all_sound c l ps : is_field_cls c = true -> says_all c l ps ->
  exists ms, items_messages c l = Ok ms /\ map (fun m => (ms_summary m, ms_info m)) ms = ps.
Proof.
  intros Hc H; induction H as [|o l ps qs Ho Hl IH]; [eexists; split; reflexivity|].
  destruct (says_sound _ _ _ Hc Ho) as [ms [E1 E2]]. destruct IH as [ns [E3 E4]].
  cbn. rewrite E1, E3. cbn. eexists; split; [reflexivity|]. now rewrite map_app, E2, E4.
Qed.

Lemma set_type_pairs c t ms ps : recorded c t ->
  map (fun m => (ms_summary m, ms_info m)) ms = ps ->
  map OMsg (map (set_type c) ms) = map (fun p => OMsg (Msg (fst p) (Some t) (snd p))) ps.
Proof.
  intros Ht <-. rewrite !map_map. apply map_ext; intros m; cbn. unfold set_type.
  do 3 f_equal. destruct Ht as [[-> Hc]|[-> ->]]; [|reflexivity]. now destruct c.
Qed.

Lemma field_error_messages c args kw ps t : is_field_cls c = true -> recorded c t ->
  call_says c args kw ps ->
  field_error c args kw = Ok (OErr c (OFrozenList (map (fun p => OMsg (Msg (fst p) (Some t) (snd p))) ps))).
Proof.
  intros Hc Ht H; destruct H as [o s v Ho|l ps Hl|args ps Hn Hd Hl]; unfold field_error.
  - destruct Ho as [-> | ->]; cbn; unfold base_error, set_type; cbn;
      destruct Ht as [[-> Hs]|[-> ->]]; try reflexivity; now destruct c.
  - cbn [field_items rbind]. destruct (says_all_sound _ _ _ Hc Hl) as [ms [E1 E2]].
    rewrite E1; cbn [rbind]. unfold base_error; cbn [freeze].
    now rewrite (set_type_pairs _ _ _ _ Ht E2).
  - assert (E : field_items args None = Ok args).
    { destruct args as [|a r]; [now destruct Hn|]. destruct a; try reflexivity.
      destruct r; [|reflexivity]. now destruct (Hd l). }
    rewrite E; cbn [rbind]. destruct (says_all_sound _ _ _ Hc Hl) as [ms [E1 E2]].
    rewrite E1; cbn [rbind]. unfold base_error; cbn [freeze].
    now rewrite (set_type_pairs _ _ _ _ Ht E2).
Qed.

(** *** Refusal *)

Lemma error_message_says c l m : error_message l None = Ok m ->
  says c (OTuple l) [(ms_summary m, ms_info m)].
Proof.
  unfold error_message; intros H.
  destruct l as [|a [|b [|x r]]]; try discriminate H;
    (destruct a; try discriminate H); try (injection H as <-; constructor; auto).
  all: try (destruct (info_of b) as [v|] eqn:E; [|discriminate H]; injection H as <-;
    eapply says_tuple2; [eauto|]; destruct b; try discriminate E; injection E as <-; [right; eauto|left; reflexivity]).
Qed.

Lemma item_messages_says c o ms : is_field_cls c = true -> built o -> item_messages c o = Ok ms ->
  says c o (map (fun m => (ms_summary m, ms_info m)) ms).
Proof.
  intros Hc Hb H; destruct o as [s|s|m|l|l|d|l|d|c' e|v]; try discriminate H; cbn in H.
  - injection H as <-; constructor.
  - injection H as <-; constructor.
  - injection H as <-; destruct m; constructor.
  - destruct (error_message l None) as [m|x] eqn:E; [|discriminate H]. injection H as <-.
    now apply error_message_says.
  - specialize (Hb c' e eq_refl). destruct e; try discriminate H.
    destruct (subclass c' c) eqn:E; [|discriminate H]. injection H as <-.
    assert (F : is_field_cls c' = true) by (destruct c, c'; try discriminate; reflexivity).
    rewrite F in Hb. destruct Hb as [ms Hm]. injection Hm as ->. rewrite messages_of_map. constructor.
    destruct c, c'; try discriminate; auto.
Qed.

Lemma items_messages_says c l ms : is_field_cls c = true -> Forall built l -> items_messages c l = Ok ms ->
  says_all c l (map (fun m => (ms_summary m, ms_info m)) ms).
Proof.
  intros Hc Hb; revert ms; induction Hb as [|o l Ho Hl IH]; cbn; intros ms H.
  - injection H as <-. constructor.
  - destruct (item_messages c o) as [ns|x] eqn:E; [|discriminate H]. cbn in H.
    destruct (items_messages c l) as [ns'|x] eqn:E'; [|discriminate H]. injection H as <-.
    rewrite map_app. constructor; [now apply item_messages_says|now apply IH].
Qed.

Lemma items_messages_raise c l x : items_messages c l = Raise x -> x = XPy ETypeError.
Proof.
  induction l as [|o l IH]; cbn; [discriminate|]. intros H.
  destruct (item_messages c o) as [ns|y] eqn:E.
  - cbn in H. destruct (items_messages c l) as [ns'|y]; [discriminate H|]. injection H as <-. now apply IH.
  - injection H as <-. destruct o; try discriminate E; cbn in E; try congruence.
    + unfold error_message in E. repeat (match type of E with context [match ?z with _ => _ end] => destruct z end;
        try discriminate E); cbn in E; congruence.
    + destruct o; try congruence. destruct (subclass c0 c); congruence.
Qed.

Lemma error_message_raise l kw x : error_message l kw = Raise x -> x = XPy ETypeError.
Proof.
  unfold error_message; intros E.
  repeat (match type of E with context [match ?z with _ => _ end] => destruct z end; try discriminate E); congruence.
Qed.

Lemma field_items_call c args kw items : is_field_cls c = true -> Forall built_arg args ->
  field_items args kw = Ok items ->
  Forall built items /\ (forall ps, says_all c items ps -> call_says c args kw ps).
Proof.
  intros Hc Hb H. destruct args as [|a r]; [discriminate H|]. destruct kw as [v|].
  - assert (E : exists m, error_message (a :: r) (Some v) = Ok m /\ items = [OMsg m]).
    { assert (G : rbind (error_message (a :: r) (Some v)) (fun m => Ok [OMsg m]) = Ok items).
      { rewrite <- H. destruct a; try reflexivity. destruct r; reflexivity. }
      destruct (error_message (a :: r) (Some v)) as [em|x]; [|discriminate G].
      exists em. cbn in G. split; congruence. }
    destruct E as [m [E ->]]. split.
    + constructor; [|constructor]. intros ? ? F; discriminate F.
    + intros ps Hs. inversion Hs as [|o l ps' qs Ho Hl]; subst. inversion Hl; subst.
      inversion Ho; subst. cbn. unfold error_message in E.
      destruct r; [|destruct a; try discriminate E; destruct r; discriminate E].
      destruct a; try discriminate E; injection E as <- <- <-; constructor; auto.
  - assert (E : (exists l, a = OList l /\ r = [] /\ items = l) \/ ((forall l, a :: r <> [OList l]) /\ items = a :: r)).
    { destruct a; try (right; split; [congruence|cbn in H; congruence]).
      destruct r; [left; exists l; cbn in H; repeat split; congruence|right; split; [congruence|cbn in H; congruence]]. }
    destruct E as [[l [-> [-> ->]]]|[Hn ->]].
    + apply Forall_cons_iff in Hb as [[_ Hb] _]. split; [now apply Hb|]. intros ps Hs. now constructor.
    + split; [eapply Forall_impl; [|exact Hb]; intros o [Ho _]; exact Ho|].
      intros ps Hs. constructor; [discriminate|assumption|assumption].
Qed.

Lemma field_error_refuses c args kw : is_field_cls c = true -> Forall built_arg args ->
  (forall ps, ~ call_says c args kw ps) -> field_error c args kw = Raise (XPy ETypeError).
Proof.
  intros Hc Hb Hn. unfold field_error.
  destruct (field_items args kw) as [items|x] eqn:E.
  - cbn [rbind]. destruct (field_items_call c args kw items Hc Hb E) as [Hi Hcall].
    destruct (items_messages c items) as [ms|x] eqn:E2.
    + exfalso. eapply Hn, Hcall, items_messages_says; eauto.
    + cbn. f_equal. eapply items_messages_raise; eauto.
  - cbn. f_equal. destruct args as [|a r]; [cbn in E; congruence|]. destruct kw as [v|].
    + assert (G : rbind (error_message (a :: r) (Some v)) (fun m => Ok [OMsg m]) = Raise x).
      { rewrite <- E. destruct a; try reflexivity. destruct r; reflexivity. }
      destruct (error_message (a :: r) (Some v)) as [m|y] eqn:F; [discriminate G|].
      apply error_message_raise in F. cbn in G. congruence.
    + destruct a; try discriminate E. destruct r; discriminate E.
Qed.

(** *** Reports *)
Section Reports.
  Context (R : runtime).

  Lemma shows_str m s : shows R m s -> message_str R m = s.
  Proof.
    intros H; destruct H as [s t v H|s t i Hi|s t v H Hv]; unfold message_str; cbn [ms_info ms_summary].
    - now rewrite H.
    - destruct i as [|x i]; [now destruct Hi|]. cbn [truthy nonempty]. unfold info_as_str.
      reflexivity.
    - rewrite H. unfold info_as_str. destruct v; try reflexivity. now destruct (Hv s0).
  Qed.

  Lemma shows_total m : exists s, shows R m s.
  Proof.
    destruct m as [s t v]. destruct (truthy v) eqn:E; [|eexists; now constructor].
    destruct v; try (eexists; apply shows_value; [exact E|intros; discriminate]).
    eexists. apply shows_quoted. destruct s0; [discriminate E|discriminate].
  Qed.

  (** The primitive form of a report. *)
  Fixpoint prim (r : report) : pyval :=
    match r with
    | RMsgs l => VList (map VStr l)
    | RText s => VStr s
    | RNode kids => VDict (map (fun p => (fst p, prim (snd p))) kids)
    end.

  Scheme raised_ind2 := Minimality for raised Sort Prop
    with raised_all_ind2 := Minimality for raised_all Sort Prop.
  Combined Scheme raised_mut from raised_ind2, raised_all_ind2.

  Lemma messages_prim ms texts : Forall2 (shows R) ms texts ->
    map (to_prim R) (map OMsg ms) = map VStr texts.
  Proof. induction 1; cbn; [reflexivity|]. now rewrite (shows_str _ _ H), IHForall2. Qed.

  Lemma typed_shows s t t' v x : shows R (Msg s t v) x -> shows R (Msg s t' v) x.
  Proof. intros H; inversion H; subst; now constructor. Qed.

  Lemma recorded_ex c : exists t, recorded c t.
  Proof. destruct c; [exists CConv|exists CValid|exists CValid|exists CCompound|exists CData];
    try (left; split; [reflexivity|discriminate]); right; split; reflexivity. Qed.

  Lemma raised_prim :
    (forall o r, raised R o r -> to_prim R (embed o) = prim r /\ (forall c e, o = OErr c e -> to_prim R e = prim r)) /\
    (forall d kids, raised_all R d kids -> map (fun p => (fst p, to_prim R (snd p))) (compound_error_arg d) =
                                           map (fun p => (fst p, prim (snd p))) kids).
  Proof.
    apply raised_mut.
    - intros s; split; [reflexivity|intros; discriminate].
    - intros ms texts H; split; [|intros; discriminate]. cbn [embed to_prim prim].
      now rewrite (messages_prim _ _ H).
    - intros c args kw o ps texts Hc Hs Ht Ho.
      destruct (recorded_ex c) as [t Hr]. rewrite (field_error_messages c args kw ps t Hc Hr Hs) in Ho.
      injection Ho as <-.
      assert (E : VList (map (to_prim R) (map (fun p => OMsg (Msg (fst p) (Some t) (snd p))) ps)) =
                  VList (map VStr texts)).
      { f_equal. rewrite <- (map_map (fun p => Msg (fst p) (Some t) (snd p)) OMsg). apply messages_prim.
        clear - Ht. induction Ht; cbn; constructor; eauto using typed_shows. }
      split; [|intros ? ? [= <- <-]; exact E].
      destruct c; try discriminate Hc; exact E.
    - intros c d kids o Hc _ IH Ho. cbn in Ho. injection Ho as <-.
      assert (E : VDict (map (fun p => (fst p, to_prim R (snd p))) (compound_error_arg d)) = prim (RNode kids)).
      { cbn [prim]. now f_equal. }
      split; [|unfold base_error; intros ? ? [= <- <-]; exact E].
      destruct c; try discriminate Hc; exact E.
    - reflexivity.
    - intros x o r d kids _ [IH _] _ IHd. unfold compound_error_arg in *; cbn [map fst snd]. now rewrite IH, IHd.
  Qed.

  Lemma value_at_prim p : forall r, value_at (prim r) p = option_map prim (report_at r p).
  Proof.
    induction p as [|x q IH]; intros r; [reflexivity|].
    destruct r as [l|s|kids]; try reflexivity. cbn [prim value_at report_at].
    rewrite (dget_map prim x kids). destruct (dget x kids) as [s|]; cbn; [apply IH|reflexivity].
  Qed.

  Lemma VStr_inj l l' : map VStr l = map VStr l' -> l = l'.
  Proof.
    revert l'; induction l as [|a r IH]; intros [|b r']; cbn; try discriminate; [reflexivity|].
    intros [= -> H]. f_equal. now apply IH.
  Qed.

  Lemma raised_paths c e r : raised R (OErr c e) r ->
    exists v, to_primitive R (OErr c e) = Ok v /\
      forall p,
        (forall l, value_at v p = Some (VList l) <-> exists ms, report_at r p = Some (RMsgs ms) /\ l = map VStr ms) /\
        (forall s, value_at v p = Some (VStr s) <-> report_at r p = Some (RText s)) /\
        (forall ks, (exists d, value_at v p = Some (VDict d) /\ dkeys d = ks) <->
                    (exists kids, report_at r p = Some (RNode kids) /\ dkeys kids = ks)) /\
        (value_at v p = None <-> report_at r p = None).
  Proof.
    intros H. destruct (proj1 raised_prim _ _ H) as [_ E]. specialize (E c e eq_refl).
    exists (prim r). split; [cbn; now rewrite E|]. intros p. rewrite value_at_prim.
    destruct (report_at r p) as [[l|s|kids]|]; cbn [option_map prim].
    - split; [|split; [|split]].
      + intros l'; split; [intros [= <-]; eauto|]. intros [ms [[= <-] ->]]. reflexivity.
      + intros s; split; intros X; discriminate X.
      + intros ks; split; intros [d [X _]]; discriminate X.
      + split; intros X; discriminate X.
    - split; [|split; [|split]].
      + intros l'; split; [intros X; discriminate X|]. intros [ms [X _]]; discriminate X.
      + intros s'; split; intros [= <-]; reflexivity.
      + intros ks; split; intros [d [X _]]; discriminate X.
      + split; intros X; discriminate X.
    - split; [|split; [|split]].
      + intros l'; split; [intros X; discriminate X|]. intros [ms [X _]]; discriminate X.
      + intros s; split; intros X; discriminate X.
      + intros ks; split; intros [d [[= <-] Hk]]; eexists; (split; [reflexivity|]); rewrite <- Hk; unfold dkeys;
          now rewrite map_map.
      + split; intros X; discriminate X.
    - split; [|split; [|split]].
      + intros l'; split; [intros X; discriminate X|]. intros [ms [X _]]; discriminate X.
      + intros s; split; intros X; discriminate X.
      + intros ks; split; intros [d [X _]]; discriminate X.
      + split; reflexivity.
  Qed.

  Lemma frozen_msgs ms : Forall frozen (map OMsg ms).
  Proof. induction ms; constructor; [constructor|assumption]. Qed.

  Lemma raised_frozen :
    (forall o r, raised R o r -> frozen (embed o) /\ frozen o) /\
    (forall d kids, raised_all R d kids -> Forall (fun p => frozen (snd p)) (compound_error_arg d)).
  Proof.
    apply raised_mut.
    - intros s; split; constructor.
    - intros ms texts H; split; constructor; apply frozen_msgs.
    - intros c args kw o ps texts Hc Hs Ht Ho.
      destruct (recorded_ex c) as [t Hr]. rewrite (field_error_messages c args kw ps t Hc Hr Hs) in Ho.
      injection Ho as <-.
      assert (F : frozen (OFrozenList (map (fun p => OMsg (Msg (fst p) (Some t) (snd p))) ps))).
      { constructor. rewrite <- (map_map (fun p => Msg (fst p) (Some t) (snd p)) OMsg). apply frozen_msgs. }
      split; [destruct c; try discriminate Hc|]; now constructor.
    - intros c d kids o Hc _ IH Ho. cbn in Ho. injection Ho as <-.
      split; [destruct c; try discriminate Hc; now constructor|]. constructor. now constructor.
    - constructor.
    - intros x o r d kids _ [IH _] _ IHd. constructor; assumption.
  Qed.
End Reports.

(** *** The errors of the import and validation model *)
Lemma error_object_exn e : error_object e = exn_obj e.
Proof. destruct e as [ms|[] ms|d|d p|x|]; reflexivity. Qed.
Lemma tree_object_node n : tree_object n = node_obj n.
Proof. reflexivity. Qed.

Lemma node_prim (R : runtime) e o : error_object e = Some o -> to_prim R (embed o) = to_prim R (tree_object (err_node e)).
Proof.
  rewrite error_object_exn, tree_object_node.
  destruct e as [ms|[] ms|d|d p|x|]; cbn; intros H; try discriminate H; injection H as <-; reflexivity.
Qed.

Lemma data_error_of_exceptions (R : runtime) c (l : list (key * exn)) (os : list eobj) :
  is_field_cls c = false ->
  Forall2 (fun p o => error_object (snd p) = Some o) l os ->
  exists o, compound_error c (ODict (combine (map fst l) os)) = Ok o /\
    to_primitive R o =
    to_primitive R (OErr c (OFrozenDict (map (fun p => (fst p, tree_object (err_node (snd p)))) l))).
Proof.
  intros Hc H. eexists; split; [reflexivity|]. unfold base_error, to_primitive; cbn [freeze]. f_equal.
  cbn [to_prim]. f_equal. unfold compound_error_arg.
  induction H as [|[x e] o l os Ho Hl IH]; [reflexivity|]. cbn in Ho. cbn. rewrite IH.
  now rewrite (node_prim R e o Ho).
Qed.

(** An error built from texts is the object of its exception. *)
Lemma texts_messages c ms : items_messages c (map OStr ms) = Ok (map (fun s => Msg s None VNone) ms).
Proof. induction ms as [|s ms IH]; [reflexivity|]. cbn. now rewrite IH. Qed.
Lemma field_error_object c ms e : 
  (c, e) = (CConv, XConv ms) \/ (c, e) = (CValid, XValid false ms) \/ (c, e) = (CStop, XValid true ms) ->
  exists o, field_error c [OList (map OStr ms)] None = Ok o /\ error_object e = Some o.
Proof.
  intros H. unfold field_error, field_items. cbn [rbind]. rewrite texts_messages. cbn [rbind]. eexists. split; [reflexivity|].
  destruct H as [[= -> ->]|[[= -> ->]|[= -> ->]]]; cbn; unfold base_error, typed_messages; cbn; rewrite !map_map; reflexivity.
Qed.

Lemma compound_of_others c e : (forall d, e <> ODict d) -> compound_error c e = Raise (XPy ETypeError).
Proof. intros H. destruct e; try reflexivity. now destruct (H d). Qed.
