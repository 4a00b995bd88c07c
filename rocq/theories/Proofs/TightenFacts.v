(** What a stricter version of a program accepts, the other one accepts as well, with the same result; and validators make
    no difference without validation. *)
From Verif.Model Require Import Py Core Export Api.
From Verif.Spec Require Import ImportSpec TightenSpec.
From Verif.Proofs Require Import DictLemmas ImportLemmas BuildUse.

Lemma rbind_ok {A B} (r : res A) (f : A -> res B) w : rbind r f = Ok w -> exists u, r = Ok u /\ f u = Ok w.
Proof. destruct r; cbn; [eauto|discriminate]. Qed.
Lemma dset_nonempty {A} y (v : A) d : dset y v d <> [].
Proof. destruct d as [|[z a] d]; cbn; [discriminate|]. destruct (key_eqb y z); discriminate. Qed.
Lemma dupdate_nonempty {A} (d e : list (key * A)) : dupdate d e = [] -> d = [] /\ e = [].
Proof.
  unfold dupdate. revert d. induction e as [|[y v] e IH]; intros d; cbn; [auto|]. intros H. apply IH in H as [H _].
  exfalso. exact (dset_nonempty _ _ _ H).
Qed.
Lemma validators_accept vs v : (forall g, In g vs -> g v = None) -> validators_result vs v = Ok v.
Proof.
  intros H. unfold validators_result.
  assert (K : run_validators vs v [] = Ok []).
  { induction vs as [|g vs IH]; [reflexivity|]. cbn. rewrite (H g (or_introl eq_refl)). apply IH. intros g' Hg. apply H. now right. }
  now rewrite K.
Qed.

(** ** Classes that look the same from outside *)
Section Shape.
  Context (E E2 : env).
  Definition alike (p q : key * field) : Prop := fst p = fst q /\ fd_get (snd p) = fd_get (snd q) /\ fd_set (snd p) = fd_set (snd q).
  Hypothesis Sh : forall c, Forall2 alike (mc_fields (e_class E c)) (mc_fields (e_class E2 c)).

  Lemma dget_alike fs fs2 : Forall2 alike fs fs2 -> forall n,
    match dget n fs, dget n fs2 with
    | Some f, Some f2 => fd_get f = fd_get f2 /\ fd_set f = fd_set f2
    | None, None => True
    | _, _ => False
    end.
  Proof.
    intros H n. induction H as [|[y f] [y2 f2] fs fs2 (A & B & C) _ IH]; cbn in *; [exact I|]. subst y2.
    destruct (key_eqb n y); [auto|exact IH].
  Qed.
  Lemma getitem_alike c m n : model_getitem E c m n = model_getitem E2 c m n.
  Proof.
    unfold model_getitem, field_get. pose proof (dget_alike _ _ (Sh c) n) as H.
    destruct (dget n (mc_fields (e_class E c))), (dget n (mc_fields (e_class E2 c))); try contradiction; [|reflexivity].
    destruct H as [-> _]. reflexivity.
  Qed.
  Lemma iter_alike c m : model_iter E c m = model_iter E2 c m.
  Proof.
    unfold model_iter. induction (Sh c) as [|[y f] [y2 f2] fs fs2 (A & B & C) _ IH]; cbn in *; [reflexivity|]. subst y2. rewrite C.
    destruct (chain_mem m y && is_none_opt (fd_set f2)); cbn; now rewrite IH.
  Qed.
  Lemma contains_alike c m n : model_contains E c m n = model_contains E2 c m n.
  Proof.
    unfold model_contains. rewrite getitem_alike. pose proof (dget_alike _ _ (Sh c) n) as H.
    destruct (dget n (mc_fields (e_class E c))), (dget n (mc_fields (e_class E2 c))); try contradiction; [|reflexivity].
    destruct H as [-> _]. reflexivity.
  Qed.
  Lemma py_getitem_alike v n : py_getitem E v n = py_getitem E2 v n.
  Proof. destruct v; cbn; try reflexivity. apply getitem_alike. Qed.
  Lemma py_contains_alike v n : py_contains E v n = py_contains E2 v n.
  Proof. destruct v; cbn; try reflexivity. apply contains_alike. Qed.
  Lemma py_keys_alike v : py_keys E v = py_keys E2 v.
  Proof. destruct v; cbn; try reflexivity. now rewrite iter_alike. Qed.
  Lemma py_items_alike v ks : py_items E v ks = py_items E2 v ks.
  Proof. induction ks as [|y ks IH]; cbn; [reflexivity|]. now rewrite py_getitem_alike, IH. Qed.
  Lemma py_dict_alike v : py_dict E v = py_dict E2 v.
  Proof.
    unfold py_dict. destruct v; try reflexivity. rewrite py_keys_alike. destruct (py_keys E2 _); cbn; [apply py_items_alike|reflexivity].
  Qed.
  Lemma atom_alike v n : atom_value E v n = atom_value E2 v n.
  Proof. unfold atom_value. now rewrite py_getitem_alike. Qed.
  Lemma find_alt_alike raw n ks : find_alt E raw n ks = find_alt E2 raw n ks.
  Proof. induction ks as [|y ks IH]; cbn; [reflexivity|]. now rewrite py_getitem_alike, py_contains_alike, IH. Qed.
  Lemma ctx_alike x n f f2 : is_compound f = is_compound f2 -> field_ctx E x n f = field_ctx E2 x n f2.
  Proof.
    intros H. unfold field_ctx, nested_td. rewrite H. destruct (is_compound f2); [|reflexivity]. f_equal.
    destruct (truthy (cx_trusted x) && cx_recursive x); [|reflexivity]. destruct (cx_trusted x); try reflexivity. now rewrite py_getitem_alike.
  Qed.
  Lemma elems_alike v : list_elems E v = list_elems E2 v.
  Proof. destruct v; cbn; try reflexivity. now rewrite iter_alike. Qed.
  Lemma rogues_alike x fs fs2 raw errs : all_input_keys fs (cx_mapping x) = all_input_keys fs2 (cx_mapping x) ->
    rogues E x fs raw errs = rogues E2 x fs2 raw errs.
  Proof. intros H. unfold rogues. now rewrite H, py_keys_alike. Qed.
  Lemma copy_alike raw fs fs2 data : Forall2 alike fs fs2 -> copy_settable E raw fs data = copy_settable E2 raw fs2 data.
  Proof.
    intros H. revert data. induction H as [|[y f] [y2 f2] fs fs2 (A & B & C) _ IH]; intros data; cbn in *; [reflexivity|]. subst y2.
    unfold has_setter. rewrite C, atom_alike. apply IH.
  Qed.
  Hypothesis Is : forall c d, e_issub E2 c d = e_issub E c d.
  Hypothesis Sb : forall c, e_subs E2 c = e_subs E c.
  Hypothesis Cl : forall c, mc_claim (e_class E2 c) = mc_claim (e_class E c).
  Lemma allowed_alike p v : poly_allowed E p v = poly_allowed E2 p v.
  Proof.
    destruct v; cbn; try reflexivity. destruct (po_allow_sub p); [|reflexivity].
    induction (po_classes p) as [|a l IH]; cbn; [reflexivity|]. now rewrite Is, IH.
  Qed.
  Lemma scan_alike v cs fb hits : poly_scan E v cs fb hits = poly_scan E2 v cs fb hits.
  Proof.
    revert fb hits. induction cs as [|a cs IH]; intros fb hits; cbn; [reflexivity|]. rewrite Cl. destruct (mc_claim (e_class E a)) as [cl|]; [|apply IH].
    destruct (cl v); cbn; [apply IH|reflexivity].
  Qed.
  Lemma candidates_alike p : poly_candidates E p = poly_candidates E2 p.
  Proof.
    unfold poly_candidates. destruct (po_allow_sub p); [|reflexivity]. induction (po_classes p) as [|a l IH]; cbn; [reflexivity|]. now rewrite Sb, IH.
  Qed.
  Lemma find_model_alike p v : find_model E p v = find_model E2 p v.
  Proof. unfold find_model. now rewrite candidates_alike, scan_alike. Qed.
End Shape.

(** ** A stricter version *)
Section Tighten.
  Context (E E2 : env) (X : tightens E E2).
  Definition pair_of (p q : key * field) : Prop := fst p = fst q /\ tighter (fd_spec (snd p)) (fd_spec (snd q)) /\
    fd_get (snd p) = fd_get (snd q) /\ fd_set (snd p) = None /\ fd_set (snd q) = None.
  Lemma pairs c : Forall2 pair_of (mc_fields (e_class E c)) (mc_fields (e_class E2 c)).
  Proof. exact (tc_fields _ _ (tn_class _ _ X c)). Qed.
  Lemma pairs_alike fs fs2 : Forall2 pair_of fs fs2 -> Forall2 alike fs fs2.
  Proof. intros H. induction H as [|p q fs fs2 (A & _ & B & C & D) _ IH]; constructor; [|exact IH]. unfold alike. rewrite C, D. auto. Qed.
  Lemma shape c : Forall2 alike (mc_fields (e_class E c)) (mc_fields (e_class E2 c)).
  Proof. apply pairs_alike, pairs. Qed.
  Lemma tighter_of f f2 : tighter f f2 -> tighter_opts (fs_opts f) (fs_opts f2).
  Proof. intros []; assumption. Qed.
  Lemma tighter_compound f f2 : tighter f f2 -> is_compound f = is_compound f2.
  Proof. intros []; reflexivity. Qed.
  Lemma tighter_keys n f f2 mp : tighter f f2 -> input_keys n f mp = input_keys n f2 mp.
  Proof. intros H. apply tighter_of in H. unfold input_keys. now rewrite (to_sname _ _ H), (to_dfrom _ _ H). Qed.
  Lemma all_keys fs fs2 mp : Forall2 pair_of fs fs2 -> all_input_keys fs mp = all_input_keys fs2 mp.
  Proof.
    intros H. unfold all_input_keys. f_equal. unfold valid_input_keys.
    induction H as [|[y f] [y2 f2] fs fs2 (A & B & _) _ IH]; cbn [flat_map fst snd] in *; [reflexivity|]. subst y2. now rewrite (tighter_keys _ _ _ _ B), IH.
  Qed.
  Lemma no_setters_of fs fs2 : Forall2 pair_of fs fs2 -> no_setters fs /\ no_setters fs2.
  Proof.
    intros H. split; intros n f Hi; revert Hi; induction H as [|[y g] [y2 g2] fs fs2 (A & _ & _ & B & C) _ IH]; cbn in *; try tauto; intros [[= <- <-]|Hi]; auto.
  Qed.

  Section Loop.
    Context (fc fc2 : fspec -> pyval -> ictx -> res pyval) (pre pre2 : fspec -> pyval -> res pyval).
    Hypothesis Hfc : forall f f2 v x w, tighter f f2 -> fc2 f2 v x = Ok w -> fc f v x = Ok w.

    Lemma field_tight x got raw n f f2 data errs data1 errs1 : tighter (fd_spec f) (fd_spec f2) ->
      import_field E2 fc2 x got raw n f2 (data, errs) = Ok (data1, errs1) ->
      (errs1 = [] -> errs = [] /\ import_field E fc x got raw n f (data, errs) = Ok (data1, errs1)).
    Proof using X Hfc.
      intros T. unfold import_field. cbv zeta. pose proof (tighter_of _ _ T) as O.
      rewrite (atom_alike _ _ shape), (find_alt_alike _ _ shape), (tighter_keys n _ _ (cx_mapping x) T), (ctx_alike _ _ shape x n _ _ (tighter_compound _ _ T)),
        <- (to_default _ _ O).
      destruct (if got && _ then _ else _) as [v1|e]; cbn [rbind]; [|discriminate].
      destruct (is_undef v1 && dmem n data); [intros [= <- <-]; auto|].
      set (v3 := if is_undef _ && _ then _ else _).
      destruct got.
      - destruct (fc2 (fd_spec f2) v3 _) as [w|e] eqn:R.
        + rewrite (Hfc _ _ _ _ _ T R). destruct (is_undef w); intros [= <- <-]; auto.
        + destruct (caught_by_loop e); [|discriminate]. intros [= <- <-] N. destruct (dset_nonempty _ _ _ N).
      - destruct (is_undef v3); intros [= <- <-]; auto.
    Qed.
    Lemma fields_tight x got raw fs fs2 : Forall2 pair_of fs fs2 -> forall data errs data1,
      import_fields E2 fc2 x got raw fs2 (data, errs) = Ok (data1, []) ->
      errs = [] /\ import_fields E fc x got raw fs (data, errs) = Ok (data1, []).
    Proof using X Hfc.
      intros H. induction H as [|[y f] [y2 f2] fs fs2 (A & B & _ & C & D) _ IH]; intros data errs data1; cbn [import_fields].
      - intros [= <- <-]. auto.
      - cbn in A, B, C, D. subst y2. unfold has_setter. rewrite C, D. cbn [is_none_opt negb]. rewrite andb_false_r. intros R. apply rbind_ok in R as ([d e] & R1 & R2).
        apply IH in R2 as [-> R2]. destruct (field_tight _ _ _ _ _ _ _ _ _ _ B R1 eq_refl) as [-> R3]. split; [reflexivity|]. rewrite R3. exact R2.
    Qed.
    Lemma mutate_tight x a fs fs2 mut raw : Forall2 pair_of fs fs2 -> mutate E fc pre x a fs mut raw = mutate E2 fc2 pre2 x a fs2 mut raw.
    Proof using X.
      intros H. destruct (no_setters_of _ _ H) as [N1 N2]. unfold mutate. rewrite !mutate_fields_none by assumption.
      destruct raw; try reflexivity. now rewrite (py_dict_alike _ _ shape).
    Qed.
    Lemma loop_tight x fs fs2 mut a raw : Forall2 pair_of fs fs2 ->
      lo_mut (import_loop E fc pre x fs mut a raw) = lo_mut (import_loop E2 fc2 pre2 x fs2 mut a raw) /\
      lo_raw (import_loop E fc pre x fs mut a raw) = lo_raw (import_loop E2 fc2 pre2 x fs2 mut a raw) /\
      (forall data, lo_res (import_loop E2 fc2 pre2 x fs2 mut a raw) = Ok data -> lo_res (import_loop E fc pre x fs mut a raw) = Ok data).
    Proof using X Hfc.
      intros H. unfold import_loop. rewrite (py_dict_alike _ _ shape), (mutate_tight x a fs fs2 mut raw H).
      destruct (if truthy _ then _ else _) as [data0|e]; cbn [lo_mut lo_raw lo_res]; [|auto].
      destruct (if _ && _ then _ else _) as [[mut1 raw1] rerrs]. cbn [lo_mut lo_raw lo_res]. split; [reflexivity|]. split; [reflexivity|].
      intros data R. destruct rerrs as [errs0|e]; cbn [rbind] in *; [|discriminate].
      rewrite (rogues_alike _ _ shape x fs fs2 raw1 errs0 (all_keys _ _ _ H)).
      destruct (if negb (is_none raw) then _ else _) as [errs1|e]; cbn [rbind] in *; [|discriminate].
      apply rbind_ok in R as ([d es] & R1 & R2).
      destruct es as [|p es]; [|discriminate]. destruct (fields_tight _ _ _ _ _ H _ _ _ R1) as [-> R3]. rewrite R3. cbn [rbind].
      rewrite (copy_alike _ _ shape raw1 _ _ d (pairs_alike _ _ H)). exact R2.
    Qed.
    (** Data given in a dictionary: a DataError without errors can only come from what is trusted, and then comes in both versions. *)
    Lemma fields_data x got d fs s er pd : import_fields E2 fc2 x got (VDict d) fs s <> Raise (XData er pd).
    Proof using Type.
      revert s. induction fs as [|[n f] fs IH]; intros s; cbn [import_fields]; [discriminate|].
      destruct (negb _ && _); [apply IH|]. destruct (import_field E2 fc2 x got (VDict d) n f s) as [s1|e] eqn:R; cbn [rbind]; [apply IH|].
      intros [= ->]. unfold import_field in R. destruct s as [data errs].
      assert (Fa : forall ks e, find_alt E2 (VDict d) n ks = Raise e -> e = XPy EKeyError).
      { induction ks as [|y ks IHk]; intros e; cbn [find_alt]; [discriminate|]. destruct (_ && _ && _); [|apply IHk]. cbn [py_getitem]. destruct (dget y d); [discriminate|now intros [= <-]]. }
      destruct (if got && _ then _ else _) as [v1|e] eqn:G; cbn [rbind] in R.
      - destruct (is_undef v1 && dmem n data); [discriminate|]. set (v3 := if is_undef _ && _ then _ else _) in R. destruct got.
        + destruct (fc2 (fd_spec f) v3 _) as [w|e]; [destruct (is_undef w); discriminate|]. destruct (caught_by_loop e) eqn:C; [discriminate|]. injection R as ->. discriminate C.
        + destruct (is_undef v3); discriminate.
      - injection R as ->. destruct (got && _); [|discriminate]. apply Fa in G. discriminate.
    Qed.
    Lemma loop_data x fs fs2 mut a d pd : Forall2 pair_of fs fs2 ->
      lo_res (import_loop E2 fc2 pre2 x fs2 mut a (VDict d)) = Raise (XData [] pd) -> lo_res (import_loop E fc pre x fs mut a (VDict d)) = Raise (XData [] pd).
    Proof using X.
      intros H. unfold import_loop. rewrite (py_dict_alike _ _ shape), (mutate_tight x a fs fs2 mut (VDict d) H).
      destruct (if truthy _ then _ else _) as [data0|e]; cbn [lo_mut lo_raw lo_res]; [|auto].
      assert (Rw : forall mut1 raw1 r, (if negb (is_none (VDict d)) && cx_validate x then mutate E2 fc2 pre2 x a fs2 mut (VDict d) else (mut, VDict d, Ok [])) = (mut1, raw1, r) ->
        exists d1, raw1 = VDict d1).
      { intros mut1 raw1 r. destruct (_ && _); [|intros [= <- <- <-]; eauto]. unfold mutate. rewrite mutate_fields_none by apply (no_setters_of _ _ H).
        destruct (py_dict E2 mut); intros [= <- <- <-]; eauto. }
      destruct (if _ && _ then _ else _) as [[mut1 raw1] rerrs] eqn:M. destruct (Rw _ _ _ eq_refl) as [d1 ->]. cbn [lo_mut lo_raw lo_res].
      intros R. destruct rerrs as [errs0|e]; cbn [rbind] in *; [|exact R]. exfalso. cbn [is_none negb] in R.
      destruct (rogues E2 x fs2 (VDict d1) errs0) as [errs1|e] eqn:Q; cbn [rbind] in R.
      - destruct (import_fields E2 fc2 x true (VDict d1) fs2 (data0, errs1)) as [[d2 es]|e] eqn:Q2; cbn [rbind] in R; [destruct es; discriminate|].
        injection R as ->. exact (fields_data _ _ _ _ _ _ _ Q2).
      - unfold rogues in Q. destruct (cx_strict x); cbn in Q; discriminate.
    Qed.

    (** Model level validators. *)
    Lemma model_loop_tight vfs vfs2 mut fs fs2 : Forall2 pair_of fs fs2 ->
      (forall n mut data v, snd (checked vfs2 n mut data v) = None -> checked vfs n mut data v = checked vfs2 n mut data v) ->
      forall data errs bad d b, validate_model_loop vfs2 mut fs2 data errs bad = Ok (d, [], b) ->
      errs = [] /\ validate_model_loop vfs mut fs data errs bad = Ok (d, [], b).
    Proof using Type.
      intros H V. induction H as [|[n f] [n2 f2] fs fs2 (A & B & _) _ IH]; intros data errs bad d b; cbn [validate_model_loop].
      - intros [= <- <- <-]. auto.
      - cbn in A, B. subst n2. destruct (dget n data) as [v|]; [|apply IH]. specialize (V n mut data v). unfold checked in V.
        destruct (dget n vfs2) as [vf2|] eqn:D2.
        + destruct (is_undef v) eqn:U.
          * intros R. apply IH in R as [-> R]. split; [reflexivity|]. destruct (dget n vfs); exact R.
          * destruct (vf2 mut data v) as [data1 [e|]] eqn:Q.
            -- destruct (mv_caught e); [|discriminate]. intros R. apply IH in R as [R _]. destruct (dset_nonempty _ _ _ R).
            -- specialize (V eq_refl). intros R. apply IH in R as [-> R]. split; [reflexivity|].
               destruct (dget n vfs) as [vf|]; [rewrite V; exact R|]. injection V as ->. exact R.
        + specialize (V eq_refl). intros R. apply IH in R as [-> R]. split; [reflexivity|].
          destruct (dget n vfs) as [vf|]; [|exact R]. destruct (is_undef v); [exact R|]. rewrite V. exact R.
    Qed.
    Lemma validate_fn_tight x c mut a d :
      lo_mut (validate_fn E fc pre x (e_class E c) mut a (VDict d)) = lo_mut (validate_fn E2 fc2 pre2 x (e_class E2 c) mut a (VDict d)) /\
      (forall data, lo_res (validate_fn E2 fc2 pre2 x (e_class E2 c) mut a (VDict d)) = Ok data ->
         lo_res (validate_fn E fc pre x (e_class E c) mut a (VDict d)) = Ok data).
    Proof using X Hfc.
      destruct (loop_tight x _ _ mut a (VDict d) (pairs c)) as (L1 & L2 & L3). pose proof (fun pd => loop_data x _ _ mut a d pd (pairs c)) as L4.
      unfold validate_fn. cbn [lo_mut lo_res]. split; [exact L1|]. intros data. rewrite L1.
      assert (Fin : forall errs dt, rbind (validate_model (mc_validators (e_class E2 c)) (lo_mut (import_loop E2 fc2 pre2 x (mc_fields (e_class E2 c)) mut a (VDict d))) (mc_fields (e_class E2 c)) dt)
          (fun '(d0, e) => match dupdate errs e with [] => Ok d0 | errs' => Raise (XData errs' d0) end) = Ok data ->
        errs = [] /\ rbind (validate_model (mc_validators (e_class E c)) (lo_mut (import_loop E2 fc2 pre2 x (mc_fields (e_class E2 c)) mut a (VDict d))) (mc_fields (e_class E c)) dt)
          (fun '(d0, e) => match dupdate errs e with [] => Ok d0 | errs' => Raise (XData errs' d0) end) = Ok data).
      { intros errs dt R. apply rbind_ok in R as ([d0 e] & R1 & R2). destruct (dupdate errs e) eqn:Q; [|discriminate]. injection R2 as ->.
        apply dupdate_nonempty in Q as [-> ->]. split; [reflexivity|]. unfold validate_model in *. apply rbind_ok in R1 as ([[d1 e1] bad] & R1 & R2).
        apply rbind_ok in R2 as (d2 & R2 & R3). injection R3 as -> ->.
        destruct (model_loop_tight _ _ _ _ _ (pairs c) (tc_validators _ _ (tn_class _ _ X c)) _ _ _ _ _ R1) as [_ R4]. rewrite R4. cbn [rbind]. rewrite R2. reflexivity. }
      destruct (lo_res (import_loop E2 fc2 pre2 x _ mut a (VDict d))) as [dt|[ms|st ms|er|er pd|pe|]] eqn:R; try discriminate.
      - rewrite (L3 dt eq_refl). intros Q. now apply Fin.
      - intros Q. apply Fin in Q as [-> Q]. rewrite (L4 pd eq_refl). exact Q.
    Qed.
    Lemma new_tight c v x w : model_new E2 fc2 pre2 c v x = Ok w -> model_new E fc pre c v x = Ok w.
    Proof using X Hfc.
      unfold model_new. rewrite (py_dict_alike _ _ shape). destruct (if truthy v then _ else _) as [d|e]; cbn [rbind]; [|discriminate].
      intros R. apply rbind_ok in R as (data & R1 & R2). set (a := if truthy v then NoAlias else AliasConverted) in *.
      destruct (cx_validate x).
      - destruct (validate_fn_tight x c (VModel c md_empty) a d) as [-> V]. rewrite (V _ R1). exact R2.
      - destruct (loop_tight x _ _ (VModel c md_empty) a (VDict d) (pairs c)) as (-> & _ & V). rewrite (V _ R1). exact R2.
    Qed.
    Lemma model_tight c v x w : model_convert E2 fc2 pre2 c v x = Ok w -> model_convert E fc pre c v x = Ok w.
    Proof using X Hfc.
      assert (Run : forall c', (if cx_convert x && cx_oo x then model_new E2 fc2 pre2 c' v x else model_class_convert E2 fc2 pre2 c' v x) = Ok w ->
        (if cx_convert x && cx_oo x then model_new E fc pre c' v x else model_class_convert E fc pre c' v x) = Ok w).
      { intros c'. destruct (_ && _); [apply new_tight|]. unfold model_class_convert. intros R. apply rbind_ok in R as (data & R1 & R2).
        destruct (loop_tight x _ _ v AliasSelf v (pairs c')) as (_ & _ & V). rewrite (V _ R1). exact R2. }
      unfold model_convert. destruct v; try discriminate; [apply Run|]. rewrite (tn_issub _ _ X). destruct (e_issub E _ c); [apply Run|discriminate].
    Qed.
    Lemma list_tight g g2 v x w : tighter g g2 -> list_convert E2 fc2 g2 v x = Ok w -> list_convert E fc g v x = Ok w.
    Proof using X Hfc.
      intros T. unfold list_convert. rewrite (elems_alike _ _ shape). destruct (list_elems E2 v) as [l|]; [|discriminate].
      assert (L : forall i data errs d, list_loop fc2 g2 x i l data errs = Ok (d, []) -> errs = [] /\ list_loop fc g x i l data errs = Ok (d, [])).
      { clear w. induction l as [|a l IH]; intros i data errs d; cbn [list_loop].
        - intros [= <- <-]. auto.
        - destruct (fc2 g2 a x) as [w|e] eqn:R; [rewrite (Hfc _ _ _ _ _ T R); apply IH|]. destruct (is_base_error e); [|discriminate].
          intros Q. apply IH in Q as [Q _]. destruct (dset_nonempty _ _ _ Q). }
      intros R. apply rbind_ok in R as ([d es] & R1 & R2). destruct es; [|discriminate]. destruct (L _ _ _ _ R1) as [_ R3]. rewrite R3. exact R2.
    Qed.
    Lemma dict_tight g g2 ck v x w : tighter g g2 -> dict_convert fc2 g2 ck v x = Ok w -> dict_convert fc g ck v x = Ok w.
    Proof using Hfc.
      intros T. unfold dict_convert. destruct v; try discriminate. rename d into dd.
      assert (L : forall data errs d', dict_loop fc2 g2 ck x dd data errs = Ok (d', []) -> errs = [] /\ dict_loop fc g ck x dd data errs = Ok (d', [])).
      { clear w. induction dd as [|[y a] l IH]; intros data errs d'; cbn [dict_loop].
        - intros [= <- <-]. auto.
        - destruct (fc2 g2 a x) as [w|e] eqn:R; cbn [rbind].
          + rewrite (Hfc _ _ _ _ _ T R). cbn [rbind]. destruct (ck y) as [y'|e]; cbn [rbind]; [apply IH|]. destruct (is_base_error e); [|discriminate]. intros Q. apply IH in Q as [Q _]. destruct (dset_nonempty _ _ _ Q).
          + destruct (is_base_error e); [|discriminate]. intros Q. apply IH in Q as [Q _]. destruct (dset_nonempty _ _ _ Q). }
      intros R. apply rbind_ok in R as ([d1 es] & R1 & R2). destruct es; [|discriminate]. destruct (L _ _ _ R1) as [_ R3]. rewrite R3. exact R2.
    Qed.
    Lemma poly_tight p v x w : poly_convert E2 fc2 pre2 p v x = Ok w -> poly_convert E fc pre p v x = Ok w.
    Proof using X Hfc.
      unfold poly_convert. rewrite (allowed_alike _ _ (tn_issub _ _ X)),
        (find_model_alike _ _ (tn_subs _ _ X) (fun c => tc_claim _ _ (tn_class _ _ X c))).
      destruct (is_none v); [auto|]. destruct (negb _ && poly_allowed E2 p v); [auto|]. destruct (negb _ && _); [discriminate|].
      destruct (find_model E2 p v); cbn [rbind]; [apply new_tight|discriminate].
    Qed.
  End Loop.

  Definition tight_at (r r2 : conv) : Prop := forall f f2, tighter f f2 ->
    (forall v x w, cv_field r2 f2 v x = Ok w -> cv_field r f v x = Ok w) /\
    (forall v x w, cv_convert r2 f2 v x = Ok w -> cv_convert r f v x = Ok w) /\
    (forall v x w, cv_validate r2 f2 v x = Ok w -> cv_validate r f v x = Ok w) /\
    (forall v w, cv_pre r2 f2 v = Ok w -> cv_pre r f v = Ok w).
  Lemma required_tight f f2 v x : tighter f f2 -> check_required f2 v x = None -> check_required f v x = None.
  Proof using Type.
    intros T. apply tighter_of in T. unfold check_required. rewrite (to_named _ _ T). pose proof (to_required _ _ T) as R.
    destruct (fo_required (fs_opts f)); cbn; [|reflexivity]. now rewrite (R eq_refl).
  Qed.
  (** What a union of types without parts resolves to is the same in both versions. *)
  Lemma resolve_tight (cv cv2 : fspec -> pyval -> res pyval) ms ms2 v m2 w :
    Forall2 (fun m m2 => exists p p2 l, m = FS p (TLeaf l) /\ m2 = FS p2 (TLeaf l) /\ tighter_opts p p2) ms ms2 ->
    (forall p p2 l v, cv (FS p (TLeaf l)) v = cv2 (FS p2 (TLeaf l)) v) ->
    union_resolve cv2 ms2 v = Ok (m2, w) -> exists m, union_resolve cv ms v = Ok (m, w) /\ tighter m m2.
  Proof using Type.
    intros H K. induction H as [|a b ms ms2 (p & p2 & l & -> & -> & O) _ IH]; cbn; [discriminate|]. rewrite (K p p2 l v).
    destruct (cv2 (FS p2 (TLeaf l)) v) as [u|[]] eqn:R; try discriminate; [|exact IH].
    intros [= <- <-]. eexists. split; [reflexivity|]. apply ti_leaf; [exact O|]. split; auto.
  Qed.
  Lemma step_tight r r2 : tight_at r r2 -> (forall p p2 l v x, cv_convert r (FS p (TLeaf l)) v x = cv_convert r2 (FS p2 (TLeaf l)) v x) ->
    tight_at (conv_step E r) (conv_step E2 r2).
  Proof using X.
    intros IH Lf f f2 T.
    pose proof (fun f f2 v x w T => proj1 (IH f f2 T) v x w) as Hf.
    pose proof (fun f f2 v x w T => proj1 (proj2 (IH f f2 T)) v x w) as Hc.
    pose proof (fun f f2 v x w T => proj1 (proj2 (proj2 (IH f f2 T))) v x w) as Hv.
    split; [|split; [|split]]; cbn [conv_step cv_field cv_convert cv_validate cv_pre].
    - intros v x w. unfold field_step. destruct (check_required f2 v x) eqn:R; [discriminate|]. rewrite (required_tight _ _ _ _ T R).
      destruct (is_nil v); [auto|]. destruct (cx_validate x); [now apply Hv|now apply Hc].
    - intros v x w. unfold convert_step. destruct T as [o o2 l l2 O [R _]|o o2 ms ms2 O H|o o2 c O|o o2 p O|o o2 g g2 O T|o o2 g g2 ck O T]; cbn [fs_type].
      + apply R.
      + intros R. apply rbind_ok in R as ([m2 u] & R1 & R2). injection R2 as ->.
        destruct (resolve_tight (fun m v => cv_convert r m v x) (fun m v => cv_convert r2 m v x) ms ms2 v m2 w H (fun p p2 l v => Lf p p2 l v x) R1) as (m & -> & _). reflexivity.
      + now apply (model_tight _ _ _ _ Hf).
      + now apply (poly_tight _ _ _ _ Hf).
      + now apply (list_tight _ _ Hf).
      + now apply (dict_tight _ _ Hf).
    - intros v x w.
      assert (G : rbind (if cx_convert x then cv_convert r2 f2 v x else if is_compound f2 then rbind (cv_convert r2 f2 v x) (fun _ => Ok v) else Ok v)
          (validators_result (fo_validators (fs_opts f2))) = Ok w ->
        rbind (if cx_convert x then cv_convert r f v x else if is_compound f then rbind (cv_convert r f v x) (fun _ => Ok v) else Ok v)
          (validators_result (fo_validators (fs_opts f))) = Ok w).
      { rewrite (tighter_compound _ _ T). intros R. apply rbind_ok in R as (u & R1 & R2). apply validators_result_ok in R2 as [-> R2].
        assert (C : (if cx_convert x then cv_convert r f v x else if is_compound f2 then rbind (cv_convert r f v x) (fun _ => Ok v) else Ok v) = Ok u).
        { destruct (cx_convert x); [now apply (Hc f f2)|]. destruct (is_compound f2); [|exact R1]. apply rbind_ok in R1 as (u' & R1 & R3).
          rewrite (Hc f f2 _ _ _ T R1). exact R3. }
        rewrite C. cbn [rbind]. apply validators_accept. exact (to_validators _ _ (tighter_of _ _ T) u R2). }
      unfold validate_step. destruct T as [o o2 l l2 O R|o o2 ms ms2 O H|o o2 c O|o o2 p O|o o2 g g2 O T|o o2 g g2 ck O T]; cbn [fs_type]; try exact G.
      intros R. apply rbind_ok in R as ([m2 u] & R1 & R2).
      destruct (resolve_tight (fun m v => cv_convert r m v x) (fun m v => cv_convert r2 m v x) ms ms2 v m2 u H (fun p p2 l v => Lf p p2 l v x) R1) as (m & -> & Tm).
      cbn [rbind]. now apply (Hv m m2).
    - intros v w. unfold pre_step. destruct T; cbn [fs_type]; try (intros H'; exact H'). destruct v; try (intros H'; exact H'). now apply (new_tight _ _ _ _ Hf).
  Qed.
  Lemma leaf_convert_eq j p p2 l v x : cv_convert (conv_at E j) (FS p (TLeaf l)) v x = cv_convert (conv_at E2 j) (FS p2 (TLeaf l)) v x.
  Proof using Type. destruct j; reflexivity. Qed.
  Lemma tight_all j : tight_at (conv_at E j) (conv_at E2 j).
  Proof using X.
    induction j as [|j IH].
    - intros f f2 _. split; [|split; [|split]]; cbn; discriminate.
    - cbn [conv_at]. apply step_tight; [exact IH|]. apply leaf_convert_eq.
  Qed.
  Lemma field_all j f f2 v x w : tighter f f2 -> cv_field (conv_at E2 j) f2 v x = Ok w -> cv_field (conv_at E j) f v x = Ok w.
  Proof using X. intros T. apply (tight_all j f f2 T). Qed.

  (** ** The methods *)
  Lemma convert_tight j c m raw td w m1 data : model__convert E2 (conv_at E2 j) c m raw td w = (m1, Ok data) ->
    model__convert E (conv_at E j) c m raw td w = (m1, Ok data).
  Proof using X.
    unfold model__convert. rewrite (py_dict_alike _ _ shape). destruct (if truthy raw then _ else _) as [d0|e]; [|discriminate].
    destruct (match md_unsafe m with [] => _ | _ => _ end) as [[[m0 a1] d1] w1]. set (x := kw_ctx w1 _).
    destruct (kw_validate w).
    - destruct (validate_fn_tight _ _ (cv_pre (conv_at E j)) (cv_pre (conv_at E2 j)) (field_all j) x c (VModel c m0) a1 d1) as [-> V].
      intros [= <- R]. now rewrite (V _ R).
    - destruct (loop_tight _ _ (cv_pre (conv_at E j)) (cv_pre (conv_at E2 j)) (field_all j) x _ _ (VModel c m0) a1 (VDict d1) (pairs c)) as (-> & _ & V).
      intros [= <- R]. now rewrite (V _ R).
  Qed.
  Theorem validate_tight j c m w m1 : model_validate E2 (conv_at E2 j) c m w = (m1, None) -> model_validate E (conv_at E j) c m w = (m1, None).
  Proof using X.
    unfold model_validate. assert (B : model_validate_body E2 (conv_at E2 j) c m w = (fst (model_validate_body E2 (conv_at E2 j) c m w), None) ->
      model_validate_body E (conv_at E j) c m w = model_validate_body E2 (conv_at E2 j) c m w).
    { unfold model_validate_body. destruct (model__convert E2 _ c m _ _ _) as [m2 [data|e]] eqn:R.
      - intros _. now rewrite (convert_tight _ _ _ _ _ _ _ _ R).
      - destruct e; discriminate. }
    destruct (md_converted m) as [|p l]; [destruct (kw_partial w); [auto|]|];
      (destruct (model_validate_body E2 (conv_at E2 j) c m w) as [m2 [e|]]; [discriminate|]; rewrite B by reflexivity; auto).
  Qed.
  Theorem init_tight j c raw td w m : model_init E2 (conv_at E2 j) c raw td w = Ok m -> model_init E (conv_at E j) c raw td w = Ok m.
  Proof using X.
    unfold model_init. destruct (model__convert E2 _ c _ _ _ _) as [m1 [data|e]] eqn:R; [|discriminate]. rewrite (convert_tight _ _ _ _ _ _ _ _ R).
    destruct (kw_validate w); [|auto]. destruct (model_validate E2 _ c _ _) as [m3 [e|]] eqn:V; [discriminate|]. now rewrite (validate_tight _ _ _ _ _ V).
  Qed.
  Theorem import_tight j c m raw w m1 : model_import_data E2 (conv_at E2 j) c m raw w = (m1, None) -> model_import_data E (conv_at E j) c m raw w = (m1, None).
  Proof using X.
    unfold model_import_data. rewrite (py_dict_alike _ _ shape). destruct (py_dict E2 _) as [td|e]; [|discriminate].
    destruct (model__convert E2 _ c _ _ _ _) as [m2 [data|e]] eqn:R; [|discriminate]. rewrite (convert_tight _ _ _ _ _ _ _ _ R).
    destruct (kw_validate w); [|auto]. apply validate_tight.
  Qed.
  Lemma dget_pair fs fs2 : Forall2 pair_of fs fs2 -> forall n f2, dget n fs2 = Some f2 -> exists f, dget n fs = Some f /\ pair_of (n, f) (n, f2).
  Proof using Type.
    intros H n f2. induction H as [|[y f] [y2 g2] fs fs2 (A & P) _ IH]; cbn in *; [discriminate|]. subst y2. destruct (key_eqb n y); [|exact IH].
    intros [= <-]. exists f. split; [reflexivity|]. split; [reflexivity|exact P].
  Qed.
  Theorem setitem_tight j c m n v m1 : model_setitem E2 (conv_at E2 j) c m n v = (m1, None) -> model_setitem E (conv_at E j) c m n v = (m1, None).
  Proof using X.
    unfold model_setitem. destruct (dget n (mc_fields (e_class E2 c))) as [f2|] eqn:D; [|discriminate].
    destruct (dget_pair _ _ (pairs c) n f2 D) as (f & -> & _ & T & G & S1 & S2). cbn [fst snd] in *. rewrite G, S1, S2. destruct (fd_get f2); [discriminate|].
    destruct (cv_pre (conv_at E2 j) (fd_spec f2) v) as [w|e] eqn:R; [|discriminate].
    now rewrite (proj2 (proj2 (proj2 (tight_all j _ _ T))) v w R).
  Qed.

  (** ** Export *)
  Lemma level_tight f f2 x : tighter f f2 -> get_export_level E f x = get_export_level E2 f2 x.
  Proof using X.
    intros T. apply tighter_of in T. unfold get_export_level. rewrite (to_level _ _ T), (to_owner _ _ T).
    destruct (fo_owner (fs_opts f)) as [c|]; [|reflexivity]. now rewrite (tc_level _ _ (tn_class _ _ X c)).
  Qed.
  Section Ex.
    Context (fe fe2 : fspec -> pyval -> ectx -> res pyval).
    Hypothesis He : forall f f2 v x w, tighter f f2 -> fe2 f2 v x = Ok w -> fe f v x = Ok w.
    Lemma export_loop_tight x c obj d : export_loop E2 fe2 x c obj = Ok d -> export_loop E fe x c obj = Ok d.
    Proof using X He.
      unfold export_loop. intros R. apply rbind_ok in R as (filt & R1 & R2).
      assert (F : export_filter (e_class E c) x = Ok filt) by (rewrite <- R1; unfold export_filter; now rewrite (tc_roles _ _ (tn_class _ _ X c))).
      rewrite F. cbn [rbind]. clear R1 F. revert R2. generalize (@nil (key * pyval)). induction (pairs c) as [|[n f] [n2 f2] fs fs2 (A & T & _) _ IH]; intros data; cbn [export_fields]; [auto|].
      cbn in A, T. subst n2. intros R. apply rbind_ok in R as (o & R1 & R2).
      assert (G : export_field E fe x filt obj n f = Ok o).
      { unfold export_field in *. cbv zeta in *. rewrite (atom_alike _ _ shape), (level_tight _ _ x T), (tighter_compound _ _ T).
        assert (Sn : sname_of n (fd_spec f) = sname_of n (fd_spec f2)) by (unfold sname_of; now rewrite (to_sname _ _ (tighter_of _ _ T))). rewrite Sn.
        destruct (match filt with Some g => _ | None => _ end); [exact R1|]. destruct (Z.eqb _ DROP); [exact R1|].
        apply rbind_ok in R1 as (w & R0 & R1). destruct (is_nil _); [now rewrite R0|]. rewrite (He _ _ _ _ _ T R0). exact R1. }
      rewrite G. cbn [rbind]. now apply IH.
    Qed.
    Lemma export_step_tight f f2 v x w : tighter f f2 -> export_step E2 fe2 f2 v x = Ok w -> export_step E fe f v x = Ok w.
    Proof using X He.
      intros T. unfold export_step. destruct T as [o o2 l l2 O [R1 R2]|o o2 ms ms2 O H|o o2 c O|o o2 p O|o o2 g g2 O T|o o2 g g2 ck O T]; cbn [fs_type].
      - destruct (ec_fmt x); auto.
      - intros R. apply rbind_ok in R as ([m2 u] & R1 & R2).
        destruct (resolve_tight (export_convert E fe x) (export_convert E2 fe2 x) ms ms2 v m2 u H (fun _ _ _ _ => eq_refl) R1) as (m & -> & Tm). cbn [rbind]. now apply (He m m2).
      - unfold model_export. intros R. apply rbind_ok in R as (d & R1 & R2). now rewrite (export_loop_tight _ _ _ _ R1).
      - unfold poly_export. rewrite (allowed_alike _ _ (tn_issub _ _ X)). destruct (poly_allowed E2 p v); [|discriminate]. destruct v; try discriminate.
        intros R. apply rbind_ok in R as (d & R1 & R2). now rewrite (export_loop_tight _ _ _ _ R1).
      - unfold list_export. rewrite (level_tight _ _ x T). destruct (Z.eqb _ DROP); [auto|].
        assert (I : py_iter E v = py_iter E2 v) by (destruct v; cbn; try reflexivity; now rewrite (iter_alike _ _ shape)). rewrite I. clear I.
        destruct (py_iter E2 v) as [l|]; cbn [rbind]; [|discriminate]. intros R. apply rbind_ok in R as (d & R1 & R2). revert R1. generalize (@nil pyval).
        assert (S : forall lvl u, skip_elem g lvl u = skip_elem g2 lvl u) by (intros lvl u; unfold skip_elem; now rewrite (tighter_compound _ _ T)).
        induction l as [|a l IH]; intros acc; cbn [list_export_loop]; [intros [= ->]; exact R2|]. intros R. apply rbind_ok in R as (u & R3 & R4).
        rewrite (He _ _ _ _ _ T R3). cbn [rbind]. rewrite S. now apply IH.
      - unfold dict_export. rewrite (level_tight _ _ x T). destruct (Z.eqb _ DROP); [auto|].
        assert (I : py_item_pairs E v = py_item_pairs E2 v) by (destruct v; cbn; try reflexivity; now rewrite (iter_alike _ _ shape)). rewrite I. clear I.
        destruct (py_item_pairs E2 v) as [l|]; cbn [rbind]; [|discriminate]. intros R. apply rbind_ok in R as (d & R1 & R2). revert R1. generalize (@nil (key * pyval)).
        assert (S : forall lvl u, skip_elem g lvl u = skip_elem g2 lvl u) by (intros lvl u; unfold skip_elem; now rewrite (tighter_compound _ _ T)).
        induction l as [|[y a] l IH]; intros acc; cbn [dict_export_loop]; [intros [= ->]; exact R2|]. intros R. apply rbind_ok in R as (u & R3 & R4).
        rewrite (He _ _ _ _ _ T R3). cbn [rbind]. rewrite S. now apply IH.
    Qed.
  End Ex.
  Lemma export_all n f f2 v x w : tighter f f2 -> export_at E2 n f2 v x = Ok w -> export_at E n f v x = Ok w.
  Proof using X. revert f f2 v x w. induction n as [|n IH]; cbn; [discriminate|]. intros f f2 v x w T. apply export_step_tight; [exact IH|exact T]. Qed.
  Theorem export_tight n c m x d : model_export_top E2 (export_at E2 n) c m x = Ok d -> model_export_top E (export_at E n) c m x = Ok d.
  Proof using X. apply export_loop_tight. apply export_all. Qed.
End Tighten.

(** ** Versions that differ in their validators only *)
Section Same.
  Context (E E2 : env) (X : same_checks E E2).
  Definition twin (p q : key * field) : Prop := fst p = fst q /\ same_but (fd_spec (snd p)) (fd_spec (snd q)) /\
    fd_get (snd p) = fd_get (snd q) /\ fd_set (snd p) = fd_set (snd q).
  Lemma twins c : Forall2 twin (mc_fields (e_class E c)) (mc_fields (e_class E2 c)).
  Proof. exact (sc_fields _ _ (sm_class _ _ X c)). Qed.
  Lemma twins_alike fs fs2 : Forall2 twin fs fs2 -> Forall2 alike fs fs2.
  Proof. intros H. induction H as [|p q fs fs2 (A & _ & B) _ IH]; constructor; [|exact IH]. split; [exact A|exact B]. Qed.
  Lemma twin_shape c : Forall2 alike (mc_fields (e_class E c)) (mc_fields (e_class E2 c)).
  Proof. apply twins_alike, twins. Qed.
  Lemma same_of f f2 : same_but f f2 -> same_opts (fs_opts f) (fs_opts f2).
  Proof. intros []; assumption. Qed.
  Lemma same_compound f f2 : same_but f f2 -> is_compound f = is_compound f2.
  Proof. intros []; reflexivity. Qed.
  Lemma same_keys n f f2 mp : same_but f f2 -> input_keys n f mp = input_keys n f2 mp.
  Proof. intros H. apply same_of in H. unfold input_keys. now rewrite (so_sname _ _ H), (so_dfrom _ _ H). Qed.
  Lemma same_sname n f f2 : same_but f f2 -> sname_of n f = sname_of n f2.
  Proof. intros H. apply same_of in H. unfold sname_of. now rewrite (so_sname _ _ H). Qed.
  Lemma same_all_keys fs fs2 mp : Forall2 twin fs fs2 -> all_input_keys fs mp = all_input_keys fs2 mp.
  Proof.
    intros H. unfold all_input_keys. f_equal. unfold valid_input_keys.
    induction H as [|[y f] [y2 f2] fs fs2 (A & B & _) _ IH]; cbn [flat_map fst snd] in *; [reflexivity|]. subst y2. now rewrite (same_keys _ _ _ _ B), IH.
  Qed.
  (** Contexts of fields keep [validate]. *)
  Lemma ctx_validate x n f : cx_validate x = false -> cx_validate (field_ctx E x n f) = false.
  Proof. intros H. unfold field_ctx. destruct (is_compound f); exact H. Qed.

  Section Loop.
    Context (fc fc2 : fspec -> pyval -> ictx -> res pyval) (pre pre2 : fspec -> pyval -> res pyval).
    Hypothesis Hfc : forall f f2 v x, same_but f f2 -> cx_validate x = false -> fc f v x = fc2 f2 v x.
    Lemma fields_same x got raw fs fs2 : cx_validate x = false -> Forall2 twin fs fs2 -> forall s,
      import_fields E fc x got raw fs s = import_fields E2 fc2 x got raw fs2 s.
    Proof using X Hfc.
      intros V H. induction H as [|[y f] [y2 f2] fs fs2 (A & B & _ & C) _ IH]; intros s; cbn [import_fields]; [reflexivity|]. cbn in A, B, C. subst y2.
      unfold has_setter. rewrite C. destruct (negb _ && _); [apply IH|].
      assert (F : import_field E fc x got raw y f s = import_field E2 fc2 x got raw y f2 s).
      { unfold import_field. destruct s as [data errs]. cbv zeta. pose proof (same_of _ _ B) as O.
        rewrite (atom_alike _ _ twin_shape), (find_alt_alike _ _ twin_shape), (same_keys y _ _ (cx_mapping x) B), <- (so_default _ _ O), (same_sname y _ _ B).
        destruct (if got && _ then _ else _) as [v1|e]; cbn [rbind]; [|reflexivity].
        destruct (is_undef v1 && dmem y data); [reflexivity|]. set (v3 := if is_undef _ && _ then _ else _).
        destruct got; [|reflexivity]. rewrite (Hfc _ _ v3 (field_ctx E x y (fd_spec f)) B (ctx_validate x y _ V)).
        now rewrite (ctx_alike _ _ twin_shape x y _ _ (same_compound _ _ B)). }
      rewrite F. destruct (import_field E2 _ _ _ _ _ _ _); cbn [rbind]; [apply IH|reflexivity].
    Qed.
    Lemma loop_same x fs fs2 mut a raw : cx_validate x = false -> Forall2 twin fs fs2 ->
      import_loop E fc pre x fs mut a raw = import_loop E2 fc2 pre2 x fs2 mut a raw.
    Proof using X Hfc.
      intros V H. unfold import_loop. rewrite (py_dict_alike _ _ twin_shape), V, andb_false_r.
      destruct (if truthy _ then _ else _) as [data0|e]; [|reflexivity]. f_equal. cbn [rbind].
      rewrite (rogues_alike _ _ twin_shape x fs fs2 raw [] (same_all_keys _ _ _ H)).
      destruct (if negb (is_none raw) then _ else _) as [errs1|e]; cbn [rbind]; [|reflexivity].
      rewrite (fields_same x _ raw fs fs2 V H). destruct (import_fields E2 _ _ _ _ _ _) as [[d es]|e]; cbn [rbind]; [|reflexivity].
      now rewrite (copy_alike _ _ twin_shape raw _ _ d (twins_alike _ _ H)).
    Qed.
    Lemma new_same c v x : cx_validate x = false -> model_new E fc pre c v x = model_new E2 fc2 pre2 c v x.
    Proof using X Hfc.
      intros V. unfold model_new. rewrite (py_dict_alike _ _ twin_shape), V. destruct (if truthy v then _ else _) as [d|e]; cbn [rbind]; [|reflexivity].
      now rewrite (loop_same x _ _ _ _ _ V (twins c)).
    Qed.
    Lemma model_same c v x : cx_validate x = false -> model_convert E fc pre c v x = model_convert E2 fc2 pre2 c v x.
    Proof using X Hfc.
      intros V. unfold model_convert, model_class_convert.
      destruct v; try reflexivity; rewrite ?(sm_issub _ _ X); rewrite ?(new_same _ _ x V), ?(loop_same x _ _ _ _ _ V (twins _)); reflexivity.
    Qed.
    Lemma list_same g g2 v x : same_but g g2 -> cx_validate x = false -> list_convert E fc g v x = list_convert E2 fc2 g2 v x.
    Proof using X Hfc.
      intros T V. unfold list_convert. rewrite (elems_alike _ _ twin_shape). destruct (list_elems E2 v) as [l|]; [|reflexivity].
      assert (L : forall i data errs, list_loop fc g x i l data errs = list_loop fc2 g2 x i l data errs).
      { induction l as [|a l IH]; intros i data errs; cbn [list_loop]; [reflexivity|]. rewrite (Hfc _ _ a x T V). destruct (fc2 g2 a x); [apply IH|].
        destruct (is_base_error _); [apply IH|reflexivity]. }
      now rewrite L.
    Qed.
    Lemma dict_same g g2 ck v x : same_but g g2 -> cx_validate x = false -> dict_convert fc g ck v x = dict_convert fc2 g2 ck v x.
    Proof using Hfc.
      intros T V. unfold dict_convert. destruct v; try reflexivity. rename d into dd.
      assert (L : forall data errs, dict_loop fc g ck x dd data errs = dict_loop fc2 g2 ck x dd data errs).
      { induction dd as [|[y a] l IH]; intros data errs; cbn [dict_loop]; [reflexivity|]. rewrite (Hfc _ _ a x T V).
        destruct (rbind (fc2 g2 a x) _) as [[y' w]|e]; [apply IH|]. destruct (is_base_error _); [apply IH|reflexivity]. }
      now rewrite L.
    Qed.
    Lemma poly_same p v x : cx_validate x = false -> poly_convert E fc pre p v x = poly_convert E2 fc2 pre2 p v x.
    Proof using X Hfc.
      intros V. unfold poly_convert. rewrite (allowed_alike _ _ (sm_issub _ _ X)),
        (find_model_alike _ _ (sm_subs _ _ X) (fun c => sc_claim _ _ (sm_class _ _ X c))).
      destruct (find_model E2 p v); cbn [rbind]; [|reflexivity]. now rewrite (new_same _ _ x V).
    Qed.
  End Loop.

  Definition same_at (r r2 : conv) : Prop := forall f f2, same_but f f2 ->
    (forall v x, cx_validate x = false -> cv_field r f v x = cv_field r2 f2 v x) /\
    (forall v x, cx_validate x = false -> cv_convert r f v x = cv_convert r2 f2 v x) /\
    (forall v, cv_pre r f v = cv_pre r2 f2 v).
  Lemma resolve_same (cv cv2 : fspec -> pyval -> res pyval) ms ms2 v :
    Forall2 same_but ms ms2 -> (forall m m2, In m ms -> same_but m m2 -> cv m v = cv2 m2 v) ->
    match union_resolve cv ms v, union_resolve cv2 ms2 v with
    | Ok (m, w), Ok (m2, w2) => w = w2 /\ same_but m m2
    | Raise e, Raise e2 => e = e2
    | _, _ => False
    end.
  Proof using Type.
    intros H K. induction H as [|a b ms ms2 S _ IH]; cbn; [reflexivity|]. rewrite (K a b (or_introl eq_refl) S).
    destruct (cv2 b v) as [u|[]]; auto. apply IH. intros m m2 Hm. apply K. now right.
  Qed.
  Lemma resolve_value (cv cv2 : fspec -> pyval -> res pyval) ms ms2 v :
    Forall2 same_but ms ms2 -> (forall m m2, In m ms -> same_but m m2 -> cv m v = cv2 m2 v) ->
    rbind (union_resolve cv ms v) (fun '(_, w) => Ok w) = rbind (union_resolve cv2 ms2 v) (fun '(_, w) => Ok w).
  Proof using Type.
    intros H K. pose proof (resolve_same cv cv2 ms ms2 v H K) as R.
    destruct (union_resolve cv ms v) as [[m w]|e], (union_resolve cv2 ms2 v) as [[m2 w2]|e2]; try contradiction; cbn; [now destruct R as [-> _]|now rewrite R].
  Qed.
  Lemma step_same r r2 : same_at r r2 -> same_at (conv_step E r) (conv_step E2 r2).
  Proof using X.
    intros IH f f2 T.
    assert (Hf : forall f f2 v x, same_but f f2 -> cx_validate x = false -> cv_field r f v x = cv_field r2 f2 v x) by (intros; now apply IH).
    assert (Hc : forall f f2 v x, same_but f f2 -> cx_validate x = false -> cv_convert r f v x = cv_convert r2 f2 v x) by (intros; now apply IH).
    split; [|split]; cbn [conv_step cv_field cv_convert cv_pre].
    - intros v x V. unfold field_step, check_required. pose proof (same_of _ _ T) as O. rewrite (so_required _ _ O), (so_named _ _ O), V. now rewrite (Hc f f2).
    - intros v x V. unfold convert_step. destruct T as [o o2 l O|o o2 ms ms2 O H|o o2 c O|o o2 p O|o o2 g g2 O T|o o2 g g2 ck O T]; cbn [fs_type].
      + reflexivity.
      + apply (resolve_value (fun m u => cv_convert r m u x) (fun m u => cv_convert r2 m u x) ms ms2 v H). intros m m2 _ S. now apply Hc.
      + now apply model_same.
      + now apply poly_same.
      + now apply list_same.
      + now apply dict_same.
    - intros v. unfold pre_step. destruct T; cbn [fs_type]; try reflexivity. destruct v; try reflexivity. now apply new_same.
  Qed.
  Lemma same_all j : same_at (conv_at E j) (conv_at E2 j).
  Proof using X. induction j as [|j IH]; [|now apply step_same]. intros f f2 _. split; [|split]; reflexivity. Qed.
  Lemma field_same_all j f f2 v x : same_but f f2 -> cx_validate x = false -> cv_field (conv_at E j) f v x = cv_field (conv_at E2 j) f2 v x.
  Proof using X. intros T. apply (same_all j f f2 T). Qed.
  Lemma convert_same j c m raw td w : kw_validate w = false ->
    model__convert E (conv_at E j) c m raw td w = model__convert E2 (conv_at E2 j) c m raw td w.
  Proof using X.
    intros V. unfold model__convert. rewrite (py_dict_alike _ _ twin_shape). destruct (if truthy raw then _ else _) as [d0|e]; [|reflexivity].
    destruct (match md_unsafe m with [] => _ | _ => _ end) as [[[m0 a1] d1] w1] eqn:U.
    assert (W : kw_validate w1 = false) by (destruct (md_unsafe m); injection U as <- <- <- <-; exact V). rewrite V.
    now rewrite (loop_same _ _ (cv_pre (conv_at E j)) (cv_pre (conv_at E2 j)) (field_same_all j) (kw_ctx w1 _) _ _ _ _ _ W (twins c)).
  Qed.
  Theorem init_same j c raw td w : kw_validate w = false -> model_init E (conv_at E j) c raw td w = model_init E2 (conv_at E2 j) c raw td w.
  Proof using X. intros V. unfold model_init. now rewrite (convert_same _ _ _ _ _ _ V), V. Qed.
  Theorem import_same j c m raw w : kw_validate w = false -> model_import_data E (conv_at E j) c m raw w = model_import_data E2 (conv_at E2 j) c m raw w.
  Proof using X.
    intros V. unfold model_import_data. rewrite (py_dict_alike _ _ twin_shape). destruct (py_dict E2 _); [|reflexivity]. now rewrite (convert_same _ _ _ _ _ _ V), V.
  Qed.
  Theorem setitem_same j c m n v : model_setitem E (conv_at E j) c m n v = model_setitem E2 (conv_at E2 j) c m n v.
  Proof using X.
    unfold model_setitem.
    assert (D : match dget n (mc_fields (e_class E c)), dget n (mc_fields (e_class E2 c)) with
      | Some f, Some f2 => twin (n, f) (n, f2) | None, None => True | _, _ => False end).
    { induction (twins c) as [|[y f] [y2 f2] fs fs2 (A & P) _ IH]; cbn in *; [exact I|]. subst y2. destruct (key_eqb n y); [|exact IH]. now split. }
    destruct (dget n (mc_fields (e_class E c))) as [f|], (dget n (mc_fields (e_class E2 c))) as [f2|]; try contradiction; [|reflexivity].
    destruct D as (_ & T & G & S). cbn [snd] in *. rewrite G, S, (proj2 (proj2 (same_all j _ _ T)) v). reflexivity.
  Qed.

  (** ** Export *)
  Lemma level_same f f2 x : same_but f f2 -> get_export_level E f x = get_export_level E2 f2 x.
  Proof using X.
    intros T. apply same_of in T. unfold get_export_level. rewrite (so_level _ _ T), (so_owner _ _ T).
    destruct (fo_owner (fs_opts f)) as [c|]; [|reflexivity]. now rewrite (sc_level _ _ (sm_class _ _ X c)).
  Qed.
  Section Ex.
    Context (fe fe2 : fspec -> pyval -> ectx -> res pyval).
    Hypothesis He : forall f f2 v x, same_but f f2 -> fe f v x = fe2 f2 v x.
    Lemma export_loop_same x c obj : export_loop E fe x c obj = export_loop E2 fe2 x c obj.
    Proof using X He.
      unfold export_loop. assert (F : export_filter (e_class E c) x = export_filter (e_class E2 c) x) by (unfold export_filter; now rewrite (sc_roles _ _ (sm_class _ _ X c))).
      rewrite F. destruct (export_filter (e_class E2 c) x) as [filt|e]; cbn [rbind]; [|reflexivity]. generalize (@nil (key * pyval)).
      induction (twins c) as [|[n f] [n2 f2] fs fs2 (A & T & _) _ IH]; intros data; cbn [export_fields]; [reflexivity|]. cbn in A, T. subst n2.
      assert (G : export_field E fe x filt obj n f = export_field E2 fe2 x filt obj n f2).
      { unfold export_field. cbv zeta. now rewrite (atom_alike _ _ twin_shape), (level_same _ _ x T), (same_compound _ _ T), (same_sname n _ _ T), (He _ _ _ x T). }
      rewrite G. destruct (export_field E2 _ _ _ _ _ _); cbn [rbind]; [apply IH|reflexivity].
    Qed.
    Lemma export_convert_same x : forall f f2 v, same_but f f2 -> export_convert E fe x f v = export_convert E2 fe2 x f2 v.
    Proof using X He.
      fix IH 4. intros f f2 v T. destruct T as [o o2 l O|o o2 ms ms2 O H|o o2 c O|o o2 p O|o o2 g g2 O T|o o2 g g2 ck O T]; cbn [export_convert].
      - reflexivity.
      - assert (R : match union_resolve (export_convert E fe x) ms v, union_resolve (export_convert E2 fe2 x) ms2 v with
          | Ok (m, w), Ok (m2, w2) => w = w2 | Raise e, Raise e2 => e = e2 | _, _ => False end).
        { clear O o o2. induction H as [|a b ms ms2 S _ IHl]; cbn; [reflexivity|]. rewrite (IH a b v S).
          destruct (export_convert E2 fe2 x b v) as [u|[]]; auto. }
        destruct (union_resolve (export_convert E fe x) ms v) as [[m w]|e], (union_resolve (export_convert E2 fe2 x) ms2 v) as [[m2 w2]|e2]; try contradiction; cbn; now rewrite R.
      - destruct v; try reflexivity. now rewrite (sm_issub _ _ X).
      - reflexivity.
      - apply list_same; [|exact T|reflexivity]. intros; now apply He.
      - apply dict_same; [|exact T|reflexivity]. intros; now apply He.
    Qed.
    Lemma export_step_same f f2 v x : same_but f f2 -> export_step E fe f v x = export_step E2 fe2 f2 v x.
    Proof using X He.
      intros T. unfold export_step. destruct T as [o o2 l O|o o2 ms ms2 O H|o o2 c O|o o2 p O|o o2 g g2 O T|o o2 g g2 ck O T]; cbn [fs_type].
      - reflexivity.
      - pose proof (resolve_same (export_convert E fe x) (export_convert E2 fe2 x) ms ms2 v H (fun m m2 _ S => export_convert_same x m m2 v S)) as R.
        destruct (union_resolve (export_convert E fe x) ms v) as [[m w]|e], (union_resolve (export_convert E2 fe2 x) ms2 v) as [[m2 w2]|e2]; try contradiction; cbn; [destruct R as [_ S]; now apply He|now rewrite R].
      - unfold model_export. now rewrite export_loop_same.
      - unfold poly_export. rewrite (allowed_alike _ _ (sm_issub _ _ X)). destruct (poly_allowed E2 p v); [|reflexivity]. destruct v; try reflexivity. now rewrite export_loop_same.
      - unfold list_export. rewrite (level_same _ _ x T). destruct (Z.eqb _ DROP); [reflexivity|].
        assert (I : py_iter E v = py_iter E2 v) by (destruct v; cbn; try reflexivity; now rewrite (iter_alike _ _ twin_shape)). rewrite I. clear I.
        destruct (py_iter E2 v) as [l|]; cbn [rbind]; [|reflexivity]. f_equal. generalize (@nil pyval).
        induction l as [|a l IH]; intros acc; cbn [list_export_loop]; [reflexivity|]. rewrite (He _ _ a x T). destruct (fe2 g2 a x); cbn [rbind]; [|reflexivity].
        unfold skip_elem. rewrite (same_compound _ _ T). apply IH.
      - unfold dict_export. rewrite (level_same _ _ x T). destruct (Z.eqb _ DROP); [reflexivity|].
        assert (I : py_item_pairs E v = py_item_pairs E2 v) by (destruct v; cbn; try reflexivity; now rewrite (iter_alike _ _ twin_shape)). rewrite I. clear I.
        destruct (py_item_pairs E2 v) as [l|]; cbn [rbind]; [|reflexivity]. f_equal. generalize (@nil (key * pyval)).
        induction l as [|[y a] l IH]; intros acc; cbn [dict_export_loop]; [reflexivity|]. rewrite (He _ _ a x T). destruct (fe2 g2 a x); cbn [rbind]; [|reflexivity].
        unfold skip_elem. rewrite (same_compound _ _ T). apply IH.
    Qed.
  End Ex.
  Theorem export_same n c m x : model_export_top E (export_at E n) c m x = model_export_top E2 (export_at E2 n) c m x.
  Proof using X.
    apply export_loop_same. induction n as [|n IH]; intros f f2 v y T; cbn; [reflexivity|]. now apply export_step_same.
  Qed.
End Same.
