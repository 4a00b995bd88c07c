(** Options that only add checks do not change what passes. *)
From Coq Require Import Lia.
From Verif.Model Require Import Py Core Export Api.
From Verif.Spec Require Import OptionSpec.
From Verif.Proofs Require Import DictLemmas.

(** The second succeeds with the same result if the first does. *)
Definition passes {A} (r s : res A) : Prop := forall w, r = Ok w -> s = Ok w.
Lemma passes_refl {A} (r : res A) : passes r r.
Proof. intros w H; exact H. Qed.
Lemma passes_bind {A B} (r s : res A) (f g : A -> res B) : passes r s -> (forall a, r = Ok a -> passes (f a) (g a)) -> passes (rbind r f) (rbind s g).
Proof. intros H F w. destruct r as [a|e]; cbn; [|discriminate]. rewrite (H a eq_refl). cbn. now apply F. Qed.

(** The same for contexts. *)
Definition weaker (b : bool) (x y : ictx) : Prop :=
  cx_validate x = b /\ exists p s, (cx_partial x = true -> p = true) /\ (s = true -> cx_strict x = true) /\
    y = Ctx (cx_trusted x) (cx_mapping x) p s (cx_init_values x) (cx_apply_defaults x) (cx_convert x) (cx_validate x) (cx_oo x) (cx_recursive x).
Lemma weaker_branch b x y td sub : weaker b x y -> weaker b (branch x td sub) (branch y td sub).
Proof. intros (V & p & s & Hp & Hs & ->). split; [exact V|]. exists p, s. cbn. auto. Qed.
Lemma weaker_field b E x y n f : weaker b x y -> weaker b (field_ctx E x n f) (field_ctx E y n f).
Proof.
  intros H. unfold field_ctx. destruct (is_compound f); [|assumption].
  assert (nested_td E y n = nested_td E x n /\ nested_map y n = nested_map x n) as [-> ->] by (destruct H as (_ & p & s & _ & _ & ->); split; reflexivity).
  now apply weaker_branch.
Qed.
Lemma weaker_required b x y f v : weaker b x y -> check_required f v x = None -> check_required f v y = None.
Proof.
  intros (_ & p & s & Hp & _ & ->). unfold check_required. cbn. destruct (fo_required (fs_opts f)), (is_nil v); cbn; try reflexivity.
  destruct (fo_named (fs_opts f)); cbn; [|discriminate]. destruct (cx_partial x); cbn; [|discriminate]. now rewrite (Hp eq_refl).
Qed.

Lemma dset_nonempty {A} n (v : A) d : dset n v d <> [].
Proof. destruct d as [|[y w] d]; cbn; [discriminate|]. destruct (key_eqb n y); discriminate. Qed.

Section Pass.
  Context (E : env) (calm : calm_getters E).
  (** With validation, no setters run. *)
  Context (b : bool) (ns : b = true -> no_setters E).

  Definition quiet (e : exn) : Prop := e = XFuel \/ exists p, e = XPy p.
  Lemma getitem_quiet v n e : py_getitem E v n = Raise e -> quiet e.
  Proof.
    unfold quiet. destruct v; cbn [py_getitem]; try (intros [= <-]; eauto; fail).
    - destruct (dget n d); [discriminate|]. intros [= <-]. eauto.
    - unfold model_getitem. destruct (dget n (mc_fields (e_class E c))) as [f|] eqn:D; [|intros [= <-]; eauto]. apply dget_In in D.
      unfold field_get. destruct (fd_get f) as [g|] eqn:G.
      + destruct (g (VModel c m)) as [v|x] eqn:R; [destruct (is_undef v); [intros [= <-]; eauto|discriminate]|]. intros [= <-]. eapply calm; eassumption.
      + destruct (chain_get m n) as [v|]; [destruct (is_undef v); [intros [= <-]; eauto|discriminate]|intros [= <-]; eauto].
  Qed.
  Lemma items_quiet v ks e : py_items E v ks = Raise e -> quiet e.
  Proof.
    revert e. induction ks as [|z ks IH]; intros e; cbn [py_items]; [discriminate|].
    destruct (py_getitem E v z) as [w|x] eqn:G; cbn [rbind]; [|intros [= <-]; eapply getitem_quiet; eassumption].
    destruct (py_items E v ks) as [l|x]; cbn [rbind]; [discriminate|]. intros [= <-]. now apply IH.
  Qed.
  Lemma keys_quiet v e : py_keys E v = Raise e -> quiet e.
  Proof. unfold quiet. destruct v; cbn; try discriminate; intros [= <-]; eauto. Qed.
  Lemma dict_quiet v e : py_dict E v = Raise e -> quiet e.
  Proof.
    destruct v; cbn [py_dict]; try discriminate; try (cbn; intros [= <-]; right; eauto; fail).
    cbn [py_keys rbind]. apply items_quiet.
  Qed.
  Lemma find_alt_quiet raw n ks e : find_alt E raw n ks = Raise e -> quiet e.
  Proof. induction ks as [|z ks IH]; cbn; [discriminate|]. destruct (_ && _); [apply getitem_quiet|exact IH]. Qed.

  Section Loop.
    Context (fc fc' : fspec -> pyval -> ictx -> res pyval) (pre pre' : fspec -> pyval -> res pyval).
    Context (Hfc : forall f v x y, weaker b x y -> passes (fc f v x) (fc' f v y)).

    Lemma import_field_errs x got raw n f data errs d e : errs <> [] -> import_field E fc x got raw n f (data, errs) = Ok (d, e) -> e <> [].
    Proof.
      intros Ne. unfold import_field. destruct (if got && _ then _ else _) as [v1|]; cbn [rbind]; [|discriminate].
      destruct (is_undef v1 && dmem n data); [intros [= <- <-]; exact Ne|].
      destruct got.
      - destruct (fc _ _ _) as [w|ex].
        + destruct (is_undef w); intros [= <- <-]; exact Ne.
        + destruct (caught_by_loop ex); [|discriminate]. intros [= <- <-]. apply dset_nonempty.
      - destruct (is_undef _); intros [= <- <-]; exact Ne.
    Qed.
    Lemma import_fields_errs x got raw fs : forall data errs d e, errs <> [] -> import_fields E fc x got raw fs (data, errs) = Ok (d, e) -> e <> [].
    Proof.
      induction fs as [|[n f] fs IH]; intros data errs d e Ne; cbn [import_fields].
      - intros [= <- <-]; exact Ne.
      - destruct (negb (cx_validate x) && has_setter f); [now apply IH|].
        destruct (import_field E fc x got raw n f (data, errs)) as [[d1 e1]|] eqn:F; cbn [rbind]; [|discriminate].
        apply IH. eapply import_field_errs; eassumption.
    Qed.
    Lemma import_field_pass x y got raw n f data d : weaker b x y ->
      import_field E fc x got raw n f (data, []) = Ok (d, []) -> import_field E fc' y got raw n f (data, []) = Ok (d, []).
    Proof.
      intros W. unfold import_field.
      assert (cx_mapping y = cx_mapping x /\ cx_apply_defaults y = cx_apply_defaults x /\ cx_init_values y = cx_init_values x) as (-> & -> & ->)
        by (destruct W as (_ & p & s & _ & _ & ->); repeat split).
      destruct (if got && _ then _ else _) as [v1|]; cbn [rbind]; [|discriminate].
      destruct (is_undef v1 && dmem n data); [auto|]. destruct got; [|auto].
      match goal with |- context[fc ?p ?q ?r] => pose proof (Hfc p q r (field_ctx E y n (fd_spec f)) (weaker_field b E x y n (fd_spec f) W)) as P; destruct (fc p q r) as [w|ex] end.
      - rewrite (P w eq_refl). auto.
      - destruct (caught_by_loop ex); [|discriminate]. intros [=].
    Qed.
    Lemma import_fields_pass x y got raw fs : weaker b x y -> forall data d,
      import_fields E fc x got raw fs (data, []) = Ok (d, []) -> import_fields E fc' y got raw fs (data, []) = Ok (d, []).
    Proof.
      intros W. assert (V : cx_validate y = cx_validate x) by (destruct W as (_ & p & s & _ & _ & ->); reflexivity).
      induction fs as [|[n f] fs IH]; intros data d; cbn [import_fields]; [auto|]. rewrite V.
      destruct (negb (cx_validate x) && has_setter f); [apply IH|].
      destruct (import_field E fc x got raw n f (data, [])) as [[d1 e1]|] eqn:F; cbn [rbind]; [|discriminate]. intros H.
      destruct e1 as [|p e1]; [|exfalso; eapply import_fields_errs; [|exact H|reflexivity]; discriminate].
      rewrite (import_field_pass x y got raw n f data d1 W F). cbn [rbind]. now apply IH.
    Qed.

    Lemma import_field_quiet x got raw n f s e : import_field E fc x got raw n f s = Raise e -> quiet e.
    Proof.
      destruct s as [data errs]. unfold import_field. destruct (if got && _ then _ else _) as [v1|x1] eqn:A; cbn [rbind].
      - destruct (is_undef v1 && dmem n data); [discriminate|]. destruct got.
        + destruct (fc _ _ _) as [w|ex]; [destruct (is_undef w); discriminate|]. destruct (caught_by_loop ex) eqn:C; [discriminate|].
          intros [= <-]. unfold quiet. destruct ex; try discriminate; eauto.
        + match goal with |- (if ?c then _ else _) = _ -> _ => destruct c end; discriminate.
      - intros [= <-]. destruct (got && _); [eapply find_alt_quiet; eassumption|discriminate].
    Qed.
    Lemma import_fields_quiet x got raw fs : forall s e, import_fields E fc x got raw fs s = Raise e -> quiet e.
    Proof.
      induction fs as [|[n f] fs IH]; intros s e; cbn [import_fields]; [discriminate|].
      destruct (negb (cx_validate x) && has_setter f); [apply IH|].
      destruct (import_field E fc x got raw n f s) as [s1|x1] eqn:F; cbn [rbind]; [apply IH|]. intros [= <-]. eapply import_field_quiet; eassumption.
    Qed.
    Lemma fold_rogue_nonempty l : forall errs, errs <> [] -> fold_left (fun acc y => dset y (NText m_rogue) acc) l errs <> [].
    Proof. induction l as [|z l IH]; intros errs Ne; cbn; [exact Ne|]. apply IH, dset_nonempty. Qed.
    Lemma rogues_pass x y fs raw : weaker b x y -> rogues E x fs raw [] = Ok [] -> rogues E y fs raw [] = Ok [].
    Proof.
      intros (_ & p & s & _ & Hs & ->). unfold rogues. cbn. destruct s; [|reflexivity]. now rewrite (Hs eq_refl).
    Qed.
    Lemma rogues_errs x fs raw errs e : errs <> [] -> rogues E x fs raw errs = Ok e -> e <> [].
    Proof.
      intros Ne. unfold rogues. destruct (cx_strict x); [|intros [= <-]; exact Ne].
      destruct (py_keys E raw); cbn [rbind]; [|discriminate]. intros [= <-]. now apply fold_rogue_nonempty.
    Qed.
    Lemma mutate_fields_idle x a fs mut raw errs : (forall n f, In (n, f) fs -> fd_set f = None) ->
      mutate_fields E fc pre x a fs mut raw errs = (mut, raw, Ok errs).
    Proof. induction fs as [|[n f] fs IH]; intros H; cbn; [reflexivity|]. rewrite (H n f (or_introl eq_refl)). apply IH. intros; eapply H; right; eassumption. Qed.
  End Loop.
  Section Loops.
    Context (fc fc' : fspec -> pyval -> ictx -> res pyval) (pre pre' : fspec -> pyval -> res pyval).
    Context (Hfc : forall f v x y, weaker b x y -> passes (fc f v x) (fc' f v y)).

    Lemma mutate_idle x y a fs mut raw : (forall n f, In (n, f) fs -> fd_set f = None) ->
      mutate E fc pre x a fs mut raw = mutate E fc' pre' y a fs mut raw /\
      forall e, snd (mutate E fc pre x a fs mut raw) = Ok e -> e = [].
    Proof.
      intros H. unfold mutate. rewrite !mutate_fields_idle by assumption. split; [reflexivity|].
      destruct raw; cbn; try discriminate. destruct (py_dict E mut); cbn; [|discriminate]. now intros ? [= <-].
    Qed.
    Lemma import_loop_pass x y fs mut a raw : weaker b x y -> (b = true -> forall n f, In (n, f) fs -> fd_set f = None) -> forall d,
      lo_res (import_loop E fc pre x fs mut a raw) = Ok d ->
      import_loop E fc pre x fs mut a raw = import_loop E fc' pre' y fs mut a raw.
    Proof.
      intros W NS d. assert (V : cx_validate y = cx_validate x /\ cx_trusted y = cx_trusted x) by (destruct W as (_ & p & s & _ & _ & ->); split; reflexivity).
      destruct V as [V T]. unfold import_loop. rewrite T, V. destruct (if truthy (cx_trusted x) then _ else _) as [data0|]; [|discriminate].
      assert (Q : forall mut1 raw1 rerrs, (forall e, rerrs = Ok e -> e = []) ->
        lo_res (LO mut1 raw1 (rbind rerrs (fun errs0 => rbind (if negb (is_none raw) then rogues E x fs raw1 errs0 else Ok errs0) (fun errs1 =>
          rbind (import_fields E fc x (negb (is_none raw)) raw1 fs (data0, errs1)) (fun s => let '(data, errors) := s in
             let data' := if cx_validate x then data else copy_settable E raw1 fs data in
             match errors with [] => Ok data' | _ => Raise (XData errors data') end))))) = Ok d ->
        LO mut1 raw1 (rbind rerrs (fun errs0 => rbind (if negb (is_none raw) then rogues E x fs raw1 errs0 else Ok errs0) (fun errs1 =>
          rbind (import_fields E fc x (negb (is_none raw)) raw1 fs (data0, errs1)) (fun s => let '(data, errors) := s in
             let data' := if cx_validate x then data else copy_settable E raw1 fs data in
             match errors with [] => Ok data' | _ => Raise (XData errors data') end)))) =
        LO mut1 raw1 (rbind rerrs (fun errs0 => rbind (if negb (is_none raw) then rogues E y fs raw1 errs0 else Ok errs0) (fun errs1 =>
          rbind (import_fields E fc' y (negb (is_none raw)) raw1 fs (data0, errs1)) (fun s => let '(data, errors) := s in
             let data' := if cx_validate x then data else copy_settable E raw1 fs data in
             match errors with [] => Ok data' | _ => Raise (XData errors data') end))))).
      { intros mut1 raw1 rerrs He. cbn [lo_res]. destruct rerrs as [errs0|]; cbn [rbind]; [|discriminate]. rewrite (He errs0 eq_refl).
        destruct (if negb (is_none raw) then rogues E x fs raw1 [] else Ok []) as [errs1|] eqn:Ro; cbn [rbind]; [|discriminate].
        destruct (import_fields E fc x _ raw1 fs (data0, errs1)) as [[data errors]|] eqn:F; cbn [rbind]; [|discriminate].
        destruct errors as [|q errors]; [|discriminate]. intros _.
        destruct errs1 as [|q errs1]; [|exfalso; eapply import_fields_errs; [|exact F|reflexivity]; discriminate].
        assert ((if negb (is_none raw) then rogues E y fs raw1 [] else Ok []) = Ok []) as ->.
        { destruct (negb (is_none raw)); [|reflexivity]. now apply (rogues_pass x y). }
        cbn [rbind]. rewrite (import_fields_pass fc fc' Hfc x y _ raw1 fs W data0 data F). reflexivity. }
      destruct (negb (is_none raw) && cx_validate x) eqn:G.
      - apply andb_true_iff in G as [_ G]. destruct (mutate_idle x y a fs mut raw) as [M Me]; [apply NS; destruct W as [<- _]; exact G|].
        rewrite <- M. destruct (mutate E fc pre x a fs mut raw) as [[mut1 raw1] rerrs]. apply Q. exact Me.
      - apply Q. now intros e [= <-].
    Qed.
    Lemma import_loop_raise x fs mut a raw e : weaker b x x -> (b = true -> forall n f, In (n, f) fs -> fd_set f = None) ->
      lo_res (import_loop E fc pre x fs mut a raw) = Raise e -> quiet e \/ exists errs d, e = XData errs d /\ errs <> [].
    Proof.
      intros W NS. unfold import_loop. destruct (if truthy (cx_trusted x) then _ else _) as [data0|x0] eqn:T; cbn [lo_res].
      2:{ intros [= <-]. left. destruct (truthy _); [eapply dict_quiet; eassumption|discriminate]. }
      assert (Q : forall mut1 raw1 rerrs, (forall e, rerrs = Raise e -> quiet e) ->
        lo_res (LO mut1 raw1 (rbind rerrs (fun errs0 => rbind (if negb (is_none raw) then rogues E x fs raw1 errs0 else Ok errs0) (fun errs1 =>
          rbind (import_fields E fc x (negb (is_none raw)) raw1 fs (data0, errs1)) (fun s => let '(data, errors) := s in
             let data' := if cx_validate x then data else copy_settable E raw1 fs data in
             match errors with [] => Ok data' | _ => Raise (XData errors data') end))))) = Raise e -> quiet e \/ exists errs d, e = XData errs d /\ errs <> []).
      { intros mut1 raw1 rerrs He. cbn [lo_res]. destruct rerrs as [errs0|x1]; cbn [rbind]; [|intros [= <-]; left; now apply He].
        destruct (if negb (is_none raw) then rogues E x fs raw1 errs0 else Ok errs0) as [errs1|x1] eqn:Ro; cbn [rbind].
        2:{ intros [= <-]. left. destruct (negb (is_none raw)); [|discriminate]. unfold rogues in Ro. destruct (cx_strict x); [|discriminate].
            destruct (py_keys E raw1) eqn:Ky; cbn [rbind] in Ro; [discriminate|]. injection Ro as <-. eapply keys_quiet; eassumption. }
        destruct (import_fields E fc x _ raw1 fs (data0, errs1)) as [[data errors]|x1] eqn:F; cbn [rbind].
        - destruct errors as [|q errors]; [discriminate|]. intros [= <-]. right. do 2 eexists. split; [reflexivity|discriminate].
        - intros [= <-]. left. eapply import_fields_quiet; eassumption. }
      destruct (negb (is_none raw) && cx_validate x) eqn:G.
      - apply andb_true_iff in G as [_ G]. assert (NS' : forall n f, In (n, f) fs -> fd_set f = None) by (apply NS; destruct W as [<- _]; exact G).
        destruct (mutate E fc pre x a fs mut raw) as [[mut1 raw1] rerrs] eqn:M. apply Q. intros e' ->.
        unfold mutate in M. rewrite mutate_fields_idle in M by assumption. destruct raw; try (injection M as <- <- <-; unfold quiet; eauto; fail).
        destruct (py_dict E mut) eqn:D; [discriminate|]. injection M as <- <- <-. eapply dict_quiet; eassumption.
      - apply Q. discriminate.
    Qed.
    Lemma weaker_left x y : weaker b x y -> weaker b x x.
    Proof. intros [V _]. split; [exact V|]. exists (cx_partial x), (cx_strict x). destruct x; cbn; auto. Qed.
    Lemma import_loop_data x y c mut a raw errs data : weaker b x y ->
      lo_res (import_loop E fc pre x (mc_fields (e_class E c)) mut a raw) = Raise (XData errs data) -> errs <> [].
    Proof.
      intros W H. apply import_loop_raise in H; [|eapply weaker_left; eassumption|intros B n f; exact (ns B c n f)].
      destruct H as [[H|[p H]]|(er & d & [= -> ->] & H)]; [discriminate..|exact H].
    Qed.
    Lemma dupdate_nil {A} (d e : list (key * A)) : dupdate d e = [] -> d = [].
    Proof.
      unfold dupdate. revert d. induction e as [|[z v] e IH]; intros d; cbn; [auto|]. intros H. apply IH in H. destruct (dset_nonempty _ _ _ H).
    Qed.
    Lemma validate_fn_pass x y c mut a raw : weaker b x y -> forall d,
      lo_res (validate_fn E fc pre x (e_class E c) mut a raw) = Ok d ->
      validate_fn E fc pre x (e_class E c) mut a raw = validate_fn E fc' pre' y (e_class E c) mut a raw.
    Proof.
      intros W d H. unfold validate_fn in *. cbn [lo_res] in H.
      assert (exists d', lo_res (import_loop E fc pre x (mc_fields (e_class E c)) mut a raw) = Ok d') as [d' L].
      { destruct (lo_res (import_loop E fc pre x (mc_fields (e_class E c)) mut a raw)) as [d'|[| |errs|errs data| |]] eqn:L; [eauto|try discriminate..].
        exfalso. apply import_loop_data with (y := y) in L; [|assumption]. revert H. destruct (validate_model _ _ _ _) as [[d0 e0]|]; cbn [rbind]; [|discriminate].
        destruct (dupdate errs e0) as [|q r] eqn:D; [|discriminate]. intros _. apply L. now apply dupdate_nil in D. }
      rewrite (import_loop_pass x y _ mut a raw W (fun B n f => ns B c n f) d' L). reflexivity.
    Qed.

    Lemma validate_loop_raise vfs mut fs : forall data errs bad e, validate_model_loop vfs mut fs data errs bad = Raise e -> forall ms, e <> XConv ms.
    Proof.
      induction fs as [|[n f] fs IH]; intros data errs bad e; cbn [validate_model_loop]; [discriminate|].
      destruct (dget n data) as [v|]; [|apply IH]. destruct (dget n vfs) as [vf|]; [|apply IH]. destruct (is_undef v); [apply IH|].
      destruct (vf mut data v) as [data1 [e1|]]; [|apply IH]. destruct (mv_caught e1) eqn:M; [apply IH|].
      intros [= <-] ms ->. discriminate.
    Qed.
    Lemma pop_all_raise bad : forall data e, pop_all bad data = Raise e -> forall ms, e <> XConv ms.
    Proof. induction bad as [|n bad IH]; intros data e; cbn; [discriminate|]. destruct (dmem n data); [apply IH|]. intros [= <-] ms. discriminate. Qed.
    Lemma validate_fn_raise x c mut a raw e : weaker b x x ->
      lo_res (validate_fn E fc pre x (e_class E c) mut a raw) = Raise e -> forall ms, e <> XConv ms.
    Proof.
      intros W. unfold validate_fn. cbn [lo_res].
      assert (F : forall errs data, rbind (validate_model (mc_validators (e_class E c)) (lo_mut (import_loop E fc pre x (mc_fields (e_class E c)) mut a raw)) (mc_fields (e_class E c)) data)
        (fun '(d, e0) => match dupdate errs e0 with [] => Ok d | errs' => Raise (XData errs' d) end) = Raise e -> forall ms, e <> XConv ms).
      { intros errs data. unfold validate_model. destruct (validate_model_loop _ _ _ _ _ _) as [[[d e0] bad]|x0] eqn:V; cbn [rbind].
        - destruct (pop_all bad d) as [d'|x0] eqn:P; cbn [rbind].
          + destruct (dupdate errs e0); [discriminate|]. intros [= <-] ms. discriminate.
          + intros [= <-]. eapply pop_all_raise; eassumption.
        - intros [= <-]. eapply validate_loop_raise; eassumption. }
      destruct (lo_res (import_loop E fc pre x (mc_fields (e_class E c)) mut a raw)) as [d|x0] eqn:L; [apply F|].
      apply import_loop_raise in L; [|assumption|intros B n f; exact (ns B c n f)].
      destruct L as [[->|[p ->]]|(er & d & -> & _)]; [intros [= <-] ms; discriminate..|apply F].
    Qed.
    Lemma model_new_pass c v x y : weaker b x y -> passes (model_new E fc pre c v x) (model_new E fc' pre' c v y).
    Proof.
      intros W. unfold model_new. assert (cx_validate y = cx_validate x) as -> by (destruct W as (_ & p & s & _ & _ & ->); reflexivity).
      apply passes_bind; [apply passes_refl|]. intros d _. destruct (cx_validate x); intros w H.
      - match type of H with rbind (lo_res ?o) _ = _ => destruct (lo_res o) as [dd|] eqn:L end; cbn [rbind] in H; [|discriminate].
        rewrite <- (validate_fn_pass x y c _ _ _ W dd L), L. exact H.
      - match type of H with rbind (lo_res ?o) _ = _ => destruct (lo_res o) as [dd|] eqn:L end; cbn [rbind] in H; [|discriminate].
        rewrite <- (import_loop_pass x y _ _ _ _ W (fun B n f => ns B c n f) dd L), L. exact H.
    Qed.
    Lemma model_new_raise c v x ms : weaker b x x -> model_new E fc pre c v x <> Raise (XConv ms).
    Proof.
      intros W. unfold model_new. destruct (if truthy v then py_dict E v else Ok []) as [d|e] eqn:D; cbn [rbind].
      - destruct (cx_validate x).
        + match goal with |- rbind (lo_res ?o) _ <> _ => destruct (lo_res o) as [dd|e] eqn:L end; cbn [rbind]; [discriminate|].
          intros [= ->]. eapply validate_fn_raise; [exact W|exact L|reflexivity].
        + match goal with |- rbind (lo_res ?o) _ <> _ => destruct (lo_res o) as [dd|e] eqn:L end; cbn [rbind]; [discriminate|].
          intros [= ->]. apply import_loop_raise in L; [|assumption|intros B n f; exact (ns B c n f)].
          destruct L as [[L|[p L]]|(er & d' & L & _)]; discriminate.
      - intros [= ->]. destruct (truthy v); [|discriminate]. destruct (dict_quiet _ _ D) as [Q|[p Q]]; discriminate.
    Qed.
    Lemma class_convert_pass c v x y : weaker b x y -> passes (model_class_convert E fc pre c v x) (model_class_convert E fc' pre' c v y).
    Proof.
      intros W w. unfold model_class_convert. destruct (lo_res _) as [d|] eqn:L; cbn [rbind]; [|discriminate]. intros H.
      rewrite <- (import_loop_pass x y _ _ _ _ W (fun B n f => ns B c n f) d L), L. exact H.
    Qed.
    Lemma class_convert_raise c v x ms : weaker b x x -> model_class_convert E fc pre c v x <> Raise (XConv ms).
    Proof.
      intros W. unfold model_class_convert. destruct (lo_res _) as [d|e] eqn:L; cbn [rbind]; [discriminate|]. intros [= ->].
      apply import_loop_raise in L; [|assumption|intros B n f; exact (ns B c n f)].
      destruct L as [[L|[p L]]|(er & d' & L & _)]; discriminate.
    Qed.
    Lemma model_convert_pass c v x y : weaker b x y -> passes (model_convert E fc pre c v x) (model_convert E fc' pre' c v y).
    Proof.
      intros W. unfold model_convert.
      assert (cx_convert y = cx_convert x /\ cx_oo y = cx_oo x) as [-> ->] by (destruct W as (_ & p & s & _ & _ & ->); split; reflexivity).
      assert (R : forall c', passes (if cx_convert x && cx_oo x then model_new E fc pre c' v x else model_class_convert E fc pre c' v x)
        (if cx_convert x && cx_oo x then model_new E fc' pre' c' v y else model_class_convert E fc' pre' c' v y)).
      { intros c'. destruct (cx_convert x && cx_oo x); [now apply model_new_pass|now apply class_convert_pass]. }
      destruct v; try apply passes_refl; [apply R|]. destruct (e_issub E c0 c); [apply R|apply passes_refl].
    Qed.
    Lemma model_convert_conv c v x y ms : weaker b x y -> model_convert E fc pre c v x = Raise (XConv ms) -> model_convert E fc' pre' c v y = Raise (XConv ms).
    Proof.
      intros W. unfold model_convert.
      assert (R : forall c', (if cx_convert x && cx_oo x then model_new E fc pre c' v x else model_class_convert E fc pre c' v x) = Raise (XConv ms) -> False).
      { intros c'. destruct (cx_convert x && cx_oo x); [apply model_new_raise|apply class_convert_raise]; eapply weaker_left; eassumption. }
      destruct v; auto; [intros H; destruct (R _ H)|]. destruct (e_issub E c0 c); [|auto]. intros H; destruct (R _ H).
    Qed.
    Lemma poly_convert_pass p v x y : weaker b x y -> passes (poly_convert E fc pre p v x) (poly_convert E fc' pre' p v y).
    Proof.
      intros W. unfold poly_convert. assert (cx_validate y = cx_validate x) as -> by (destruct W as (_ & q & s & _ & _ & ->); reflexivity).
      destruct (is_none v); [apply passes_refl|]. destruct (_ && poly_allowed E p v); [apply passes_refl|]. destruct (_ && negb _); [apply passes_refl|].
      apply passes_bind; [apply passes_refl|]. intros c _. now apply model_new_pass.
    Qed.
    Lemma poly_convert_conv p v x y ms : weaker b x y -> poly_convert E fc pre p v x = Raise (XConv ms) -> poly_convert E fc' pre' p v y = Raise (XConv ms).
    Proof.
      intros W. unfold poly_convert. assert (cx_validate y = cx_validate x) as -> by (destruct W as (_ & q & s & _ & _ & ->); reflexivity).
      destruct (is_none v); [auto|]. destruct (_ && poly_allowed E p v); [auto|]. destruct (_ && negb _); [auto|].
      destruct (find_model E p v) as [c|e]; cbn [rbind]; [|auto]. intros H. destruct (model_new_raise c v x ms (weaker_left _ _ W) H).
    Qed.
    Lemma list_loop_errs f x l : forall i data errs d e, errs <> [] -> list_loop fc f x i l data errs = Ok (d, e) -> e <> [].
    Proof.
      induction l as [|v l IH]; intros i data errs d e Ne; cbn [list_loop]; [intros [= <- <-]; exact Ne|].
      destruct (fc f v x) as [w|ex]; [now apply IH|]. destruct (is_base_error ex); [|discriminate]. apply IH, dset_nonempty.
    Qed.
    Lemma list_loop_pass f x y l : weaker b x y -> forall i data d, list_loop fc f x i l data [] = Ok (d, []) -> list_loop fc' f y i l data [] = Ok (d, []).
    Proof.
      intros W. induction l as [|v l IH]; intros i data d; cbn [list_loop]; [auto|].
      pose proof (Hfc f v x y W) as P. destruct (fc f v x) as [w|ex]; [rewrite (P w eq_refl); apply IH|].
      destruct (is_base_error ex); [|discriminate]. intros H. exfalso. eapply list_loop_errs; [|exact H|reflexivity]. apply dset_nonempty.
    Qed.
    Lemma list_convert_pass f v x y : weaker b x y -> passes (list_convert E fc f v x) (list_convert E fc' f v y).
    Proof.
      intros W w. unfold list_convert. destruct (list_elems E v) as [l|]; [|discriminate].
      destruct (list_loop fc f x 0 l [] []) as [[d e]|] eqn:L; cbn [rbind]; [|discriminate]. destruct e; [|discriminate]. intros H.
      rewrite (list_loop_pass f x y l W _ _ _ L). exact H.
    Qed.
    Lemma list_loop_raise f x l : forall i data errs e, list_loop fc f x i l data errs = Raise e -> forall ms, e <> XConv ms.
    Proof.
      induction l as [|v l IH]; intros i data errs e; cbn [list_loop]; [discriminate|].
      destruct (fc f v x) as [w|ex]; [apply IH|]. destruct (is_base_error ex) eqn:B; [apply IH|]. intros [= <-] ms ->. discriminate.
    Qed.
    Lemma list_convert_conv f v x y ms : list_convert E fc f v x = Raise (XConv ms) -> list_convert E fc' f v y = Raise (XConv ms).
    Proof.
      unfold list_convert. destruct (list_elems E v) as [l|]; [|auto]. destruct (list_loop fc f x 0 l [] []) as [[d e]|ex] eqn:L; cbn [rbind].
      - destruct e; discriminate.
      - intros [= ->]. destruct (list_loop_raise _ _ _ _ _ _ _ L ms eq_refl).
    Qed.
    Lemma dict_loop_errs f ck x l : forall data errs d e, errs <> [] -> dict_loop fc f ck x l data errs = Ok (d, e) -> e <> [].
    Proof.
      induction l as [|[z v] l IH]; intros data errs d e Ne; cbn [dict_loop]; [intros [= <- <-]; exact Ne|].
      destruct (rbind _ _) as [[z' w]|ex]; [now apply IH|]. destruct (is_base_error ex); [|discriminate]. apply IH, dset_nonempty.
    Qed.
    Lemma dict_loop_pass f ck x y l : weaker b x y -> forall data d, dict_loop fc f ck x l data [] = Ok (d, []) -> dict_loop fc' f ck y l data [] = Ok (d, []).
    Proof.
      intros W. induction l as [|[z v] l IH]; intros data d; cbn [dict_loop]; [auto|].
      assert (P : passes (rbind (fc f v x) (fun w => rbind (ck z) (fun y' => Ok (y', w)))) (rbind (fc' f v y) (fun w => rbind (ck z) (fun y' => Ok (y', w))))).
      { apply passes_bind; [now apply Hfc|]. intros; apply passes_refl. }
      destruct (rbind (fc f v x) _) as [[z' w]|ex]; [rewrite (P _ eq_refl); apply IH|].
      destruct (is_base_error ex); [|discriminate]. intros H. exfalso. eapply dict_loop_errs; [|exact H|reflexivity]. apply dset_nonempty.
    Qed.
    Lemma dict_convert_pass f ck v x y : weaker b x y -> passes (dict_convert fc f ck v x) (dict_convert fc' f ck v y).
    Proof.
      intros W w. unfold dict_convert. destruct v; try discriminate.
      destruct (dict_loop fc f ck x d [] []) as [[d' e]|] eqn:L; cbn [rbind]; [|discriminate]. destruct e; [|discriminate]. intros H.
      rewrite (dict_loop_pass f ck x y d W _ _ L). exact H.
    Qed.
    Lemma dict_loop_raise f ck x l : forall data errs e, dict_loop fc f ck x l data errs = Raise e -> forall ms, e <> XConv ms.
    Proof.
      induction l as [|[z v] l IH]; intros data errs e; cbn [dict_loop]; [discriminate|].
      destruct (rbind _ _) as [[z' w]|ex]; [apply IH|]. destruct (is_base_error ex) eqn:B; [apply IH|]. intros [= <-] ms ->. discriminate.
    Qed.
    Lemma dict_convert_conv f ck v x y ms : dict_convert fc f ck v x = Raise (XConv ms) -> dict_convert fc' f ck v y = Raise (XConv ms).
    Proof.
      unfold dict_convert. destruct v; auto. destruct (dict_loop fc f ck x d [] []) as [[d' e]|ex] eqn:L; cbn [rbind].
      - destruct e; discriminate.
      - intros [= ->]. destruct (dict_loop_raise _ _ _ _ _ _ _ L ms eq_refl).
    Qed.
  End Loops.

  (** ** All converters *)
  Record conv_pass (r : conv) : Prop := {
    cp_field : forall f v x y, weaker b x y -> passes (cv_field r f v x) (cv_field r f v y);
    cp_convert : forall f v x y, weaker b x y -> passes (cv_convert r f v x) (cv_convert r f v y);
    cp_validate : forall f v x y, weaker b x y -> passes (cv_validate r f v x) (cv_validate r f v y);
    cp_conv : forall f v x y ms, weaker b x y -> cv_convert r f v x = Raise (XConv ms) -> cv_convert r f v y = Raise (XConv ms) }.
  Lemma union_pass cvt cvt' ms v : (forall m, passes (cvt m v) (cvt' m v)) ->
    (forall m l, cvt m v = Raise (XConv l) -> cvt' m v = Raise (XConv l)) ->
    passes (union_resolve cvt ms v) (union_resolve cvt' ms v) /\
    forall l, union_resolve cvt ms v = Raise (XConv l) -> union_resolve cvt' ms v = Raise (XConv l).
  Proof.
    intros P C. induction ms as [|m ms [IH1 IH2]]; cbn; [split; [apply passes_refl|auto]|].
    pose proof (P m) as Pm. pose proof (C m) as Cm. destruct (cvt m v) as [w|e]; [rewrite (Pm w eq_refl); split; [apply passes_refl|auto]|].
    destruct e as [l| | | | |]; [rewrite (Cm l eq_refl); auto|split; intros ?; discriminate..].
  Qed.
  Lemma conv_step_pass r : conv_pass r -> conv_pass (conv_step E r).
  Proof.
    intros [H1 H2 H3 H4]. split; cbn.
    - intros f v x y W w. unfold field_step. destruct (check_required f v x) eqn:C; [discriminate|].
      rewrite (weaker_required b x y f v W C). destruct (is_nil v); [auto|].
      assert (cx_validate y = cx_validate x) as -> by (destruct W as (_ & p & s & _ & _ & ->); reflexivity).
      destruct (cx_validate x); [now apply H3|now apply H2].
    - intros f v x y W. unfold convert_step. destruct (fs_type f).
      + apply passes_refl.
      + apply passes_bind; [|intros; apply passes_refl]. apply union_pass; intros m; [now apply H2|intros ms' Q; eapply H4; eassumption].
      + now apply model_convert_pass.
      + now apply poly_convert_pass.
      + now apply list_convert_pass.
      + now apply dict_convert_pass.
    - intros f v x y W. unfold validate_step.
      assert (cx_convert y = cx_convert x) as -> by (destruct W as (_ & p & s & _ & _ & ->); reflexivity).
      assert (Q : passes (if cx_convert x then cv_convert r f v x else if is_compound f then rbind (cv_convert r f v x) (fun _ => Ok v) else Ok v)
        (if cx_convert x then cv_convert r f v y else if is_compound f then rbind (cv_convert r f v y) (fun _ => Ok v) else Ok v)).
      { destruct (cx_convert x); [now apply H2|]. destruct (is_compound f); [|apply passes_refl]. apply passes_bind; [now apply H2|intros; apply passes_refl]. }
      destruct (fs_type f); try (apply passes_bind; [exact Q|intros; apply passes_refl]).
      apply passes_bind; [|intros [m w] _; now apply H3]. apply union_pass; intros m; [now apply H2|intros ms' Q'; eapply H4; eassumption].
    - intros f v x y ms W. unfold convert_step. destruct (fs_type f).
      + auto.
      + destruct (union_resolve _ ms0 v) as [[m w]|e] eqn:U; cbn [rbind]; [discriminate|]. intros [= ->].
        destruct (union_pass (fun m u => cv_convert r m u x) (fun m u => cv_convert r m u y) ms0 v) as [_ Q];
          [intros m; now apply H2|intros m l Q'; eapply H4; eassumption|]. now rewrite (Q _ U).
      + now apply model_convert_conv.
      + now apply poly_convert_conv.
      + apply list_convert_conv.
      + apply dict_convert_conv.
  Qed.
  Lemma conv_at_pass n : conv_pass (conv_at E n).
  Proof.
    induction n as [|n IH]; cbn [conv_at]; [|now apply conv_step_pass]. split; cbn; intros; try discriminate; intros ? ?; discriminate.
  Qed.
End Pass.

(** ** The methods *)
Section Methods.
  Context (E : env) (calm : calm_getters E) (j : nat).
  Local Notation r := (conv_at E j).
  Lemma laxer_ctx w w' td : laxer w w' -> weaker (kw_validate w) (kw_ctx w td) (kw_ctx w' td).
  Proof. intros (p & s & Hp & Hs & ->). split; [reflexivity|]. exists p, s. cbn. auto. Qed.
  Lemma convert_pass c m raw td w w' d : laxer w w' -> (kw_validate w = true -> no_setters E) ->
    snd (model__convert E r c m raw td w) = Ok d -> model__convert E r c m raw td w' = model__convert E r c m raw td w.
  Proof.
    intros L NS. unfold model__convert. destruct (if truthy raw then _ else _) as [d0|]; [|discriminate].
    assert (V : kw_validate w' = kw_validate w) by (destruct L as (p & s & _ & _ & ->); reflexivity). rewrite V.
    pose proof (conv_at_pass E calm (kw_validate w) NS j) as P.
    destruct (md_unsafe m) as [|q un].
    - pose proof (laxer_ctx w w' (if truthy td then td else VDict []) L) as W. cbn zeta.
      destruct (kw_validate w) eqn:B; cbn [snd].
      + intros H. now rewrite <- (validate_fn_pass E calm true NS (cv_field r) (cv_field r) (cv_pre r) (cv_pre r) (cp_field _ _ P) _ _ c _ _ _ W d H).
      + intros H. now rewrite <- (import_loop_pass E false NS (cv_field r) (cv_field r) (cv_pre r) (cv_pre r) (cp_field _ _ P) _ _ _ _ _ _ W (fun Q n f => ltac:(discriminate)) d H).
    - match goal with |- context[kw_ctx (KW (kw_mapping w) ?a ?b' ?c' ?d' ?e' ?f' ?g') ?t] =>
        pose proof (laxer_ctx (KW (kw_mapping w) a b' c' d' e' f' g') (KW (kw_mapping w') (kw_partial w') (kw_strict w') (kw_init_values w') (kw_apply_defaults w') true (kw_validate w') (kw_recursive w')) t) as W end.
      cbn [kw_validate] in W. rewrite V in W.
      assert (L' : laxer (KW (kw_mapping w) (kw_partial w) (kw_strict w) (kw_init_values w) (kw_apply_defaults w) true (kw_validate w) (kw_recursive w))
        (KW (kw_mapping w') (kw_partial w') (kw_strict w') (kw_init_values w') (kw_apply_defaults w') true (kw_validate w) (kw_recursive w'))).
      { destruct L as (p & s & Hp & Hs & ->). exists p, s. cbn. auto. }
      specialize (W L'). cbn zeta. destruct (kw_validate w) eqn:B; cbn [snd].
      + intros H. now rewrite <- (validate_fn_pass E calm true NS (cv_field r) (cv_field r) (cv_pre r) (cv_pre r) (cp_field _ _ P) _ _ c _ _ _ W d H).
      + intros H. now rewrite <- (import_loop_pass E false NS (cv_field r) (cv_field r) (cv_pre r) (cv_pre r) (cp_field _ _ P) _ _ _ _ _ _ W (fun Q n f => ltac:(discriminate)) d H).
  Qed.
  Theorem init_pass c raw td w w' m : laxer w w' ->
    (kw_validate w = true -> no_setters E /\ kw_partial w' = kw_partial w) ->
    model_init E r c raw td w = Ok m -> model_init E r c raw td w' = Ok m.
  Proof.
    intros L V. unfold model_init. assert (V' : kw_validate w' = kw_validate w) by (destruct L as (p & s & _ & _ & ->); reflexivity). rewrite V'.
    destruct (snd (model__convert E r c (MD [] [] match td with VDict d => d | _ => [] end None) raw td w)) as [d|] eqn:C.
    - rewrite (convert_pass c _ raw td w w' d L) by (try assumption; intros B; now apply V).
      destruct (model__convert E r c _ raw td w) as [m1 rs]. cbn in C. subst rs. destruct (kw_validate w); [|auto].
      rewrite (proj2 (V eq_refl)). destruct L as (p & s & _ & _ & ->). auto.
    - destruct (model__convert _ _ _ _ _ _ _) as [m1 rs]. cbn in C. subst rs. discriminate.
  Qed.
  Theorem import_data_pass c m raw w w' m' : laxer w w' -> (kw_validate w = true -> no_setters E) ->
    model_import_data E r c m raw w = (m', None) -> model_import_data E r c m raw w' = (m', None).
  Proof.
    intros L NS. unfold model_import_data. destruct (py_dict E (VModel c m)) as [td|]; [|discriminate].
    assert (V' : kw_validate w' = kw_validate w) by (destruct L as (p & s & _ & _ & ->); reflexivity). rewrite V'.
    destruct (snd (model__convert E r c m raw (VDict td) w)) as [d|] eqn:C.
    - rewrite (convert_pass c m raw (VDict td) w w' d L NS C). auto.
    - destruct (model__convert _ _ _ _ _ _ _) as [m1 rs]. cbn in C. subst rs. discriminate.
  Qed.
  Theorem validate_pass c m w w' m' : laxer w w' -> no_setters E -> md_converted m <> [] ->
    model_validate E r c m w = (m', None) -> model_validate E r c m w' = (m', None).
  Proof.
    intros L NS Ne. unfold model_validate. destruct (md_converted m) as [|q d0]; [now destruct Ne|].
    assert (B : forall m1, model_validate_body E r c m w = (m1, None) -> model_validate_body E r c m w' = (m1, None)).
    { intros m1. unfold model_validate_body.
      match goal with |- context[model__convert E r c m VNone (VDict []) (KW (kw_mapping w) ?p1 ?s1 ?i1 ?a1 ?c1 ?v1 ?r1)] =>
        set (wv := KW (kw_mapping w) p1 s1 i1 a1 c1 v1 r1) end.
      match goal with |- context[model__convert E r c m VNone (VDict []) (KW (kw_mapping w') ?p1 ?s1 ?i1 ?a1 ?c1 ?v1 ?r1)] =>
        set (wv' := KW (kw_mapping w') p1 s1 i1 a1 c1 v1 r1) end.
      assert (L' : laxer wv wv') by (destruct L as (p & s & Hp & Hs & ->); exists p, s; cbn; auto).
      destruct (snd (model__convert E r c m VNone (VDict []) wv)) as [d|e] eqn:C.
      - rewrite (convert_pass c m VNone (VDict []) wv wv' d L') by (try assumption; intros _; exact NS). auto.
      - destruct (model__convert _ _ _ _ _ _ wv) as [m2 rs]. cbn in C. subst rs. destruct e; discriminate. }
    destruct (model_validate_body E r c m w) as [m1 oe]. destruct oe as [e|]; [discriminate|].
    rewrite (B m1 eq_refl). auto.
  Qed.
End Methods.
