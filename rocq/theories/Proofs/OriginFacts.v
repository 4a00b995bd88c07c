(** A property of values that the program keeps holds everywhere. *)
From Verif.Model Require Import Py Core Api.
From Verif.Spec Require Import ImportSpec OriginSpec.
From Verif.Proofs Require Import DictLemmas ApiLemmas.

Lemma field_in_trans f g h : field_in f g -> field_in g h -> field_in f h.
Proof. intros A B. revert f A. induction B; intros f0 A; [exact A|eapply fi_member; eauto|constructor; auto|constructor; auto]. Qed.
Lemma fit_other A e : (forall errs pd, e <> XData errs pd) -> fit_exn A e.
Proof. intros H errs pd Q. now destruct (H errs pd). Qed.

Section Keep.
  Context (E : env) (A : pyval -> Prop) (K : keeps E A).
  Notation M := (made_of A).
  Notation L := (entries A).

  (** ** Dictionaries and layers *)
  Lemma L_nil : L [].
  Proof. split; [constructor|intros ? ? []]. Qed.
  Lemma In_dset (y z : key) (v w : pyval) d : In (z, w) (dset y v d) -> w = v \/ In (z, w) d.
  Proof.
    induction d as [|[a b] d IH]; cbn; [intros [[= _ ->]|[]]; now left|]. destruct (key_eqb y a); cbn; [intros [[= _ ->]|I]; [now left|right; now right]|].
    intros [Q|I]; [right; now left|]. destruct (IH I); [now left|right; now right].
  Qed.
  Lemma L_dset y v d : M v -> L d -> L (dset y v d).
  Proof.
    intros Hv [N F]. split; [now apply NoDup_dset|]. intros z w I. apply In_dset in I as [->|I]; [exact Hv|now apply (F z)].
  Qed.
  Lemma In_ddel (y z : key) (w : pyval) d : In (z, w) (ddel y d) -> In (z, w) d.
  Proof. induction d as [|[a b] d IH]; cbn; [intros []|]. destruct (key_eqb y a); [intros I; now right|]. intros [Q|I]; [now left|right; auto]. Qed.
  Lemma L_ddel y d : L d -> L (ddel y d).
  Proof. intros [N F]. split; [now apply NoDup_ddel|]. intros z w I. apply In_ddel in I. now apply (F z). Qed.
  Lemma L_dupdate d e : L d -> L e -> L (dupdate d e).
  Proof.
    intros Hd [_ F]. revert d Hd F. induction e as [|[y v] e IH]; intros d Hd F; cbn; [exact Hd|]. apply IH; [apply L_dset; [apply (F y); now left|exact Hd]|].
    intros z w I. apply (F z). now right.
  Qed.
  Lemma M_dict d : M (VDict d) <-> L d.
  Proof. split; [intros H; inversion H; subst; [contradiction|now split]|intros [N F]; now constructor]. Qed.
  Lemma M_model c m : M (VModel c m) <-> L (md_unsafe m) /\ L (md_converted m) /\ L (md_valid m).
  Proof.
    split.
    - intros H. inversion H as [? P|?|?|?|c' m' N1 N2 N3 F]; subst; [contradiction|]. split; [|split]; (split; [assumption|]); intros y v I; apply (F y); rewrite !in_app_iff; auto.
    - intros ([N1 F1] & [N2 F2] & [N3 F3]). apply mo_model; try assumption. intros y v I. rewrite !in_app_iff in I. destruct I as [I|[I|I]]; eauto.
  Qed.
  Lemma M_none : M VNone.
  Proof using K. constructor; [exact I|apply (kp_absent _ _ K)]. Qed.
  Lemma M_undef : M VUndef.
  Proof using K. constructor; [exact I|apply (kp_absent _ _ K)]. Qed.
  Lemma L_get d y v : L d -> dget y d = Some v -> M v.
  Proof. intros [_ F] G. apply (F y). now apply dget_In. Qed.
  Lemma M_chain c m y v : M (VModel c m) -> chain_get m y = Some v -> M v.
  Proof.
    rewrite M_model. intros (U & C & V). unfold chain_get. destruct (dget y (md_unsafe m)) eqn:G; [intros [= <-]; exact (L_get _ _ _ U G)|].
    destruct (dget y (md_converted m)) eqn:G2; [intros [= <-]; exact (L_get _ _ _ C G2)|]. exact (L_get _ _ _ V).
  Qed.
  Lemma fit_py e : fit_exn A (XPy e).
  Proof. apply fit_other. discriminate. Qed.
  Lemma fit_conv e : fit_exn A (XConv e).
  Proof. apply fit_other. discriminate. Qed.

  (** ** Reading *)
  Lemma getitem_fit v y : M v -> fit A (py_getitem E v y).
  Proof using K.
    intros Hv. destruct v; cbn [py_getitem]; try apply fit_py.
    - destruct (dget y d) eqn:G; [|apply fit_py]. apply M_dict in Hv. exact (L_get _ _ _ Hv G).
    - unfold model_getitem. destruct (dget y (mc_fields (e_class E c))) as [f|] eqn:G; [|apply fit_py]. apply dget_In in G. unfold field_get. destruct (fd_get f) as [g|] eqn:Gg.
      + pose proof (kp_getters _ _ K c y f g _ G Gg Hv) as F. destruct (g (VModel c m)) as [w|e]; [|exact F]. destruct (is_undef w); [apply fit_py|exact F].
      + destruct (chain_get m y) as [w|] eqn:Gc; [|apply fit_py]. destruct (is_undef w); [apply fit_py|]. exact (M_chain c m y w Hv Gc).
  Qed.
  Lemma atom_M v y : M v -> M (atom_value E v y).
  Proof using K. intros Hv. pose proof (getitem_fit v y Hv) as F. unfold atom_value. destruct (py_getitem E v y); [exact F|exact M_undef]. Qed.
  Lemma items_fit v ks : M v -> match py_items E v ks with Ok l => dkeys l = ks /\ forall y w, In (y, w) l -> M w | Raise e => fit_exn A e end.
  Proof using K.
    intros Hv. induction ks as [|y ks IH]; cbn [py_items]; [split; [reflexivity|intros ? ? []]|]. pose proof (getitem_fit v y Hv) as F.
    destruct (py_getitem E v y) as [w|e]; cbn [rbind]; [|exact F]. destruct (py_items E v ks) as [l|e]; cbn [rbind]; [|exact IH]. destruct IH as [Q G].
    split; [exact (f_equal (cons y) Q)|]. intros z u0 [[= <- <-]|I]; [exact F|now apply (G z)].
  Qed.
  Definition fits (r : res (list (key * pyval))) : Prop := match r with Ok d => L d | Raise e => fit_exn A e end.
  Lemma dict_fit v : M v -> fits (py_dict E v).
  Proof using K.
    intros Hv. unfold py_dict. destruct v; try (cbn; apply fit_py); [now apply M_dict|]. cbn [py_keys rbind].
    pose proof (items_fit (VModel c m) (model_iter E c m) Hv) as F. destruct (py_items E (VModel c m) (model_iter E c m)) as [l|e]; [|exact F]. destruct F as [Q F].
    split; [rewrite Q; apply model_iter_NoDup, (kp_fields _ _ K)|exact F].
  Qed.
  Lemma alt_fit raw n ks : M raw -> fit A (find_alt E raw n ks).
  Proof using K.
    intros H. induction ks as [|y ks IH]; cbn [find_alt]; [exact M_undef|]. destruct (_ && _); [now apply getitem_fit|exact IH].
  Qed.
  Lemma td_M x n : M (cx_trusted x) -> M (nested_td E x n).
  Proof using K.
    intros H. assert (D : M (VDict [])) by apply M_dict, L_nil. unfold nested_td. destruct (truthy (cx_trusted x) && cx_recursive x); [|exact D].
    assert (T : M match cx_trusted x with VDict d => match dget n d with Some v => v | None => VNone end | v => match py_getitem E v n with Ok w => w | Raise _ => VNone end end).
    { pose proof (getitem_fit _ n H) as F. destruct (cx_trusted x) as [| | | | | | | | |d| | | | | | | |]; try (destruct (py_getitem E _ n); [exact F|exact M_none]).
      cbn [py_getitem] in F. destruct (dget n d); [exact F|exact M_none]. }
    revert T. generalize (match cx_trusted x with VDict d => match dget n d with Some v => v | None => VNone end | v => match py_getitem E v n with Ok w => w | Raise _ => VNone end end).
    intros td T. assert (O : M (VDict [(n, td)])) by (apply M_dict; apply (L_dset n td []); [exact T|apply L_nil]). destruct td; assumption.
  Qed.

  (** ** The loop *)
  Definition known (f : fspec) : Prop := exists c n fd, In (n, fd) (fields_of E c) /\ field_in f (fd_spec fd).
  Lemma known_in f g : known g -> field_in f g -> known f.
  Proof. intros (c & n & fd & I & F) H. exists c, n, fd. split; [exact I|exact (field_in_trans _ _ _ H F)]. Qed.

  Section Under.
    Context (fc : fspec -> pyval -> ictx -> res pyval) (pre : fspec -> pyval -> res pyval).
    Hypothesis Hc : forall f v x, known f -> M v -> M (cx_trusted x) -> fit A (fc f v x).
    Hypothesis Hp : forall f v, known f -> M v -> fit A (pre f v).

    Lemma field_fit x got raw c n f data errs : In (n, f) (fields_of E c) -> M (cx_trusted x) -> M raw -> L data ->
      match import_field E fc x got raw n f (data, errs) with Ok s => L (fst s) | Raise e => fit_exn A e end.
    Proof using K Hc.
      intros I T R D. unfold import_field. set (v0 := atom_value E raw n). assert (M0 : M v0) by now apply atom_M.
      assert (F1 : fit A (if got && is_undef v0 then find_alt E raw n (input_keys n (fd_spec f) (cx_mapping x)) else Ok v0)) by (destruct (got && is_undef v0); [now apply alt_fit|exact M0]).
      destruct (if got && is_undef v0 then _ else _) as [v1|e]; cbn [rbind]; [|exact F1]. cbn in F1.
      destruct (is_undef v1 && dmem n data); [exact D|]. pose proof (kp_defaults _ _ K c n f I) as Df.
      set (v2 := if is_undef v1 && cx_apply_defaults x then fo_default (fs_opts (fd_spec f)) else v1). assert (M2 : M v2) by (unfold v2; destruct (is_undef v1 && cx_apply_defaults x); assumption). clearbody v2.
      set (v3 := if is_undef v2 && cx_init_values x then VNone else v2). assert (M3 : M v3) by (unfold v3; destruct (is_undef v2 && cx_init_values x); [exact M_none|exact M2]). clearbody v3.
      assert (St : forall w, M w -> match (if is_undef w then Ok (data, errs) else Ok (dset n w data, errs)) with Ok s => L (fst s) | Raise e => fit_exn A e end).
      { intros w Hw. destruct (is_undef w); cbn; [exact D|now apply L_dset]. }
      destruct got; [|now apply St]. assert (Kn : known (fd_spec f)) by (exists c, n, f; split; [exact I|constructor]).
      assert (T' : M (cx_trusted (field_ctx E x n (fd_spec f)))) by (unfold field_ctx; destruct (is_compound _); [cbn; now apply td_M|exact T]).
      pose proof (Hc (fd_spec f) v3 _ Kn M3 T') as F. destruct (fc (fd_spec f) v3 (field_ctx E x n (fd_spec f))) as [w|e]; [now apply St|]. cbn in F.
      destruct (caught_by_loop e); [|exact F]. cbn [fst].
      assert (D1 : L (if cx_apply_defaults x && negb (is_undef (fo_default (fs_opts (fd_spec f)))) then dset n (fo_default (fs_opts (fd_spec f))) data else data)) by (destruct (_ && _); [now apply L_dset|exact D]).
      destruct e; try exact D1. apply L_dset; [|exact D1]. apply M_dict. now apply (F _ _ eq_refl).
    Qed.
    Lemma fields_fit x got raw c : M (cx_trusted x) -> M raw -> forall fs, incl fs (fields_of E c) -> forall s, L (fst s) ->
      match import_fields E fc x got raw fs s with Ok s' => L (fst s') | Raise e => fit_exn A e end.
    Proof using K Hc.
      intros T R. induction fs as [|[n f] fs IH]; intros In_ s D; cbn [import_fields]; [exact D|]. assert (In' : incl fs (fields_of E c)) by (intros p I; apply In_; now right).
      destruct (negb (cx_validate x) && has_setter f); [now apply IH|]. destruct s as [data errs]. pose proof (field_fit x got raw c n f data errs (In_ _ (or_introl eq_refl)) T R D) as F.
      destruct (import_field E fc x got raw n f (data, errs)) as [s1|e]; cbn [rbind]; [now apply IH|exact F].
    Qed.
    Lemma settable_L raw fs data : M raw -> L data -> L (copy_settable E raw fs data).
    Proof using K.
      intros R. revert data. induction fs as [|[n f] fs IH]; intros data D; cbn [copy_settable]; [exact D|]. apply IH. destruct (has_setter f); [apply L_dset; [now apply atom_M|exact D]|exact D].
    Qed.
    Lemma sync_M a mut raw : M mut -> M raw -> M (sync a mut raw).
    Proof. intros Hm R. destruct a, mut; cbn; try assumption. apply M_model in Hm. now apply M_dict. Qed.
    Lemma mutate_fields_fit x a c : M (cx_trusted x) -> forall fs, incl fs (fields_of E c) -> forall mut raw errs, M mut -> M raw ->
      match mutate_fields E fc pre x a fs mut raw errs with (mut1, raw1, r) => M mut1 /\ M raw1 /\ forall e, r = Raise e -> fit_exn A e end.
    Proof using K Hc Hp.
      intros T. induction fs as [|[n f] fs IH]; intros In_ mut raw errs Hm R; cbn [mutate_fields]; [split; [exact Hm|split; [exact R|discriminate]]|].
      assert (In' : incl fs (fields_of E c)) by (intros p I; apply In_; now right). assert (If : In (n, f) (fields_of E c)) by (apply In_; now left).
      destruct (fd_set f) as [s|] eqn:Gs; [|now apply IH]. destruct (is_undef (atom_value E raw n)); [now apply IH|].
      assert (Kn : known (fd_spec f)) by (exists c, n, f; split; [exact If|constructor]).
      assert (Hd : forall e mut1 raw1, M mut1 -> M raw1 ->
        match (if caught_by_loop e then mutate_fields E fc pre x a fs mut1 raw1 (dset (sname_of n (fd_spec f)) (err_node e) errs)
               else match e with XPy pe => if is_attribute_error pe then mutate_fields E fc pre x a fs mut1 raw1 errs else (mut1, raw1, Raise e) | _ => (mut1, raw1, Raise e) end)
        with (mut2, raw2, r) => M mut2 /\ M raw2 /\ forall e, r = Raise e -> fit_exn A e end).
      { intros e mut1 raw1 H1 H2. destruct e; cbn [caught_by_loop]; try (now apply IH); [destruct (is_attribute_error e); [now apply IH|]|];
          (split; [exact H1|split; [exact H2|]]; intros e0 [= <-]; apply fit_other; discriminate). }
      pose proof (Hc (fd_spec f) (atom_value E raw n) x Kn (atom_M _ n R) T) as F. destruct (fc (fd_spec f) (atom_value E raw n) x) as [w|e]; cbn [rbind]; [|now apply Hd].
      pose proof (Hp (fd_spec f) w Kn F) as F2. destruct (pre (fd_spec f) w) as [w2|e]; [|now apply Hd].
      pose proof (kp_setters _ _ K c n f s mut w2 If Gs Hm F2) as F3. destruct (s mut w2) as [mut1 oe]. cbn in F3. pose proof (sync_M a mut1 raw F3 R) as R1. destruct oe; [now apply Hd|now apply IH].
    Qed.
    Lemma set_converted_M v d : M v -> L d -> M (set_converted v d).
    Proof. intros Hv D. destruct v; cbn; try assumption. rewrite M_model in *. cbn. tauto. Qed.
    Lemma mutate_fit x a c mut raw : M (cx_trusted x) -> M mut -> M raw ->
      match mutate E fc pre x a (fields_of E c) mut raw with (mut1, raw1, r) => M mut1 /\ M raw1 /\ forall e, r = Raise e -> fit_exn A e end.
    Proof using K Hc Hp.
      intros T Hm R. unfold mutate. pose proof (mutate_fields_fit x a c T (fields_of E c) (incl_refl _) mut raw [] Hm R) as F.
      destruct (mutate_fields E fc pre x a (fields_of E c) mut raw []) as [[mut1 raw1] r]. destruct F as (F1 & F2 & F3). destruct r as [errs|e]; [|split; [exact F1|split; [exact F2|exact F3]]].
      destruct raw1; try (split; [exact F1|split; [exact F2|intros e [= <-]; apply fit_py]]). pose proof (dict_fit mut1 F1) as F4. destruct (py_dict E mut1) as [items|e].
      - assert (D : L (dupdate d items)) by (apply L_dupdate; [now apply M_dict|exact F4]). split; [|split; [now apply M_dict|discriminate]]. destruct a; [exact F1|now apply set_converted_M|now apply M_dict].
      - split; [exact F1|split; [exact F2|intros e0 [= <-]; exact F4]].
    Qed.
    Definition out_fit (o : loop_out) : Prop := M (lo_mut o) /\ M (lo_raw o) /\ fits (lo_res o).
    Lemma loop_fit x a c mut raw : M (cx_trusted x) -> M mut -> M raw -> out_fit (import_loop E fc pre x (fields_of E c) mut a raw).
    Proof using K Hc Hp.
      intros T Hm R. unfold import_loop. assert (D0 : fits (if truthy (cx_trusted x) then py_dict E (cx_trusted x) else Ok [])) by (destruct (truthy _); [now apply dict_fit|exact L_nil]).
      destruct (if truthy (cx_trusted x) then _ else _) as [data0|e]; [|split; [exact Hm|split; [exact R|exact D0]]]. cbn in D0.
      assert (F : match (if negb (is_none raw) && cx_validate x then mutate E fc pre x a (fields_of E c) mut raw else (mut, raw, Ok [])) with
                  (mut1, raw1, r) => M mut1 /\ M raw1 /\ forall e, r = Raise e -> fit_exn A e end)
        by (destruct (_ && _); [now apply mutate_fit|split; [exact Hm|split; [exact R|discriminate]]]).
      destruct (if negb (is_none raw) && cx_validate x then _ else _) as [[mut1 raw1] r]. destruct F as (F1 & F2 & F3). split; [exact F1|]. split; [exact F2|]. cbn [lo_res].
      destruct r as [errs0|e]; cbn [rbind]; [|now apply F3].
      assert (Rg : match (if negb (is_none raw) then rogues E x (fields_of E c) raw1 errs0 else Ok errs0) with Ok _ => True | Raise e => fit_exn A e end).
      { destruct (negb (is_none raw)); [|exact I]. unfold rogues. destruct (cx_strict x); [|exact I]. destruct raw1; cbn; try apply fit_py; exact I. }
      destruct (if negb (is_none raw) then _ else _) as [errs1|e]; cbn [rbind]; [|exact Rg].
      pose proof (fields_fit x (negb (is_none raw)) raw1 c T F2 (fields_of E c) (incl_refl _) (data0, errs1) D0) as F.
      destruct (import_fields E fc x (negb (is_none raw)) raw1 (fields_of E c) (data0, errs1)) as [[data errors]|e]; cbn [rbind]; [|exact F]. cbn in F.
      assert (D : L (if cx_validate x then data else copy_settable E raw1 (fields_of E c) data)) by (destruct (cx_validate x); [exact F|now apply settable_L]).
      destruct errors; [exact D|]. cbn. intros errs pd [= <- <-]. exact D.
    Qed.
    Lemma vloop_fit c mut : M mut -> forall fs data errs bad, L data ->
      match validate_model_loop (mc_validators (e_class E c)) mut fs data errs bad with Ok (d, _, _) => L d | Raise e => fit_exn A e end.
    Proof using K.
      intros Hm. induction fs as [|[n f] fs IH]; intros data errs bad D; cbn [validate_model_loop]; [exact D|].
      destruct (dget n data) as [v|] eqn:G; [|now apply IH]. destruct (dget n (mc_validators (e_class E c))) as [vf|] eqn:Gv; [|now apply IH]. destruct (is_undef v); [now apply IH|].
      pose proof (kp_methods _ _ K c n vf mut data v (dget_In _ _ _ Gv) Hm D (L_get _ _ _ D G)) as F. destruct (vf mut data v) as [data1 oe]. cbn in F. destruct oe as [e|]; [|now apply IH].
      destruct (mv_caught e) eqn:Q; [now apply IH|]. apply fit_other. intros errs' pd ->. discriminate Q.
    Qed.
    Lemma pop_fit bad : forall d, L d -> fits (pop_all bad d).
    Proof. induction bad as [|n bad IH]; intros d D; cbn [pop_all]; [exact D|]. destruct (dmem n d); [apply IH; now apply L_ddel|apply fit_py]. Qed.
    Lemma validate_fit x a c mut raw : M (cx_trusted x) -> M mut -> M raw -> out_fit (validate_fn E fc pre x (e_class E c) mut a raw).
    Proof using K Hc Hp.
      intros T Hm R. unfold validate_fn. destruct (loop_fit x a c mut raw T Hm R) as (F1 & F2 & F3). unfold fields_of in *.
      destruct (import_loop E fc pre x (mc_fields (e_class E c)) mut a raw) as [mut1 raw1 r]. cbn [lo_mut lo_raw lo_res] in *. split; [exact F1|]. split; [exact F2|]. cbn [lo_res].
      assert (Fin : forall errs data, L data -> fits (rbind (validate_model (mc_validators (e_class E c)) mut1 (mc_fields (e_class E c)) data) (fun '(d, e) => match dupdate errs e with [] => Ok d | errs' => Raise (XData errs' d) end))).
      { intros errs data D. unfold validate_model. pose proof (vloop_fit c mut1 F1 (mc_fields (e_class E c)) data [] [] D) as F.
        destruct (validate_model_loop (mc_validators (e_class E c)) mut1 (mc_fields (e_class E c)) data [] []) as [[[d e] bad]|e]; cbn [rbind]; [|exact F].
        pose proof (pop_fit bad d F) as G. destruct (pop_all bad d) as [d'|e']; cbn [rbind]; [|exact G]. destruct (dupdate errs e); [exact G|]. cbn. intros ? ? [= <- <-]. exact G. }
      destruct r as [data|e]; [now apply Fin|]. destruct e; try exact F3. apply Fin. now apply (F3 _ _ eq_refl).
    Qed.

    (** ** Compound types *)
    Lemma new_fit c v x : M (cx_trusted x) -> M v -> fit A (model_new E fc pre c v x).
    Proof using K Hc Hp.
      intros T Hv. unfold model_new. assert (D : fits (if truthy v then py_dict E v else Ok [])) by (destruct (truthy v); [now apply dict_fit|exact L_nil]).
      destruct (if truthy v then _ else _) as [d|e]; cbn [rbind]; [|exact D]. apply M_dict in D. assert (Em : M (VModel c md_empty)) by (apply M_model; split; [exact L_nil|split; exact L_nil]).
      set (a := if truthy v then NoAlias else AliasConverted).
      assert (F : out_fit (if cx_validate x then validate_fn E fc pre x (e_class E c) (VModel c md_empty) a (VDict d) else import_loop E fc pre x (mc_fields (e_class E c)) (VModel c md_empty) a (VDict d)))
        by (destruct (cx_validate x); [now apply validate_fit|now apply (loop_fit x a c)]).
      destruct (if cx_validate x then _ else _) as [mut1 raw1 r]. destruct F as (F1 & _ & F3). cbn [lo_mut lo_res] in *. destruct r as [data|e]; cbn [rbind]; [now apply set_converted_M|exact F3].
    Qed.
    Lemma class_convert_fit c v x : M (cx_trusted x) -> M v -> fit A (model_class_convert E fc pre c v x).
    Proof using K Hc Hp.
      intros T Hv. unfold model_class_convert. destruct (loop_fit x AliasSelf c v v T Hv Hv) as (_ & _ & F). unfold fields_of in F.
      destruct (lo_res _) as [d|e]; cbn [rbind]; [now apply M_dict|exact F].
    Qed.
    Lemma model_convert_fit c v x : M (cx_trusted x) -> M v -> fit A (model_convert E fc pre c v x).
    Proof using K Hc Hp.
      intros T Hv. assert (F : forall c', fit A (if cx_convert x && cx_oo x then model_new E fc pre c' v x else model_class_convert E fc pre c' v x))
        by (intros c'; destruct (_ && _); [now apply new_fit|now apply class_convert_fit]).
      unfold model_convert. destruct v; try apply fit_conv; [apply F|]. destruct (e_issub E c0 c); [apply F|apply fit_conv].
    Qed.
    Lemma elems_M v l : M v -> list_elems E v = Some l -> forall w, In w l -> M w.
    Proof using K.
      intros Hv. destruct v; try discriminate; cbn [list_elems]; intros [= <-] w I.
      - apply in_map_iff in I as (b & <- & I). inversion Hv as [? P Ab| | | |]; subst. constructor; [exact Logic.I|]. now apply (kp_bytes _ _ K _ _ Ab).
      - inversion Hv as [? P|? F| | |]; subst; [contradiction|]. now apply F.
      - inversion Hv as [? P| |? F| |]; subst; [contradiction|]. now apply F.
      - apply in_map_iff in I as (n & <- & I). unfold model_iter in I. apply in_map_iff in I as ([n' f] & <- & I). apply filter_In in I as [I _]. cbn.
        constructor; [destruct n'; exact Logic.I|]. exact (kp_names _ _ K c n' f I).
    Qed.
    Lemma list_loop_fit g x : known g -> M (cx_trusted x) -> forall l i data errs, (forall v, In v l -> M v) -> (forall v, In v data -> M v) ->
      match list_loop fc g x i l data errs with Ok (data', _) => forall v, In v data' -> M v | Raise e => fit_exn A e end.
    Proof using Hc.
      intros Kn T. induction l as [|v l IH]; intros i data errs Hl Hd; cbn [list_loop]; [exact Hd|]. assert (Hl' : forall w, In w l -> M w) by (intros w I; apply Hl; now right).
      pose proof (Hc g v x Kn (Hl v (or_introl eq_refl)) T) as F. destruct (fc g v x) as [w|e].
      - apply IH; [exact Hl'|]. intros u0 I. apply in_app_iff in I as [I|[<-|[]]]; [now apply Hd|exact F].
      - destruct (is_base_error e); [now apply IH|exact F].
    Qed.
    Lemma list_convert_fit g v x : known g -> M (cx_trusted x) -> M v -> fit A (list_convert E fc g v x).
    Proof using K Hc.
      intros Kn T Hv. unfold list_convert. destruct (list_elems E v) as [l|] eqn:Q; [|apply fit_conv].
      pose proof (list_loop_fit g x Kn T l 0%Z [] [] (elems_M v l Hv Q) (fun _ I => match I with end)) as F.
      destruct (list_loop fc g x 0 l [] []) as [[data errs]|e]; cbn [rbind]; [|exact F]. destruct errs; [now constructor|]. apply fit_other. discriminate.
    Qed.
    Lemma dict_loop_fit g ck x : known g -> M (cx_trusted x) -> forall l data errs, (forall y v, In (y, v) l -> M v) -> L data ->
      match dict_loop fc g ck x l data errs with Ok (data', _) => L data' | Raise e => fit_exn A e end.
    Proof using Hc.
      intros Kn T. induction l as [|[y v] l IH]; intros data errs Hl Hd; cbn [dict_loop]; [exact Hd|]. assert (Hl' : forall z w, In (z, w) l -> M w) by (intros z w I; apply (Hl z); now right).
      pose proof (Hc g v x Kn (Hl y v (or_introl eq_refl)) T) as F. destruct (fc g v x) as [w|e]; cbn [rbind].
      - destruct (ck y) as [y'|e]; cbn [rbind]; [apply IH; [exact Hl'|now apply L_dset]|]. destruct (is_base_error e) eqn:B; [now apply IH|]. apply fit_other. intros errs' pd ->. discriminate B.
      - destruct (is_base_error e); [now apply IH|exact F].
    Qed.
    Lemma dict_convert_fit g ck v x : known g -> M (cx_trusted x) -> M v -> fit A (dict_convert fc g ck v x).
    Proof using Hc.
      intros Kn T Hv. unfold dict_convert. destruct v; try apply fit_conv. apply M_dict in Hv. destruct Hv as [_ Hv].
      pose proof (dict_loop_fit g ck x Kn T d [] [] Hv L_nil) as F. destruct (dict_loop fc g ck x d [] []) as [[data errs]|e]; cbn [rbind]; [|exact F].
      destruct errs; [now apply M_dict|]. apply fit_other. discriminate.
    Qed.
    Lemma scan_fit v cs : M v -> forall fb hits e, poly_scan E v cs fb hits = Raise e -> fit_exn A e.
    Proof using K.
      intros Hv. induction cs as [|c cs IH]; intros fb hits e; cbn [poly_scan]; [discriminate|]. destruct (mc_claim (e_class E c)) as [cl|] eqn:G; [|apply IH].
      destruct (cl v) as [b|e'] eqn:Q; cbn [rbind]; [apply IH|]. intros [= <-]. exact (kp_claims _ _ K c cl v e' G Hv Q).
    Qed.
    Lemma poly_convert_fit p v x : M (cx_trusted x) -> M v -> fit A (poly_convert E fc pre p v x).
    Proof using K Hc Hp.
      intros T Hv. unfold poly_convert. destruct (is_none v); [exact M_none|]. destruct (negb (cx_validate x) && poly_allowed E p v); [exact Hv|].
      destruct (negb (cx_validate x) && _); [apply fit_conv|]. unfold find_model. destruct (po_claim p) as [cf|].
      - destruct (cf v); cbn [rbind]; [now apply new_fit|apply fit_py].
      - destruct (poly_scan E v (poly_candidates E p) None []) as [[fb hits]|e] eqn:Q; cbn [rbind]; [|exact (scan_fit v _ Hv _ _ _ Q)].
        destruct hits as [|c [|]]; [destruct fb| |]; cbn [rbind]; try apply fit_py; now apply new_fit.
    Qed.
  End Under.

  (** ** All depths *)
  Record conv_fit (r : conv) : Prop := {
    cf_field : forall f v x, known f -> M v -> M (cx_trusted x) -> fit A (cv_field r f v x);
    cf_convert : forall f v x, known f -> M v -> M (cx_trusted x) -> fit A (cv_convert r f v x);
    cf_validate : forall f v x, known f -> M v -> M (cx_trusted x) -> fit A (cv_validate r f v x);
    cf_pre : forall f v, known f -> M v -> fit A (cv_pre r f v) }.
  Lemma convert_step_fit r f v x : conv_fit r -> known f -> M v -> M (cx_trusted x) -> fit A (convert_step E r f v x).
  Proof using K.
    intros [Ff Fc Fv Fp] Kn Hv T. unfold convert_step. destruct f as [o t]. cbn [fs_type]. destruct t as [l|ms|c|p|g|g ck].
    - destruct Kn as (c & n & fd & I & H). exact (kp_types _ _ K c n fd o l v I H Hv).
    - assert (Km : forall m, In m ms -> known m) by (intros m I; apply (known_in m _ Kn); eapply fi_member; [exact I|constructor]). clear Kn.
      enough (G : match union_resolve (fun m u0 => cv_convert r m u0 x) ms v with Ok (_, w) => M w | Raise e => fit_exn A e end) by (destruct (union_resolve _ ms v) as [[m w]|e]; exact G).
      induction ms as [|m ms IH]; cbn [union_resolve]; [apply fit_conv|]. pose proof (Fc m v x (Km m (or_introl eq_refl)) Hv T) as F. destruct (cv_convert r m v x) as [w|e]; [exact F|].
      destruct e; try exact F. apply IH. intros m' I. apply Km. now right.
    - now apply model_convert_fit.
    - now apply poly_convert_fit.
    - apply list_convert_fit; try assumption. apply (known_in g _ Kn). repeat constructor.
    - apply dict_convert_fit; try assumption. apply (known_in g _ Kn). repeat constructor.
  Qed.
  Lemma run_fit f v : known f -> M v -> forall vs acc e, incl vs (fo_validators (fs_opts f)) -> run_validators vs v acc = Raise e -> fit_exn A e.
  Proof using K.
    intros (c & n & fd & I & H) Hv. induction vs as [|vd vs IH]; intros acc e In_; cbn [run_validators]; [discriminate|]. assert (In' : incl vs (fo_validators (fs_opts f))) by (intros p J; apply In_; now right).
    destruct (vd v) as [e'|] eqn:Q; [|now apply IH]. pose proof (kp_validators _ _ K c n fd f vd v e' I H (In_ _ (or_introl eq_refl)) Hv Q) as F.
    destruct e'; try (intros [= <-]; exact F). destruct stop; [discriminate|now apply IH].
  Qed.
  Lemma validators_fit f v : known f -> M v -> fit A (validators_result (fo_validators (fs_opts f)) v).
  Proof using K.
    intros Kn Hv. unfold validators_result. destruct (run_validators (fo_validators (fs_opts f)) v []) as [[|e l]|e] eqn:Q; [exact Hv|apply fit_other; discriminate|].
    exact (run_fit f v Kn Hv _ _ _ (incl_refl _) Q).
  Qed.
  Lemma validate_step_fit r f v x : conv_fit r -> known f -> M v -> M (cx_trusted x) -> fit A (validate_step r f v x).
  Proof using K.
    intros [Ff Fc Fv Fp] Kn Hv T. unfold validate_step.
    assert (Gn : fit A (rbind (if cx_convert x then cv_convert r f v x else if is_compound f then rbind (cv_convert r f v x) (fun _ => Ok v) else Ok v) (validators_result (fo_validators (fs_opts f))))).
    { assert (F : fit A (if cx_convert x then cv_convert r f v x else if is_compound f then rbind (cv_convert r f v x) (fun _ => Ok v) else Ok v)).
      { pose proof (Fc f v x Kn Hv T) as F. destruct (cx_convert x); [exact F|]. destruct (is_compound f); [|exact Hv]. destruct (cv_convert r f v x); [exact Hv|exact F]. }
      destruct (if cx_convert x then _ else _) as [w|e]; cbn [rbind]; [now apply validators_fit|exact F]. }
    destruct (fs_type f) as [l|ms|c|p|g|g ck] eqn:Qt; try exact Gn. clear Gn.
    assert (Km : forall m, In m ms -> known m) by (intros m I; apply (known_in m _ Kn); destruct f as [o t]; cbn in Qt; subst t; eapply fi_member; [exact I|constructor]). clear Kn Qt.
    enough (G : match union_resolve (fun m u0 => cv_convert r m u0 x) ms v with Ok (m, _) => In m ms | Raise e => fit_exn A e end)
      by (destruct (union_resolve _ ms v) as [[m w]|e]; cbn [rbind]; [apply Fv; [now apply Km|exact Hv|exact T]|exact G]).
    induction ms as [|m ms IH]; cbn [union_resolve]; [apply fit_conv|]. pose proof (Fc m v x (Km m (or_introl eq_refl)) Hv T) as F. destruct (cv_convert r m v x) as [w|e]; [now left|].
    destruct e; try exact F. assert (IH' := IH (fun m' I => Km m' (or_intror I))). destruct (union_resolve _ ms v) as [[m' w]|e]; [now right|exact IH'].
  Qed.
  Lemma pre_step_fit r f v : conv_fit r -> known f -> M v -> fit A (pre_step E r f v).
  Proof using K.
    intros [Ff Fc Fv Fp] Kn Hv. unfold pre_step. destruct (fs_type f); try exact Hv. destruct v; try apply fit_conv; try exact Hv. apply new_fit; try assumption. apply M_dict, L_nil.
  Qed.
  Lemma conv_at_fit n : conv_fit (conv_at E n).
  Proof using K.
    induction n as [|n IH]; [constructor; intros; apply fit_other; discriminate|]. constructor; cbn.
    - intros f v x Kn Hv T. unfold field_step. destruct (check_required f v x) eqn:Q; [unfold check_required in Q; destruct (_ && _); [injection Q as <-; apply fit_conv|discriminate]|].
      destruct (is_nil v); [exact Hv|]. destruct (cx_validate x); [now apply cf_validate|now apply cf_convert].
    - intros f v x Kn Hv T. now apply convert_step_fit.
    - intros f v x Kn Hv T. now apply validate_step_fit.
    - intros f v Kn Hv. now apply pre_step_fit.
  Qed.

  (** ** Instances *)
  Section Api.
    Context (n : nat) (c : cid).
    Notation I_ m := (M (VModel c m)).
    Lemma convert_fit m raw trusted w : I_ m -> M raw -> M trusted ->
      match model__convert E (conv_at E n) c m raw trusted w with (m', r) => I_ m' /\ fits r end.
    Proof using K.
      intros Hm R T. destruct (conv_at_fit n) as [Ff Fc Fv Fp]. unfold model__convert. assert (Hm' := Hm). apply M_model in Hm' as (U & C & V).
      assert (D : fits (if truthy raw then py_dict E raw else Ok (md_converted m))) by (destruct (truthy raw); [now apply dict_fit|exact C]).
      destruct (if truthy raw then _ else _) as [d0|e]; [|now split]. cbn in D.
      set (p := match md_unsafe m with [] => _ | _ => _ end).
      assert (P : let '(m1, a1, d1, w1) := p in I_ m1 /\ L d1).
      { unfold p. destruct (md_unsafe m) as [|q un]; [now split|]. split; [apply M_model; cbn; split; [exact L_nil|now split]|now apply L_dupdate]. }
      destruct p as [[[m1 a1] d1] w1]. destruct P as [P1 P2]. apply M_dict in P2. set (x := kw_ctx w1 (if truthy trusted then trusted else VDict [])).
      assert (Tx : M (cx_trusted x)) by (cbn; destruct (truthy trusted); [exact T|apply M_dict, L_nil]).
      assert (F : out_fit (if kw_validate w then validate_fn E (cv_field (conv_at E n)) (cv_pre (conv_at E n)) x (e_class E c) (VModel c m1) a1 (VDict d1)
                           else import_loop E (cv_field (conv_at E n)) (cv_pre (conv_at E n)) x (mc_fields (e_class E c)) (VModel c m1) a1 (VDict d1)))
        by (destruct (kw_validate w); [now apply validate_fit|now apply (loop_fit _ _ Ff Fp x a1 c)]).
      destruct (if kw_validate w then _ else _) as [mut1 raw1 r]. destruct F as (F1 & _ & F3). cbn [lo_mut lo_res] in *. split; [|exact F3].
      destruct mut1; try exact P1. rewrite M_model in *. exact F1.
    Qed.
    Lemma body_fit m w : I_ m -> match model_validate_body E (conv_at E n) c m w with (m', oe) => I_ m' /\ forall e, oe = Some e -> fit_exn A e end.
    Proof using K.
      intros Hm. unfold model_validate_body. match goal with |- context [model__convert E _ c m VNone (VDict []) ?w] => pose proof (convert_fit m VNone (VDict []) w Hm M_none (proj2 (M_dict []) L_nil)) as F; destruct (model__convert E (conv_at E n) c m VNone (VDict []) w) as [m1 r] end.
      destruct F as [F1 F2]. apply M_model in F1 as (U & C & V). destruct r as [data|e]; cbn in F2.
      - split; [apply M_model; cbn; auto|discriminate].
      - destruct e; try (split; [apply M_model; split; [exact U|split; [exact C|exact V]]|intros e0 [= <-]; exact F2]). pose proof (F2 _ _ eq_refl) as P. split; [apply M_model; cbn; split; [exact U|split; [exact C|now apply L_dupdate]]|]. intros e0 [= <-]. exact F2.
    Qed.
    Lemma validate_api_fit m w : I_ m -> match model_validate E (conv_at E n) c m w with (m', oe) => I_ m' /\ forall e, oe = Some e -> fit_exn A e end.
    Proof using K.
      intros Hm. unfold model_validate. pose proof (body_fit m w Hm) as F. destruct (model_validate_body E (conv_at E n) c m w) as [m1 oe]. destruct F as [F1 F2].
      assert (G : I_ (md_set_converted m1 [])) by (rewrite M_model in *; cbn; split; [tauto|]; split; [exact L_nil|tauto]).
      destruct (md_converted m); [|now split]. destruct (kw_partial w); [split; [exact Hm|discriminate]|now split].
    Qed.
    Lemma init_fit raw trusted w : M raw -> M trusted ->
      match model_init E (conv_at E n) c raw trusted w with Ok m => I_ m | Raise e => fit_exn A e end.
    Proof using K.
      intros R T. unfold model_init. assert (V : L match trusted with VDict d => d | _ => [] end) by (destruct trusted; try exact L_nil; now apply M_dict).
      assert (Hm : I_ (MD [] [] match trusted with VDict d => d | _ => [] end None)) by (apply M_model; cbn; split; [exact L_nil|split; [exact L_nil|exact V]]).
      pose proof (convert_fit _ raw trusted w Hm R T) as F. destruct (model__convert E (conv_at E n) c _ raw trusted w) as [m1 r]. destruct F as [F1 F2]. destruct r as [data|e]; [|exact F2]. cbn in F2.
      assert (Hm2 : I_ (md_set_converted m1 data)) by (rewrite M_model in *; cbn; tauto). destruct (kw_validate w); [|exact Hm2].
      match goal with |- context [model_validate E _ c _ ?w] => pose proof (validate_api_fit _ w Hm2) as F; destruct (model_validate E (conv_at E n) c (md_set_converted m1 data) w) as [m3 oe] end.
      destruct F as [F3 F4]. destruct oe as [e|]; [now apply F4|exact F3].
    Qed.
    Lemma import_fit m raw w : I_ m -> M raw -> match model_import_data E (conv_at E n) c m raw w with (m', oe) => I_ m' /\ forall e, oe = Some e -> fit_exn A e end.
    Proof using K.
      intros Hm R. unfold model_import_data. pose proof (dict_fit _ Hm) as D. destruct (py_dict E (VModel c m)) as [td|e]; [|split; [exact Hm|intros e0 [= <-]; exact D]]. apply M_dict in D.
      pose proof (convert_fit m raw (VDict td) w Hm R D) as F. destruct (model__convert E (conv_at E n) c m raw (VDict td) w) as [m1 r]. destruct F as [F1 F2].
      destruct r as [data|e]; [|split; [exact F1|intros e0 [= <-]; exact F2]]. cbn in F2.
      assert (Hm2 : I_ (md_set_converted m1 (dupdate (md_converted m1) data))) by (rewrite M_model in *; cbn; split; [tauto|]; split; [apply L_dupdate; tauto|tauto]).
      destruct (kw_validate w); [now apply validate_api_fit|]. split; [exact Hm2|discriminate].
    Qed.
    Lemma set_fit m y v : I_ m -> M v -> match model_setitem E (conv_at E n) c m y v with (m', oe) => I_ m' end.
    Proof using K.
      intros Hm Hv. unfold model_setitem. destruct (dget y (mc_fields (e_class E c))) as [f|] eqn:G; [|exact Hm]. apply dget_In in G.
      assert (Kn : known (fd_spec f)) by (exists c, y, f; split; [exact G|constructor]). pose proof (cf_pre _ (conv_at_fit n) (fd_spec f) v Kn Hv) as F.
      destruct (fd_get f); [destruct (fd_set f) as [s|] eqn:Gs; [|exact Hm]|]; destruct (cv_pre (conv_at E n) (fd_spec f) v) as [w|e]; try exact Hm; cbn in F.
      - pose proof (kp_setters _ _ K c y f s _ w G Gs Hm F) as F2. destruct (s (VModel c m) w) as [v' oe]. cbn in F2. destruct v'; try exact Hm. rewrite M_model in *. exact F2.
      - rewrite M_model in *. cbn. split; [tauto|]. split; [apply L_dset; tauto|tauto].
    Qed.
    Lemma delete_fit m y : I_ m -> match model_delitem E c m y with (m', oe) => I_ m' end.
    Proof.
      intros Hm. unfold model_delitem. destruct (dget y (mc_fields (e_class E c))) as [f|]; [|exact Hm]. destruct (fd_get f); [exact Hm|]. unfold md_del.
      rewrite M_model in *. cbn. destruct Hm as (U & C & V). split; [now apply L_ddel|]. split; [now apply L_ddel|]. destruct (md_hidden m); [exact V|now apply L_ddel].
    Qed.
  End Api.

  Theorem lives_fit c m : lives E A c m -> M (VModel c m).
  Proof using K.
    induction 1 as [n raw trusted w m R T Q|raw trusted R T|n m raw w Hl IH R|n m w Hl IH|n m y v Hl IH Hv|m y Hl IH].
    - pose proof (init_fit n c raw trusted w R T) as F. now rewrite Q in F.
    - apply M_model. cbn. split; [exact R|]. split; [exact L_nil|exact T].
    - pose proof (import_fit n c m raw w IH R) as F. destruct (model_import_data E (conv_at E n) c m raw w). apply F.
    - pose proof (validate_api_fit n c m w IH) as F. destruct (model_validate E (conv_at E n) c m w). apply F.
    - pose proof (set_fit n c m y v IH Hv) as F. destruct (model_setitem E (conv_at E n) c m y v). exact F.
    - pose proof (delete_fit c m y IH) as F. destruct (model_delitem E c m y). exact F.
  Qed.
End Keep.
