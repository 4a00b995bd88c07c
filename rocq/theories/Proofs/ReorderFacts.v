(** The order of the fields in a class: reading, and the import loop. *)
From Coq Require Import Permutation.
From Verif.Model Require Import Py Core Api.
From Verif.Spec Require Import ExportSpec PrimitiveSpec OrderSpec ReorderSpec.
From Verif.Proofs Require Import DictLemmas OrderFacts OrderMain.

Lemma perm_filter {A} (p : A -> bool) l m : Permutation l m -> Permutation (filter p l) (filter p m).
Proof.
  induction 1 as [|x l m H IH|x y l|l m n H1 IH1 H2 IH2]; cbn; [constructor| | |now transitivity (filter p m)].
  - destruct (p x); [now constructor|assumption].
  - destruct (p x), (p y); try constructor; reflexivity.
Qed.
Lemma perm_dget {A} (d e : list (key * A)) n : NoDup (dkeys d) -> Permutation d e -> dget n d = dget n e.
Proof.
  intros N P. assert (NoDup (dkeys e)) as N' by (eapply Permutation_NoDup; [apply Permutation_map, P|exact N]).
  destruct (dget n d) as [v|] eqn:G.
  - apply dget_In in G. symmetry. apply In_dget; [assumption|]. eapply Permutation_in; eassumption.
  - destruct (dget n e) as [v|] eqn:G'; [|reflexivity]. apply dget_In in G'.
    rewrite (In_dget n v d N) in G; [discriminate|]. eapply Permutation_in; [apply Permutation_sym, P|exact G'].
Qed.
Lemma dupdate_In {A} (d e : list (key * A)) y v : In (y, v) (dupdate d e) -> In (y, v) d \/ In (y, v) e.
Proof.
  assert (forall x (w : A) l, In (y, v) (dset x w l) -> (y, v) = (x, w) \/ In (y, v) l) as Hs.
  { intros x w l. induction l as [|[z u] l IH]; cbn; [intros [<-|[]]; now left|].
    destruct (key_eqb x z) eqn:Q; cbn; [intros [<-|H]|intros [H|H]]; auto.
    - apply key_eqb_eq in Q. subst. now left.
    - destruct (IH H); auto. }
  unfold dupdate. revert d. induction e as [|[x w] e IH]; intros d; cbn; [tauto|].
  intros H. destruct (IH _ H) as [H1|H1]; [|auto]. destruct (Hs _ _ _ H1) as [->|H2]; auto.
Qed.

Section Facts.
  Context (K : key -> Prop).
  Local Notation alike := (alike K).
  Local Notation keyed := (keyed K).
  Local Notation alike_exn := (alike_exn K).
  Local Notation alike_res := (alike_res K).
  Context (E E' : env) (HE : blind_env K E) (HR : reordered E E') (HS : steady_env E).

  Lemma names_right c : NoDup (dkeys (mc_fields (e_class E' c))).
  Proof using HE HR. eapply Permutation_NoDup; [apply Permutation_map, (ro_fields _ _ HR c)|apply HE]. Qed.
  Lemma fields_get c n : dget n (mc_fields (e_class E' c)) = dget n (mc_fields (e_class E c)).
  Proof using HE HR. symmetry. apply perm_dget; [apply HE|apply HR]. Qed.
  Lemma fields_left c n f : In (n, f) (mc_fields (e_class E' c)) <-> In (n, f) (mc_fields (e_class E c)).
  Proof using HR.
    split; intros H; (eapply Permutation_in; [|exact H]); [apply Permutation_sym|]; apply HR.
  Qed.

  (** ** Instance free values *)
  Lemma free_atom v : atomic v = true -> instance_free v.
  Proof. intros H. now apply mo_plain. Qed.
  Lemma free_list l v : instance_free (VList l) -> In v l -> instance_free v.
  Proof. unfold instance_free. intros H Hi. inversion H; subst; [discriminate|auto]. Qed.
  Lemma free_tuple l v : instance_free (VTuple l) -> In v l -> instance_free v.
  Proof. unfold instance_free. intros H Hi. inversion H; subst; [discriminate|auto]. Qed.
  Lemma free_dict d y v : instance_free (VDict d) -> In (y, v) d -> instance_free v.
  Proof. unfold instance_free. intros H Hi. inversion H; subst; [discriminate|eauto]. Qed.
  Lemma free_model c m : ~ instance_free (VModel c m).
  Proof. intros H. inversion H; subst. discriminate. Qed.
  Lemma free_layer c d : instance_free (VDict d) -> fit_layer E c d.
  Proof. intros H n v n' f Hi _ _. apply fit_free. eapply free_dict; eassumption. Qed.

  (** ** Reading *)
  Lemma getitem_calm v x e : py_getitem E v x = Raise e -> crash e.
  Proof using HS.
    destruct v; cbn; try (intros [= <-]; exact Logic.I).
    - destruct (dget x d); [discriminate|intros [= <-]; exact Logic.I].
    - unfold model_getitem. destruct (dget x (mc_fields (e_class E c))) as [f|] eqn:G; [|intros [= <-]; exact Logic.I].
      unfold field_get. destruct (fd_get f) as [g|] eqn:F.
      + pose proof (sc_getters _ (HS c) x f g (VModel c m) (dget_In _ _ _ G) F) as H.
        destruct (g (VModel c m)) as [w|e']; [destruct (is_undef w); [intros [= <-]; exact Logic.I|discriminate]|].
        intros [= <-]. exact H.
      + destruct (chain_get m x) as [w|]; [destruct (is_undef w); [|discriminate]|]; intros [= <-]; exact Logic.I.
  Qed.

  Lemma getitem_same v w x : alike v w -> alike_res alike (py_getitem E v x) (py_getitem E' w x).
  Proof using HE HR.
    intros H. assert (py_getitem E' w x = py_getitem E w x) as ->; [|now apply OrderFacts.getitem_same].
    destruct w; try reflexivity. cbn. unfold model_getitem. now rewrite fields_get.
  Qed.
  Lemma right_calm v w x e : alike v w -> py_getitem E' w x = Raise e -> crash e.
  Proof using HE HR HS.
    intros H Q. pose proof (getitem_same v w x H) as S. rewrite Q in S. inversion S as [|a b Hab Q1 Q2]; subst.
    symmetry in Q1. apply getitem_calm in Q1. destruct Hab; cbn in Q1; tauto.
  Qed.
  Lemma contains_same v w x : alike v w -> py_contains E v x = py_contains E' w x.
  Proof using HE HR.
    intros H. assert (py_contains E' w x = py_contains E w x) as ->; [|now apply (OrderFacts.contains_same K)].
    destruct w; try reflexivity. cbn. unfold model_contains, model_getitem. now rewrite fields_get.
  Qed.
  Lemma atom_value_same v w x : alike v w -> alike (atom_value E v x) (atom_value E' w x).
  Proof using HE HR.
    intros H. unfold atom_value. destruct (getitem_same v w x H); [assumption|]. now constructor.
  Qed.
  Lemma model_iter_perm c m n : alike (VModel c m) (VModel c n) -> Permutation (model_iter E c m) (model_iter E' c n).
  Proof using HE HR.
    intros H. apply data_of in H. destruct H as (H1 & H2 & H3 & H4).
    assert (model_iter E' c n = map fst (filter (fun p => chain_mem m (fst p) && is_none_opt (fd_set (snd p))) (mc_fields (e_class E' c)))) as ->.
    { unfold model_iter. f_equal. apply filter_ext. intros p. now rewrite (chain_mem_same K m n H1 H2 H3). }
    unfold model_iter. apply Permutation_map, perm_filter, HR.
  Qed.

  Lemma items_out F v ks :
    (exists d, py_items F v ks = Ok d /\ dkeys d = ks /\ forall y w, In (y, w) d -> py_getitem F v y = Ok w) \/
    (exists e y, py_items F v ks = Raise e /\ In y ks /\ py_getitem F v y = Raise e).
  Proof.
    induction ks as [|x ks IH]; cbn; [left; exists []; split; [reflexivity|split; [reflexivity|intros y w []]]|].
    destruct (py_getitem F v x) as [w|e] eqn:G; cbn; [|right; exists e, x; auto].
    destruct IH as [(d & -> & Hk & Hd)|(e & y & -> & Hy & Hg)]; cbn; [left|right; exists e, y; auto].
    exists ((x, w) :: d). split; [reflexivity|]. split; [unfold dkeys in *; cbn; congruence|].
    intros y u [[= <- <-]|Hi]; auto.
  Qed.
  Lemma dict_same v w : alike v w -> alike_res (keyed alike) (py_dict E v) (py_dict E' w).
  Proof using HE HR HS.
    intros H. destruct H as [u H|l m F|l m F|d e H|c m n H1 H2 H3 H4]; cbn.
    - destruct u; cbn in *; try discriminate; constructor; apply py_same.
    - constructor; apply py_same.
    - constructor; apply py_same.
    - constructor. assumption.
    - assert (alike (VModel c m) (VModel c n)) as H by now constructor.
      pose proof (model_iter_perm c m n H) as P.
      destruct (items_out E (VModel c m) (model_iter E c m)) as [(d & -> & Hk & Hd)|(e & y & -> & Hy & Hg)],
               (items_out E' (VModel c n) (model_iter E' c n)) as [(d' & -> & Hk' & Hd')|(e' & y' & -> & Hy' & Hg')].
      + constructor. split.
        { intros y Hy. rewrite Hk in Hy. destruct (model_iter_In E c m y Hy) as (f & Hf). eapply bc_keys; [apply HE|exact Hf]. }
        assert (NoDup (dkeys d)) as N by (rewrite Hk; eapply model_iter_NoDup, HE).
        assert (NoDup (dkeys d')) as N' by (rewrite Hk'; eapply Permutation_NoDup; [exact P|]; eapply model_iter_NoDup, HE).
        apply entries_In; try assumption.
        * intros y a Hi. assert (In y (dkeys d')) as Hy.
          { rewrite Hk'. eapply Permutation_in; [exact P|]. rewrite <- Hk. apply (in_map fst) in Hi. exact Hi. }
          unfold dkeys in Hy. apply in_map_iff in Hy. destruct Hy as ([y0 b] & Q & Hb). cbn in Q. subst y0.
          exists b. split; [assumption|]. pose proof (getitem_same _ _ y H) as S. rewrite (Hd y a Hi), (Hd' y b Hb) in S.
          now inversion S.
        * intros y b Hi. assert (In y (dkeys d)) as Hy.
          { rewrite Hk. eapply Permutation_in; [apply Permutation_sym, P|]. rewrite <- Hk'. apply (in_map fst) in Hi. exact Hi. }
          unfold dkeys in Hy. apply in_map_iff in Hy. destruct Hy as ([y0 a] & Q & Ha). cbn in Q. subst y0. eauto.
      + exfalso. assert (In y' (dkeys d)) as Hy by (rewrite Hk; eapply Permutation_in; [apply Permutation_sym, P|exact Hy']).
        unfold dkeys in Hy. apply in_map_iff in Hy. destruct Hy as ([y0 a] & Q & Ha). cbn in Q. subst y0.
        pose proof (getitem_same _ _ y' H) as S. rewrite (Hd _ _ Ha), Hg' in S. inversion S.
      + exfalso. assert (In y (dkeys d')) as Hy1 by (rewrite Hk'; eapply Permutation_in; [exact P|exact Hy]).
        unfold dkeys in Hy1. apply in_map_iff in Hy1. destruct Hy1 as ([y0 a] & Q & Ha). cbn in Q. subst y0.
        pose proof (getitem_same _ _ y H) as S. rewrite (Hd' _ _ Ha), Hg in S. inversion S.
      + constructor. apply ax_crash; [eapply getitem_calm, Hg|eapply right_calm; [exact H|exact Hg']].
  Qed.
  Lemma keys_same v w : alike v w -> alike_res (fun l m => NoDup l /\ NoDup m /\ forall x, In x l <-> In x m) (py_keys E v) (py_keys E' w).
  Proof using HE HR.
    intros H. pose proof (fun c m n => model_iter_perm c m n) as P.
    destruct H as [u H|l m F|l m F|d e H|c m n H1 H2 H3 H4]; cbn.
    - destruct u; cbn in *; try discriminate; constructor; apply py_same.
    - constructor; apply py_same.
    - constructor; apply py_same.
    - constructor. destruct H as [_ H]. split; [apply H|split; [apply H|]]. intros x. eapply entries_keys, H.
    - assert (alike (VModel c m) (VModel c n)) as H by now constructor. specialize (P c m n H).
      assert (NoDup (model_iter E c m)) as N by (eapply model_iter_NoDup, HE).
      constructor. split; [exact N|split; [eapply Permutation_NoDup; eassumption|]].
      intros x. split; apply Permutation_in; [exact P|apply Permutation_sym, P].
  Qed.

  (** ** What is read is fit *)
  Local Notation fit_raw := (fit_input E).
  Lemma chain_layer m x v : chain_get m x = Some v -> exists L, In L (layers m) /\ In (x, v) L.
  Proof.
    unfold chain_get. intros H. destruct (dget x (md_unsafe m)) as [u0|] eqn:G1.
    { injection H as <-. exists (md_unsafe m). split; [now left|now apply dget_In]. }
    destruct (dget x (md_converted m)) as [u0|] eqn:G2.
    { injection H as <-. exists (md_converted m). split; [right; now left|now apply dget_In]. }
    exists (md_valid m). split; [right; right; now left|now apply dget_In].
  Qed.
  Lemma model_read c c' m x v n f : fit_data E c m -> In (n, f) (mc_fields (e_class E c)) ->
    In x (input_keys n (fd_spec f) no_mapping) -> model_getitem E c' m x = Ok v -> fit E (fd_spec f) v.
  Proof using HS.
    intros Hf Hn Hx. unfold model_getitem. destruct (dget x (mc_fields (e_class E c'))) as [f'|] eqn:G; [|discriminate].
    unfold field_get. destruct (fd_get f') as [g|] eqn:F.
    - pose proof (sc_getters _ (HS c') x f' g (VModel c' m) (dget_In _ _ _ G) F) as H.
      destruct (g (VModel c' m)) as [w|e]; [|discriminate]. destruct (is_undef w); [discriminate|]. intros [= <-]. now apply fit_free.
    - destruct (chain_get m x) as [w|] eqn:C; [|discriminate]. destruct (is_undef w); [discriminate|]. intros [= <-].
      destruct (chain_layer _ _ _ C) as (L & HL & Hi). eapply Hf; eassumption.
  Qed.
  Lemma raw_read c raw x v n f : fit_raw c raw -> In (n, f) (mc_fields (e_class E c)) ->
    In x (input_keys n (fd_spec f) no_mapping) -> py_getitem E raw x = Ok v -> fit E (fd_spec f) v.
  Proof using HS.
    intros Hr Hn Hx Hg. destruct raw; cbn in Hg; try discriminate; cbn [fit_input] in Hr.
    - destruct (dget x d) as [w|] eqn:G; [|discriminate]. injection Hg as <-. eapply Hr; try eassumption. now apply dget_In.
    - eapply model_read; eassumption.
  Qed.
  Lemma items_fit c raw d : fit_raw c raw -> py_dict E raw = Ok d -> fit_layer E c d.
  Proof using HS.
    intros Hr Hd. destruct raw as [ | | | | | | | | |d0|c0 m| | | | | | | ]; cbn in Hd; try discriminate.
    - injection Hd as <-. exact Hr.
    - destruct (items_out E (VModel c0 m) (model_iter E c0 m)) as [(d1 & Q & _ & Hi)|(e & y & Q & _)]; rewrite Q in Hd; [|discriminate].
      injection Hd as <-. intros n v n' f Hv Hn Hx. eapply raw_read; [exact Hr|exact Hn|exact Hx|]. apply Hi, Hv.
  Qed.
  Lemma fit_update c d e : fit_layer E c d -> fit_layer E c e -> fit_layer E c (dupdate d e).
  Proof.
    intros Hd He n v n' f Hi Hn Hx. destruct (dupdate_In _ _ _ _ Hi); [eapply Hd|eapply He]; eassumption.
  Qed.

  (** ** The context of a field *)
  Lemma nested_td_same x t n : K n -> alike (cx_trusted x) t ->
    alike (nested_td E x n) (nested_td E' (branch x t None) n).
  Proof using HE HR.
    intros Hn H. unfold nested_td. cbn [cx_trusted cx_recursive branch]. rewrite <- (alike_truthy _ _ _ H).
    destruct (truthy (cx_trusted x) && cx_recursive x); [|apply al_dict, keyed_nil].
    set (a := match cx_trusted x with VDict d => _ | _ => _ end).
    set (b := match t with VDict d => _ | _ => _ end).
    assert (alike a b) as Hab.
    { subst a b. destruct H as [u H|l m F|l m F|d e H|c m m' H1 H2 H3 H4].
      - destruct u; cbn in *; try discriminate; now constructor.
      - now constructor.
      - now constructor.
      - destruct (entries_get _ _ _ n (keyed_entries _ _ _ _ H)); [now constructor|assumption].
      - assert (alike (VModel c m) (VModel c m')) as H by now constructor.
        destruct (getitem_same _ _ n H); [assumption|now constructor]. }
    clearbody a b. clear H.
    assert (alike (VDict [(n, a)]) (VDict [(n, b)])) as Hd.
    { constructor. split; [intros y [<-|[]]; exact Hn|]. change [(n, a)] with (dset n a []). change [(n, b)] with (dset n b []).
      apply entries_dset; [apply entries_nil|assumption]. }
    destruct Hab as [u H|l m F|l m F|d e H|c m m' H1 H2 H3 H4]; try assumption; [|now constructor|now constructor].
    destruct u; try assumption; discriminate.
  Qed.
  Lemma field_ctx_same x t n f : K n -> alike (cx_trusted x) t -> cx_mapping x = no_mapping -> exists t',
    alike (cx_trusted (field_ctx E x n f)) t' /\ field_ctx E' (branch x t None) n f = branch (field_ctx E x n f) t' None /\
    cx_mapping (field_ctx E x n f) = no_mapping.
  Proof using HE HR.
    intros Hn H Hm. unfold field_ctx. destruct (is_compound f).
    - exists (nested_td E' (branch x t None) n). split; [now apply nested_td_same|].
      unfold nested_map. cbn [cx_mapping branch]. rewrite Hm. split; reflexivity.
    - exists t. auto.
  Qed.

  (** ** The import loop *)
  Definition fc_same (fc fc' : fspec -> pyval -> ictx -> res pyval) : Prop := forall f v w x t,
    blind_field K f -> leaf_unions f -> fit E f v -> alike v w -> alike (cx_trusted x) t -> cx_mapping x = no_mapping ->
    alike_res alike (fc f v x) (fc' f w (branch x t None)).

  (** What one field contributes: a value and an error. *)
  Definition round (F : env) (fc : fspec -> pyval -> ictx -> res pyval) (x : ictx) (got : bool) (raw : pyval) (n : key) (f : field) (there : bool)
    : res (option pyval * option errnode) :=
    let sp := fd_spec f in
    let v0 := atom_value F raw n in
    rbind (if got && is_undef v0 then find_alt F raw n (input_keys n sp (cx_mapping x)) else Ok v0) (fun v1 =>
      if is_undef v1 && there then Ok (None, None)
      else
        let v2 := if is_undef v1 && cx_apply_defaults x then fo_default (fs_opts sp) else v1 in
        let v3 := if is_undef v2 && cx_init_values x then VNone else v2 in
        if got then
          match fc sp v3 (field_ctx F x n sp) with
          | Ok w => Ok (if is_undef w then None else Some w, None)
          | Raise e =>
              if caught_by_loop e then
                Ok (match e with
                    | XData _ pd => Some (VDict pd)
                    | _ => if cx_apply_defaults x && negb (is_undef (fo_default (fs_opts sp))) then Some (fo_default (fs_opts sp)) else None
                    end, Some (err_node e))
              else Raise e
          end
        else Ok (if is_undef v3 then None else Some v3, None)).
  Definition put {A} (n : key) (o : option A) (d : list (key * A)) : list (key * A) := match o with Some v => dset n v d | None => d end.

  Lemma dset_dset {A} n (v w : A) d : dset n v (dset n w d) = dset n v d.
  Proof.
    induction d as [|[y u] d IH]; cbn; [now rewrite key_eqb_refl|].
    destruct (key_eqb n y) eqn:Q; cbn; rewrite Q; [reflexivity|now rewrite IH].
  Qed.
  Lemma import_field_round F fc x got raw n f d e :
    import_field F fc x got raw n f (d, e) =
    rbind (round F fc x got raw n f (dmem n d)) (fun '(o, r) => Ok (put n o d, put (sname_of n (fd_spec f)) r e)).
  Proof.
    unfold import_field, round. set (first := if got && is_undef (atom_value F raw n) then _ else _).
    destruct first as [v1|ex]; cbn [rbind]; [|reflexivity].
    destruct (is_undef v1 && dmem n d); [reflexivity|].
    set (v2 := if is_undef v1 && cx_apply_defaults x then _ else v1).
    set (v3 := if is_undef v2 && cx_init_values x then VNone else v2). clearbody v3.
    destruct got; [|destruct (is_undef v3); reflexivity].
    destruct (fc (fd_spec f) v3 (field_ctx F x n (fd_spec f))) as [w|ex]; [destruct (is_undef w); reflexivity|].
    destruct (caught_by_loop ex); [|reflexivity]. cbn [rbind put].
    destruct ex; try (destruct (cx_apply_defaults x && _); reflexivity).
    destruct (cx_apply_defaults x && _); cbn [put]; [now rewrite dset_dset|reflexivity].
  Qed.

  Section Loop.
    Context (fc fc' : fspec -> pyval -> ictx -> res pyval) (Hfc : fc_same fc fc').

    Lemma find_alt_same v w n ks : alike v w -> alike_res alike (find_alt E v n ks) (find_alt E' w n ks).
    Proof using HE HR.
      intros H. induction ks as [|x ks IH]; cbn; [constructor; now constructor|].
      rewrite <- (contains_same v w x H). destruct (key_true x && _ && _); [now apply getitem_same|assumption].
    Qed.
    Lemma find_alt_read raw n ks v : find_alt E raw n ks = Ok v -> v = VUndef \/ exists x, In x ks /\ py_getitem E raw x = Ok v.
    Proof.
      induction ks as [|x ks IH]; cbn; [intros [= <-]; now left|].
      destruct (key_true x && _ && _); [right; exists x; auto|]. intros H. destruct (IH H) as [->|(y & Hy & Hg)]; [now left|right; eauto].
    Qed.
    Lemma find_alt_calm F raw n ks e : find_alt F raw n ks = Raise e -> exists x, py_getitem F raw x = Raise e.
    Proof.
      induction ks as [|x ks IH]; cbn; [discriminate|]. destruct (key_true x && _ && _); [eauto|exact IH].
    Qed.

    Definition out_round (p q : option pyval * option errnode) : Prop :=
      both alike (fst p) (fst q) /\ both alike_err (snd p) (snd q).

    Lemma round_same x t got c v w n f there : In (n, f) (mc_fields (e_class E c)) -> fit_raw c v ->
      alike (cx_trusted x) t -> cx_mapping x = no_mapping -> alike v w ->
      alike_res out_round (round E fc x got v n f there) (round E' fc' (branch x t None) got w n f there).
    Proof using HE HR HS Hfc.
      intros Hi Hfit Ht Hmap H.
      pose proof (bc_keys _ _ (HE c) n f Hi) as Hn. pose proof (bc_fields _ _ (HE c) n f Hi) as Hf.
      assert (alike (fo_default (fs_opts (fd_spec f))) (fo_default (fs_opts (fd_spec f)))) as Hdef.
      { destruct Hf as [o l [Ho _]|o ms [Ho _]|o c0 [Ho _]|o p [Ho _]|o g [Ho _]|o g ck [Ho _]]; exact Ho. }
      pose proof (sc_defaults _ (HS c) n f Hi) as Hdf.
      unfold round. cbn [cx_mapping cx_apply_defaults cx_init_values branch].
      eapply res_bind with (R := fun a b => alike a b /\ fit E (fd_spec f) a).
      { pose proof (atom_value_same v w n H) as Ha. rewrite <- (alike_undef _ _ _ Ha).
        destruct (got && is_undef (atom_value E v n)).
        - pose proof (find_alt_same v w n (input_keys n (fd_spec f) (cx_mapping x)) H) as S.
          set (u := find_alt E' w n _) in *. clearbody u.
          destruct (find_alt E v n (input_keys n (fd_spec f) (cx_mapping x))) as [a|e] eqn:Q;
            inversion S as [a0 b Hab Q1 Q2|a0 b Hab Q1 Q2]; subst; constructor; [|assumption]. split; [assumption|].
          destruct (find_alt_read _ _ _ _ Q) as [->|(y & Hy & Hg)]; [now apply fit_free, free_atom|].
          rewrite Hmap in Hy. eapply raw_read; eassumption.
        - constructor. split; [assumption|]. unfold atom_value. destruct (py_getitem E v n) as [a|] eqn:Q; [|now apply fit_free, free_atom].
          eapply raw_read; [exact Hfit|exact Hi| |exact Q]. now left. }
      intros a b [Hab Hfa]. rewrite <- (alike_undef _ _ _ Hab).
      destruct (is_undef a && there); [constructor; split; constructor|].
      set (a2 := if is_undef a && cx_apply_defaults x then _ else a).
      set (b2 := if is_undef a && cx_apply_defaults x then _ else b).
      assert (alike a2 b2 /\ fit E (fd_spec f) a2) as [H2 Hf2].
      { subst a2 b2. destruct (is_undef a && cx_apply_defaults x); [split; [assumption|now apply fit_free]|now split]. }
      clearbody a2 b2. rewrite <- (alike_undef _ _ _ H2).
      set (a3 := if is_undef a2 && cx_init_values x then VNone else a2).
      set (b3 := if is_undef a2 && cx_init_values x then VNone else b2).
      assert (alike a3 b3 /\ fit E (fd_spec f) a3) as [H3 Hf3].
      { subst a3 b3. destruct (is_undef a2 && cx_init_values x); [split; [now constructor|now apply fit_free, free_atom]|now split]. }
      clearbody a3 b3.
      assert (forall p q, alike p q -> alike_res out_round (Ok (if is_undef p then None else Some p, None)) (Ok (if is_undef q then None else Some q, None))) as Hst.
      { intros p q Hpq. rewrite <- (alike_undef _ _ _ Hpq). constructor. split; cbn; [|constructor].
        destruct (is_undef p); [constructor|now constructor]. }
      destruct got; [|now apply Hst].
      destruct (field_ctx_same x t n (fd_spec f) Hn Ht Hmap) as (t' & Ht' & -> & Hm').
      destruct (Hfc (fd_spec f) a3 b3 (field_ctx E x n (fd_spec f)) t' Hf (sc_unions _ (HS c) n f Hi) Hf3 H3 Ht' Hm') as [p q Hpq|p q Hpq];
        [now apply Hst|].
      rewrite <- (caught_same _ _ _ Hpq). destruct (caught_by_loop p) eqn:C; [|now constructor].
      constructor. split; cbn [fst snd]; [|constructor; now apply err_node_same with (K := K)].
      assert (both alike (if cx_apply_defaults x && negb (is_undef (fo_default (fs_opts (fd_spec f)))) then Some (fo_default (fs_opts (fd_spec f))) else None)
        (if cx_apply_defaults x && negb (is_undef (fo_default (fs_opts (fd_spec f)))) then Some (fo_default (fs_opts (fd_spec f))) else None)) as Hd.
      { destruct (cx_apply_defaults x && _); constructor; assumption. }
      destruct Hpq as [ms|s ms|da ea Q|da ea pa qa Q Q'|p q Q Q']; try exact Hd.
      - constructor. now constructor.
      - destruct p, q; cbn in *; try tauto; discriminate.
    Qed.
  End Loop.

  Lemma round_calm fc x got raw n f there e : round E fc x got raw n f there = Raise e -> crash e.
  Proof using HS.
    unfold round. set (first := if got && is_undef (atom_value E raw n) then _ else _).
    destruct first as [v1|ex] eqn:Q; cbn [rbind].
    - destruct (is_undef v1 && there); [discriminate|].
      set (v2 := if is_undef v1 && cx_apply_defaults x then _ else v1).
      set (v3 := if is_undef v2 && cx_init_values x then VNone else v2). clearbody v3.
      destruct got; [|discriminate]. destruct (fc (fd_spec f) v3 (field_ctx E x n (fd_spec f))) as [w|ex]; [discriminate|].
      destruct (caught_by_loop ex) eqn:C; [discriminate|]. intros [= <-]. now apply uncaught.
    - intros [= <-]. subst first. destruct (got && is_undef (atom_value E raw n)); [|discriminate].
      apply find_alt_calm in Q. destruct Q as (y & Q). eapply getitem_calm, Q.
  Qed.

  Section Rounds.
    Context (F : env) (fc : fspec -> pyval -> ictx -> res pyval) (x : ictx) (got : bool) (raw : pyval) (there : key -> bool).
    Local Notation rd p := (round F fc x got raw (fst p) (snd p) (there (fst p))).
    Definition fails (p : key * field) : bool := match rd p with Ok _ => false | Raise _ => true end.
    Definition gained (fs : list (key * field)) : list (key * pyval) :=
      flat_map (fun p => match rd p with Ok (Some v, _) => [(fst p, v)] | _ => [] end) fs.
    Definition missed (fs : list (key * field)) : list (key * errnode) :=
      flat_map (fun p => match rd p with Ok (_, Some e) => [(sname_of (fst p) (fd_spec (snd p)), e)] | _ => [] end) fs.

    Lemma import_fields_rounds fs d e : (forall n f, In (n, f) fs -> fd_set f = None) -> NoDup (dkeys fs) ->
      (forall n, In n (dkeys fs) -> dmem n d = there n) ->
      if existsb fails fs then exists ex p, import_fields F fc x got raw fs (d, e) = Raise ex /\ In p fs /\ rd p = Raise ex
      else import_fields F fc x got raw fs (d, e) = Ok (dupdate d (gained fs), dupdate e (missed fs)).
    Proof.
      revert d e. induction fs as [|[n f] fs IH]; intros d e Hs N Hd; cbn [existsb import_fields]; [reflexivity|].
      assert (has_setter f = false) as -> by (unfold has_setter; now rewrite (Hs n f (or_introl eq_refl))).
      rewrite Bool.andb_false_r, import_field_round, (Hd n (or_introl eq_refl)).
      unfold fails at 1, gained, missed. cbn [fst snd flat_map].
      inversion N as [|? ? N1 N2]; subst.
      destruct (round F fc x got raw n f (there n)) as [[o r]|ex] eqn:Q; cbn [rbind orb];
        [|exists ex, (n, f); split; [reflexivity|split; [now left|exact Q]]].
      specialize (IH (put n o d) (put (sname_of n (fd_spec f)) r e) (fun n0 f0 H => Hs n0 f0 (or_intror H)) N2).
      assert (forall n0, In n0 (dkeys fs) -> dmem n0 (put n o d) = there n0) as Hd'.
      { intros n0 H0. rewrite <- (Hd n0 (or_intror H0)). destruct o as [v|]; [|reflexivity]. cbn. unfold dmem.
        rewrite dget_dset_neq; [reflexivity|]. intros ->. contradiction. }
      specialize (IH Hd'). destruct (existsb fails fs).
      - destruct IH as (ex & p & Hex & Hp & Hr). exists ex, p. split; [exact Hex|]. split; [now right|exact Hr].
      - rewrite IH. f_equal. f_equal; [destruct o; reflexivity|destruct r, o; reflexivity].
    Qed.
    Lemma gained_In fs n v : In (n, v) (gained fs) <-> exists f r, In (n, f) fs /\ round F fc x got raw n f (there n) = Ok (Some v, r).
    Proof.
      unfold gained. rewrite in_flat_map. split.
      - intros ([n0 f] & Hi & H). cbn in H. destruct (round F fc x got raw n0 f (there n0)) as [[[v0|] r]|] eqn:Q; [|destruct H..].
        destruct H as [H|[]]. injection H as <- <-. eauto.
      - intros (f & r & Hi & Q). exists (n, f). split; [assumption|]. cbn. rewrite Q. now left.
    Qed.
    Lemma missed_In fs s e : In (s, e) (missed fs) <->
      exists n f o, In (n, f) fs /\ round F fc x got raw n f (there n) = Ok (o, Some e) /\ s = sname_of n (fd_spec f).
    Proof.
      unfold missed. rewrite in_flat_map. split.
      - intros ([n0 f] & Hi & H). cbn in H. destruct (round F fc x got raw n0 f (there n0)) as [[o [r|]]|] eqn:Q; [|destruct H..].
        destruct H as [H|[]]. injection H as <- <-. eauto 6.
      - intros (n & f & o & Hi & Q & ->). exists (n, f). split; [assumption|]. cbn. rewrite Q. now left.
    Qed.
    Lemma gained_NoDup fs : NoDup (dkeys fs) -> NoDup (dkeys (gained fs)).
    Proof.
      unfold dkeys. induction fs as [|[n f] fs IH]; cbn; [constructor|]. intros N. inversion N as [|? ? N1 N2]; subst.
      destruct (round F fc x got raw n f (there n)) as [[[v|] r]|]; cbn; auto. constructor; [|auto].
      intros Hi. apply in_map_iff in Hi. destruct Hi as ([n0 v0] & Q & Hi). cbn in Q. subst n0.
      change (In (n, v0) (gained fs)) in Hi. apply gained_In in Hi. destruct Hi as (f0 & r0 & Hi & _). apply N1. apply (in_map fst) in Hi. exact Hi.
    Qed.
    Lemma missed_NoDup fs : NoDup (map (fun p => sname_of (fst p) (fd_spec (snd p))) fs) -> NoDup (dkeys (missed fs)).
    Proof.
      unfold dkeys. induction fs as [|[n f] fs IH]; cbn; [constructor|]. intros N. inversion N as [|? ? N1 N2]; subst.
      destruct (round F fc x got raw n f (there n)) as [[o [r|]]|]; cbn; auto. constructor; [|auto].
      intros Hi. apply in_map_iff in Hi. destruct Hi as ([s e0] & Q & Hi). cbn in Q. subst s.
      change (In (sname_of n (fd_spec f), e0) (missed fs)) in Hi. apply missed_In in Hi. destruct Hi as (n0 & f0 & o0 & Hi & _ & Q).
      apply N1. rewrite Q. apply (in_map (fun p => sname_of (fst p) (fd_spec (snd p)))) in Hi. exact Hi.
    Qed.
  End Rounds.
End Facts.
