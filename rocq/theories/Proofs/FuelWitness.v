(** The stack limit: statements for the entry points, a calm program and one that never settles. *)
From Verif.Model Require Import Py Core Export Api.
From Verif.Spec Require Import ImportSpec FuelSpec.
From Verif.Proofs Require Import DictLemmas ImportLemmas ApiLemmas Fuel FuelBound Decide.
From Verif.Conformance Require Import Sample.
Open Scope string_scope.
Open Scope list_scope.

Lemma init_stable E n m c raw td w : n <= m -> settles (model_init E (conv_at E n) c raw td w) ->
  model_init E (conv_at E m) c raw td w = model_init E (conv_at E n) c raw td w.
Proof.
  intros L S. destruct (init_mono E _ _ c raw td w (conv_at_mono E n m L)) as [H|H]; [contradiction|now symmetry].
Qed.
Lemma validate_stable E n m c d w : n <= m -> settles_opt (snd (model_validate E (conv_at E n) c d w)) ->
  model_validate E (conv_at E m) c d w = model_validate E (conv_at E n) c d w.
Proof.
  intros L S. destruct (validate_mono E _ _ c d w (conv_at_mono E n m L)) as [H|H]; [contradiction|now symmetry].
Qed.
Lemma import_stable E n m c d raw w : n <= m -> settles_opt (snd (model_import_data E (conv_at E n) c d raw w)) ->
  model_import_data E (conv_at E m) c d raw w = model_import_data E (conv_at E n) c d raw w.
Proof.
  intros L S. destruct (import_data_mono E _ _ c d raw w (conv_at_mono E n m L)) as [H|H]; [contradiction|now symmetry].
Qed.
Lemma export_stable E n m c d x : n <= m -> settles (model_export_top E (export_at E n) c d x) ->
  model_export_top E (export_at E m) c d x = model_export_top E (export_at E n) c d x.
Proof.
  intros L S. destruct (export_top_mono E n m c d x L) as [H|H]; [contradiction|now symmetry].
Qed.
Lemma export_top_exists E c d : calm_env E ->
  exists n0, forall n x, n0 <= n -> settles (model_export_top E (export_at E n) c d x).
Proof.
  intros HE. unfold model_export_top. apply (class_x_settles E).
  intros n f Hi N. apply (export_exists E HE (S (vdepth (atom_value E (VModel c d) n)))); [lia|]. eapply (ca_calm E HE), Hi.
Qed.

Lemma validate_bound E n c m w : calm_env E -> 4 * vdepth (VModel c m) + 4 <= n ->
  settles_opt (snd (model_validate E (conv_at E n) c m w)).
Proof. intros HE. rewrite mdepth_eq. now apply validate_api_settles. Qed.
Lemma import_bound E n c m raw w : calm_env E -> kw_validate w = false ->
  4 * vdepth raw + 4 <= n -> 4 * vdepth (VModel c m) + 4 <= n ->
  settles_opt (snd (model_import_data E (conv_at E n) c m raw w)).
Proof. intros HE. rewrite mdepth_eq. now apply import_data_settles. Qed.
Lemma init_bound E n c raw trusted w : calm_env E -> kw_validate w = false ->
  4 * vdepth raw + 4 <= n -> 4 * vdepth (VDict trusted) + 8 <= n ->
  settles (model_init E (conv_at E n) c raw (VDict trusted) w).
Proof. intros HE Hw H1 H2. apply init_settles; auto. left. eauto. Qed.

(** The sample program is calm. *)
Lemma sample_class (P : cid -> Prop) : P 0%N -> P 1%N -> P 2%N -> (forall c, e_class Esample c = Nothing -> P c) -> forall c, P c.
Proof.
  intros H0 H1 H2 H3 c. destruct c as [|p]; [exact H0|].
  destruct p as [p|[p|p|]|]; auto; apply H3; reflexivity.
Qed.
Lemma non_negative_calm v : settles_opt (non_negative v).
Proof. destruct v; try discriminate. cbn. destruct (z <? 0)%Z; discriminate. Qed.
Lemma int_leaf_calm v : settles (lf_native int_leaf v).
Proof. destruct v; discriminate. Qed.
Ltac calm_leaf_tac :=
  first [ apply calm_leaf; [intros g v Hg; cbn in Hg; repeat (destruct Hg as [<-|Hg]); try contradiction; apply non_negative_calm
                           | first [intros; apply int_leaf_calm | intros; discriminate] | intros; discriminate] ].
Lemma sample_calm : calm_env Esample.
Proof.
  constructor.
  - apply (sample_class (fun c => plain_fields (fields_of Esample c))); try (apply plainb_ok; reflexivity).
    intros c H. unfold fields_of. rewrite H. intros n f [].
  - apply (sample_class (fun c => forall n f, In (n, f) (fields_of Esample c) -> calm Esample (fd_spec f))).
    + intros n f Hi. cbn in Hi. destruct Hi as [[= <- <-]|[[= <- <-]|[]]]; cbn; calm_leaf_tac.
    + intros n f Hi. cbn in Hi. destruct Hi as [[= <- <-]|[[= <- <-]|[[= <- <-]|[[= <- <-]|[]]]]]; cbn; try calm_leaf_tac.
      * apply calm_list; [intros g v []|calm_leaf_tac].
      * apply calm_model. intros g v [].
    + intros n f Hi. cbn in Hi. destruct Hi as [[= <- <-]|[[= <- <-]|[[= <- <-]|[[= <- <-]|[]]]]]; cbn; try calm_leaf_tac.
      apply calm_union; intros m [<-|[<-|[]]]; try exact I.
      * apply calm_leaf; [intros g v [<-|[]]; apply non_negative_calm|apply int_leaf_calm|discriminate].
      * apply calm_leaf; [intros g v []|discriminate|discriminate].
    + intros c H n f. unfold fields_of. rewrite H. intros [].
  - apply (sample_class (fun c => forall n f, In (n, f) (fields_of Esample c) -> holds_values (fd_spec f) = true -> vdepth (fo_default (fs_opts (fd_spec f))) = 0)).
    + intros n f Hi. cbn in Hi. destruct Hi as [[= <- <-]|[[= <- <-]|[]]]; discriminate.
    + intros n f Hi. cbn in Hi. destruct Hi as [[= <- <-]|[[= <- <-]|[[= <- <-]|[[= <- <-]|[]]]]]; reflexivity || discriminate.
    + intros n f Hi. cbn in Hi. destruct Hi as [[= <- <-]|[[= <- <-]|[[= <- <-]|[[= <- <-]|[]]]]]; discriminate.
    + intros c H n f. unfold fields_of. rewrite H. intros [].
  - apply (sample_class (fun c => forall n vf, In (n, vf) (mc_validators (e_class Esample c)) -> forall mut data v, settles_opt (snd (vf mut data v)))).
    + intros n vf [].
    + intros n vf [].
    + intros n vf [[= <- <-]|[]] mut data v. cbn. destruct (dget (k "pin") data) as [[]|]; try discriminate.
      destruct v; try discriminate. destruct (Z.eqb z z0); discriminate.
    + intros c H n vf. rewrite H. intros [].
  - apply (sample_class (fun c => forall cl, mc_claim (e_class Esample c) = Some cl -> forall v, settles (cl v))); try discriminate.
    intros c H cl. rewrite H. discriminate.
Qed.

(** class Chain: next = ModelType('Chain', default={}) *)
Definition Chain : mclass := MC [ fld "next" (o_def (VDict []) (o0 0)) (TModel 0) ] [] [] DEFAULT None.
Definition Echain : env := Env (fun _ => Chain) N.eqb (fun _ => []).
Definition chain_spec : fspec := FS (o_def (VDict []) (o0 0)) (TModel 0).

(** The context of [Chain()]. *)
Definition cx_chain : ictx := kw_ctx kw0 (VDict []).
Lemma chain_ctx : field_ctx Echain cx_chain (k "next") chain_spec = cx_chain.
Proof. reflexivity. Qed.
Lemma chain_new n (fc := cv_field (conv_at Echain n)) (pre := cv_pre (conv_at Echain n)) :
  model_new Echain fc pre 0 (VDict []) cx_chain =
  match fc chain_spec (VDict []) (field_ctx Echain cx_chain (k "next") chain_spec) with
  | Ok w => if is_undef w then Ok (VModel 0 md_empty) else Ok (VModel 0 (MD [] [(k "next", w)] [] None))
  | Raise e => match caught_by_loop e with
               | true => Raise (XData [(k "next", err_node e)]
                   (match e with XData _ pd => [(k "next", VDict pd)] | _ => [(k "next", VDict [])] end))
               | false => Raise e
               end
  end.
Proof.
  unfold model_new. cbn. fold chain_spec. fold fc.
  destruct (fc chain_spec (VDict []) _) as [w|e]; cbn; [destruct (is_undef w); reflexivity|].
  destruct e; reflexivity.
Qed.

Lemma chain_diverges n : cv_field (conv_at Echain n) chain_spec (VDict []) cx_chain = Raise XFuel /\
  cv_field (conv_at Echain (S n)) chain_spec (VDict []) cx_chain = Raise XFuel.
Proof.
  induction n as [|n [IH1 IH2]]; [split; reflexivity|]. split; [exact IH2|].
  cbn [conv_at conv_step cv_field]. unfold field_step. cbn [check_required is_nil].
  change (cv_convert (conv_step Echain (conv_at Echain n)) chain_spec (VDict []) cx_chain = Raise XFuel).
  cbn [conv_step cv_convert]. change (model_new Echain (cv_field (conv_at Echain n)) (cv_pre (conv_at Echain n)) 0 (VDict []) cx_chain = Raise XFuel).
  rewrite chain_new, chain_ctx, IH1. reflexivity.
Qed.
Lemma chain_never_settles n : model_init Echain (conv_at Echain n) 0 VNone (VDict []) kw0 = Raise XFuel.
Proof.
  destruct (chain_diverges n) as [H _]. unfold model_init, model__convert. cbn.
  change (FS (o_def (VDict []) (o0 0)) (TModel 0)) with chain_spec.
  fold cx_chain. 
  match goal with |- context [cv_field (conv_at Echain n) ?a ?b ?c] => change (cv_field (conv_at Echain n) a b c) with (cv_field (conv_at Echain n) chain_spec (VDict []) cx_chain) end.
  rewrite H. reflexivity.
Qed.

Lemma mconv_stable E n m c d raw td w : n <= m -> settles (snd (model__convert E (conv_at E n) c d raw td w)) ->
  model__convert E (conv_at E m) c d raw td w = model__convert E (conv_at E n) c d raw td w.
Proof.
  intros L S. destruct (model__convert_mono E _ _ c d raw td w (conv_at_mono E n m L)) as [H|H]; [contradiction|now symmetry].
Qed.
(** Also when the data is validated afterwards: some limit suffices. *)
Lemma init_exists E c raw td w : calm_env E ->
  exists n0, forall n, n0 <= n -> settles (model_init E (conv_at E n) c raw td w).
Proof.
  intros HE. set (m0 := MD [] [] (match td with VDict d => d | _ => [] end) None).
  set (n1 := 4 * vdepth raw + 4 * mdepth m0 + 4).
  assert (S1 : settles (snd (model__convert E (conv_at E n1) c m0 raw td w))) by (apply mconv_settles; [exact HE|lia|lia]).
  destruct (model__convert E (conv_at E n1) c m0 raw td w) as [m1 rs] eqn:C1. cbn [snd] in S1.
  destruct rs as [data|e].
  - exists (n1 + 4 * mdepth (md_set_converted m1 data) + 4). intros n Hn. unfold model_init. fold m0.
    rewrite (mconv_stable E n1 n) by (try lia; rewrite C1; exact S1). rewrite C1.
    destruct (kw_validate w); [|discriminate].
    pose proof (validate_api_settles E HE n c (md_set_converted m1 data)
      (KW no_mapping (kw_partial w) false (kw_init_values w) (kw_apply_defaults w) (kw_convert w) true (kw_recursive w)) ltac:(lia)) as S2.
    destruct (model_validate _ _ _ _ _) as [m3 oe]. cbn [snd] in S2. destruct oe; [|discriminate]. congruence.
  - exists n1. intros n Hn. unfold model_init. fold m0.
    rewrite (mconv_stable E n1 n) by (try lia; rewrite C1; exact S1). rewrite C1. congruence.
Qed.
Lemma import_exists E c m raw w : calm_env E ->
  exists n0, forall n, n0 <= n -> settles_opt (snd (model_import_data E (conv_at E n) c m raw w)).
Proof.
  intros HE. unfold model_import_data. pose proof (dict_settles E HE (VModel c m)) as S0.
  destruct (py_dict E (VModel c m)) as [td|e]; [|exists 0; intros n _; cbn; congruence].
  set (n1 := 4 * vdepth raw + 4 * mdepth m + 4).
  assert (S1 : settles (snd (model__convert E (conv_at E n1) c m raw (VDict td) w))) by (apply mconv_settles; [exact HE|lia|lia]).
  destruct (model__convert E (conv_at E n1) c m raw (VDict td) w) as [m1 rs] eqn:C1. cbn [snd] in S1.
  destruct rs as [data|e].
  - exists (n1 + 4 * mdepth (md_set_converted m1 (dupdate (md_converted m1) data)) + 4). intros n Hn.
    rewrite (mconv_stable E n1 n) by (try lia; rewrite C1; exact S1). rewrite C1.
    destruct (kw_validate w); [|discriminate]. apply validate_api_settles; [exact HE|lia].
  - exists n1. intros n Hn.
    rewrite (mconv_stable E n1 n) by (try lia; rewrite C1; exact S1). rewrite C1. cbn. congruence.
Qed.
