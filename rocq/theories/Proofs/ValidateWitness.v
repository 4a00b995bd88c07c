(** Corollaries and counterexamples for validation. *)
From Verif.Model Require Import Py Core Export Api.
From Verif.Spec Require Import ImportSpec ValidateSpec IdemSpec.
From Verif.Proofs Require Import DictLemmas ImportLemmas ApiLemmas ImportApi ValidateLemmas Idem Decide.
From Verif.Conformance Require Import Sample.

Lemma validate_ok_clean E r c m w :
  NoDup (dkeys (fields_of E c)) -> plain_fields (fields_of E c) -> defined_layers m ->
  NoDup (dkeys (md_converted m)) -> (md_converted m <> [] \/ kw_partial w = false) ->
  readonly_validators (mc_validators (e_class E c)) ->
  forall m', model_validate E r c m w = (m', None) ->
  md_unsafe m' = [] /\ md_converted m' = [] /\
  (forall y, ~ In y (dkeys (fields_of E c)) -> chain_get m' y = None) /\
  (forall n f e, In (n, f) (fields_of E c) ->
     ~ objects (mc_validators (e_class E c)) (vmut E c m) (md_valid m') n e).
Proof.
  intros Hnd Hp Hd Hk Hr Hro m' H.
  assert (Ho := validate_ok_other E r c m w Hnd Hp Hd Hk Hr Hro m').
  pose proof (validate_ok E r c m w Hnd Hp Hd Hk Hr Hro m' H) as (data & -> & L & K).
  repeat split; auto.
Qed.

Lemma validate_crash_ro E r c m w :
  NoDup (dkeys (fields_of E c)) -> plain_fields (fields_of E c) -> defined_layers m ->
  NoDup (dkeys (md_converted m)) -> (md_converted m <> [] \/ kw_partial w = false) ->
  readonly_validators (mc_validators (e_class E c)) ->
  forall m' e y, model_validate E r c m w = (m', Some e) -> (forall er p, e <> XData er p) ->
  chain_get m' y = dget y (md_valid m).
Proof. intros. eapply validate_crash; eassumption. Qed.

Lemma conversion_idem E : steady_env E -> forall x, plain_ctx x -> forall j f, steady E f ->
  forall v w, cv_field (conv_at E j) f v x = Ok w -> cv_field (conv_at E j) f w x = Ok w.
Proof. intros HE x Hx j f Hf v w H. apply (idem_all E HE x Hx j f Hf) in H. apply H. Qed.

Lemma validate_iter E : tidy_env E -> forall j c w, kw_mapping w = no_mapping -> kw_convert w = true ->
  steady_env E -> data_validators (mc_validators (e_class E c)) ->
  forall m m' n, defined_layers m -> NoDup (dkeys (md_converted m)) ->
  model_validate E (conv_at E j) c m w = (m', None) ->
  Nat.iter n (fun s => fst (model_validate E (conv_at E j) c s w)) m' = m' /\
  snd (model_validate E (conv_at E j) c (Nat.iter n (fun s => fst (model_validate E (conv_at E j) c s w)) m') w) = None.
Proof.
  intros HT j c w Hm Hc HE Hdv m m' n Hd Hk H.
  pose proof (validate_idem E HT j c w Hm Hc HE Hdv m m' Hd Hk H) as H2.
  assert (I : Nat.iter n (fun s => fst (model_validate E (conv_at E j) c s w)) m' = m').
  { induction n as [|n IHn]; [reflexivity|]. cbn [Nat.iter nat_rect]. unfold Nat.iter in IHn |- *. cbn [nat_rect]. rewrite IHn, H2. reflexivity. }
  rewrite I, H2. auto.
Qed.

Lemma lazy_partial_witness :
  exists E c m w m' n f v,
    NoDup (dkeys (fields_of E c)) /\ plain_fields (fields_of E c) /\ kw_convert w = true /\
    model_validate E (conv_at E 5) c m w = (m', None) /\
    In (n, f) (fields_of E c) /\ chain_get m' n = Some v /\ v <> VNone /\
    exists g, In g (fo_validators (fs_opts (fd_spec f))) /\ ~ passes g v.
Proof.
  exists Esample, 1%N, (MD [(k "age", VInt (-1))] [] [] None), (KW no_mapping true false false false true true false).
  exists (MD [(k "age", VInt (-1))] [] [] None), (k "age").
  exists (Fld (FS (o_val [non_negative] (o_def (VInt 18) (o0 1))) (TLeaf int_leaf)) None None), (VInt (-1)).
  split; [now apply nodupb_ok|]. split; [now apply plainb_ok|]. do 2 (split; [reflexivity|]).
  split; [right; left; reflexivity|]. split; [reflexivity|]. split; [discriminate|].
  exists non_negative. split; [left; reflexivity|discriminate].
Qed.

(** a = Int(deserialize_from="b"); b = Int(default=5) *)
Definition Eshare : env :=
  Env (fun c => match c with
                | 0%N => MC [ fld "a" (o_from ["b"%string] (o0 0)) (TLeaf int_leaf);
                              fld "b" (o_def (VInt 5) (o0 0)) (TLeaf int_leaf) ] [] [] DEFAULT None
                | _ => Nothing end) N.eqb (fun _ => []).
Lemma shared_names_witness :
  exists E c m w m' m'', tidy_env E /\ (forall c n f, In (n, f) (fields_of E c) -> steady E (fd_spec f)) /\
    kw_mapping w = no_mapping /\ kw_convert w = true /\ defined_layers m /\ NoDup (dkeys (md_converted m)) /\
    model_validate E (conv_at E 5) c m w = (m', None) /\ model_validate E (conv_at E 5) c m' w = (m'', None) /\
    exists n, chain_get m' n <> chain_get m'' n.
Proof.
  exists Eshare, 0%N, (MD [] [] [] None), (KW no_mapping false false false true true true false).
  eexists; eexists. split.
  { constructor.
    - intros c. apply nodupb_ok. destruct c; reflexivity.
    - intros c. apply plainb_ok. destruct c; reflexivity.
    - intros c n vf H. destruct c; destruct H. }
  split.
  { intros c n f H. assert (I : steady_leaf int_leaf).
    { intros v w Nv. cbn. destruct v as [| |b|z|g|s|s|l|l|d|c' m|d|d t off|us|n'|co ex|c' n' v|n']; intros [= <-]; split; reflexivity. }
    destruct c; [|destruct H]. repeat (destruct H as [[= <- <-]|H]; [exact I|]). destruct H. }
  do 2 (split; [reflexivity|]). split; [repeat split; intros y; discriminate|]. split; [constructor|].
  split; [reflexivity|]. split; [reflexivity|]. exists (k "a"). vm_compute. discriminate.
Qed.

(** The sample program's Address with a text for the zip code, validated without conversion. *)
Lemma unconverted_witness : exists E c d w m n f v, tidy_env E /\ (forall c, e_issub E c c = true) /\ defined_dict d /\
  kw_validate w = true /\ model_init E (conv_at E 9) c (VDict d) (VDict []) w = Ok m /\
  In (n, f) (fields_of E c) /\ chain_get m n = Some v /\ ~ sound E (kw_partial w) true (fd_spec f) v.
Proof.
  exists Esample, 0%N, [(k "street", VStr (u "Main")); (k "zip", VStr (u "abc"))], (KW no_mapping false true true true false true false).
  eexists. exists (k "zip"), (snd (fld "zip" (o_from ["postcode"] (o_sname "ZIP" (o0 0))) (TLeaf int_leaf))), (VStr (u "abc")).
  split.
  { constructor.
    - intros c. apply nodupb_ok. destruct c as [|[[]|[]|]]; reflexivity.
    - intros c. apply plainb_ok. destruct c as [|[[]|[]|]]; reflexivity.
    - intros c n vf H. destruct c as [|[[]|[[]|[]|]|]]; cbn in H; try contradiction.
      destruct H as [[= <- <-]|[]]. reflexivity. }
  split; [intros c; apply N.eqb_refl|]. split; [apply definedb_ok; reflexivity|]. split; [reflexivity|].
  split; [vm_compute; reflexivity|]. split; [right; left; reflexivity|]. split; [reflexivity|].
  intros S. inversion S as [? ? N|? ? F]; subst; [discriminate N|]. inversion F as [? ? ? Sh]; subst.
  inversion Sh as [l w0 v0 Hn| | | | | |]; subst. destruct w0; discriminate Hn.
Qed.
