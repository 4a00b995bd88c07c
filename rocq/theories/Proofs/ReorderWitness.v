(** The order of the fields in a class: import then export, and examples. *)
From Coq Require Import Permutation.
From Verif.Model Require Import Py Core Export Api.
From Verif.Spec Require Import ImportSpec ValidateSpec ExportSpec DeepSpec PrimitiveSpec OrderSpec ReorderSpec.
From Verif.Proofs Require Import DictLemmas OrderFacts OrderMain OrderExport ReorderFacts ReorderMain ReorderFit ReorderExport
  PrimitiveFacts ExportWitness PrimitiveWitness OrderWitness.
From Verif.Conformance Require Import Sample TypeSample.
Open Scope string_scope.
Open Scope list_scope.

Theorem reorder_import_export K E E' x : blind_env K E -> reordered E E' -> steady_env E -> blind_export K E x -> tidy_env E ->
  (forall c, e_issub E c c = true) -> (forall c n f, In (n, f) (fields_of E c) -> monomorphic (fd_spec f)) ->
  forall j n c d w m, kw_validate w = false -> kw_mapping w = no_mapping -> kw_convert w = true ->
  sound_value K (VDict d) -> instance_free (VDict d) ->
  model_init E (conv_at E j) c (VDict d) (VDict []) w = Ok m -> clean (VModel c m) ->
  exists m', model_init E' (conv_at E' j) c (VDict d) (VDict []) w = Ok m' /\
    agree (keyed K (alike K)) (model_export_top E (export_at E n) c m x) (model_export_top E' (export_at E' n) c m' x).
Proof.
  intros HE HR HS HX T S M j n c d w m W1 W2 W3 A Fd I C.
  assert (fit_input E c (VDict d)) as Fr by now apply free_layer.
  assert (fit_input E c (VDict [])) as Ft by (intros ? ? ? ? []).
  pose proof (init_same K E E' HE HR HS _ _ (conv_at_same K E E' HE HR HS j) c (VDict d) (VDict d) (VDict []) (VDict []) w A
    (al_dict _ _ _ (keyed_nil _ _)) W2 W1 Fr Ft) as R.
  rewrite I in R. inversion R as [a b H Q1 Q2|]. subst. exists b. split; [reflexivity|].
  eapply export_top_same; try eassumption. eapply init_typed; eassumption.
Qed.

(** Plain data: Model(data), then validate(). *)
Theorem reorder_import_validate K E E' : blind_env K E -> reordered E E' -> steady_env E -> apart_env E ->
  forall j c d w w2 m, sound_value K (VDict d) -> instance_free (VDict d) ->
  kw_mapping w = no_mapping -> kw_convert w = true -> kw_validate w = false -> kw_mapping w2 = no_mapping ->
  model_init E (conv_at E j) c (VDict d) (VDict []) w = Ok m ->
  exists m', model_init E' (conv_at E' j) c (VDict d) (VDict []) w = Ok m' /\
    let r := model_validate E (conv_at E j) c m w2 in let s := model_validate E' (conv_at E' j) c m' w2 in
    alike_data K (fst r) (fst s) /\ both (alike_exn K) (snd r) (snd s).
Proof.
  intros HE HR HS HA j c d w w2 m A Fd W1 W2 W3 W4 I.
  assert (fit_input E c (VDict d)) as Fr by now apply free_layer.
  pose proof (construct_same K E E' HE HR HS HA j c (VDict d) (VDict d) w A Fr W1 W2) as R.
  rewrite I in R. inversion R as [a b H Q1 Q2|]. subst. exists b. split; [reflexivity|].
  apply (validate_same K E E' HE HR HS _ _ (conv_at_same K E E' HE HR HS j)); try assumption.
  exact (init_fit K E HE HS HA (conv_at E j) c (VDict d) w m (conv_at_fit K E HE HS HA j) Fr W1 W2 W3 I).
Qed.
Lemma plain_construct K E E' : blind_env K E -> reordered E E' -> steady_env E -> apart_env E ->
  forall j c d w, sound_value K (VDict d) -> instance_free (VDict d) -> kw_mapping w = no_mapping -> kw_convert w = true ->
  alike_res K (alike_data K) (model_init E (conv_at E j) c (VDict d) (VDict []) w) (model_init E' (conv_at E' j) c (VDict d) (VDict []) w).
Proof. intros HE HR HS HA j c d w A F W1 W2. apply construct_same; try assumption. now apply free_layer. Qed.

(** The same program with the fields of every class in the opposite order. *)
Definition backwards (mc : mclass) : mclass :=
  MC (rev (mc_fields mc)) (mc_validators mc) (mc_roles mc) (mc_level mc) (mc_claim mc).
Definition reversed (E : env) : env := Env (fun c => backwards (e_class E c)) (e_issub E) (e_subs E).
Lemma reversed_reordered E : reordered E (reversed E).
Proof. constructor; try reflexivity. intros c. apply Permutation_rev. Qed.

Lemma plain_free (o : fopts) : fo_default o = VUndef -> instance_free (fo_default o).
Proof. intros ->. now apply free_atom. Qed.
Lemma cart_steady : steady_env Ecart.
Proof.
  intros c. cbn [Ecart e_class]. destruct c as [|[p|p|]].
  - split; cbn.
    + apply nodupb_ok. reflexivity.
    + intros n f [Q|[]]. injection Q as <- <-. exact I.
    + intros n f [Q|[]]. injection Q as <- <-. now apply plain_free.
    + intros n f g s [Q|[]]. injection Q as <- <-. discriminate.
    + contradiction.
  - split; cbn; try contradiction. constructor.
  - split; cbn; try contradiction. constructor.
  - split; cbn [Cart mc_fields mc_validators].
    + apply nodupb_ok. reflexivity.
    + intros n f [Q|[Q|[Q|[Q|[]]]]]; injection Q as <- <-; exact I.
    + intros n f [Q|[Q|[Q|[Q|[]]]]]; injection Q as <- <-; now apply plain_free.
    + intros n f g s [Q|[Q|[Q|[Q|[]]]]]; injection Q as <- <-; discriminate.
    + intros n vf s d v [Q|[]]. injection Q as <- <-. unfold enough. cbn [fst snd]. split; [reflexivity|].
      intros e. destruct (dget (k "prices") d) as [[]|]; try discriminate. destruct v; try discriminate. destruct (_ <? _)%Z; discriminate.
Qed.
Lemma cart_apart : apart_env Ecart.
Proof.
  intros c. cbn [Ecart e_class]. destruct c as [|[p|p|]]; split; cbn; try contradiction.
  - intros n f n' f' [Q|[]] [Q'|[]]. now injection Q as <- <-; injection Q' as <- <-.
  - intros n f [Q|[]]. injection Q as <- <-. exact I.
  - intros n f n' f' [Q|[Q|[Q|[Q|[]]]]] [Q'|[Q'|[Q'|[Q'|[]]]]]; injection Q as <- <-; injection Q' as <- <-; cbn; intros H; try reflexivity;
      repeat (destruct H as [H|H]; [discriminate H|]); destruct H.
  - intros n f [Q|[Q|[Q|[Q|[]]]]]; injection Q as <- <-; exact I.
Qed.
Lemma cart1_free : instance_free cart1.
Proof.
  assert (forall v, atomic v = true -> made_of (fun v => atomic v = true) v) as A by (intros v H; now apply mo_plain).
  apply mo_dict. intros y v [Q|[Q|[Q|[Q|[]]]]]; injection Q as <- <-; try (now apply A).
  - apply mo_dict. intros y v [Q|[]]. injection Q as <- <-. now apply A.
  - apply mo_dict. intros y v [Q|[Q|[]]]; injection Q as <- <-; now apply A.
  - apply mo_list. intros v [<-|[]]. apply mo_dict. intros y v [Q|[Q|[]]]; injection Q as <- <-; now apply A.
Qed.
Lemma cart1_sound : sound_value text_key cart1.
Proof. unfold sound_value. alike_tac. Qed.

(** class Note: a = BaseType(); b = BaseType().  class Box: names = ListType(BaseType()). *)
Definition Note : mclass := MC [fld "a" (o0 0) (TLeaf any_leaf); fld "b" (o0 0) (TLeaf any_leaf)] [] [] DEFAULT None.
Definition Box : mclass := MC [fld "names" (o0 1) (TList (FS (o_inner (o0 1)) (TLeaf any_leaf)))] [] [] DEFAULT None.
Definition Ebox : env := Env (fun c => match c with 0%N => Note | 1%N => Box | _ => Nothing end) N.eqb (fun _ => []).
Definition a_note : pyval := VModel 0 (MD [] [(k "a", VInt 1); (k "b", VInt 2)] [] None).
Lemma box_blind : blind_env text_key Ebox.
Proof.
  intros c. cbn [Ebox e_class]. destruct c as [|[p|p|]].
  - split; cbn; try contradiction; try discriminate.
    + apply nodupb_ok. reflexivity.
    + intros n f [Q|[Q|[]]]; injection Q as <- <-; exact I.
    + intros n f [Q|[Q|[]]]; injection Q as <- <-; (constructor; [now apply plain_opts|apply any_blind]).
    + intros n f [Q|[Q|[]]]; now injection Q as <- <-.
    + intros n f g [Q|[Q|[]]]; injection Q as <- <-; discriminate.
  - split; cbn; try contradiction; try discriminate. constructor.
  - split; cbn; try contradiction; try discriminate. constructor.
  - split; cbn; try contradiction; try discriminate.
    + apply nodupb_ok. reflexivity.
    + intros n f [Q|[]]; injection Q as <- <-; exact I.
    + intros n f [Q|[]]; injection Q as <- <-. constructor; [now apply plain_opts|]. constructor; [now apply plain_opts|apply any_blind].
    + intros n f [Q|[]]; now injection Q as <- <-.
    + intros n f g [Q|[]]; injection Q as <- <-; discriminate.
Qed.
Lemma box_steady : steady_env Ebox.
Proof.
  intros c. cbn [Ebox e_class]. destruct c as [|[p|p|]].
  - split; cbn; try contradiction.
    + apply nodupb_ok. reflexivity.
    + intros n f [Q|[Q|[]]]; injection Q as <- <-; exact I.
    + intros n f [Q|[Q|[]]]; injection Q as <- <-; now apply plain_free.
    + intros n f g s [Q|[Q|[]]]; injection Q as <- <-; discriminate.
  - split; cbn; try contradiction. constructor.
  - split; cbn; try contradiction. constructor.
  - split; cbn; try contradiction.
    + apply nodupb_ok. reflexivity.
    + intros n f [Q|[]]; injection Q as <- <-; exact I.
    + intros n f [Q|[]]; injection Q as <- <-; now apply plain_free.
    + intros n f g s [Q|[]]; injection Q as <- <-; discriminate.
Qed.
Lemma note_sound : sound_value text_key (VDict [(k "names", a_note)]).
Proof.
  assert (alike text_key a_note a_note) as A.
  { apply al_model; cbn; try apply keyed_nil; [|constructor].
    assert (alike text_key (VDict [(k "a", VInt 1); (k "b", VInt 2)]) (VDict [(k "a", VInt 1); (k "b", VInt 2)])) as H by alike_tac.
    inversion H; subst; [discriminate|assumption]. }
  apply listed_alike; try reflexivity. constructor; [|constructor]. cbn. constructor. exact A.
Qed.
Lemma list_of_names : exists m m',
  model_init Ebox (conv_at Ebox 6) 1 (VDict [(k "names", a_note)]) (VDict []) kw0 = Ok m /\
  model_init (reversed Ebox) (conv_at (reversed Ebox) 6) 1 (VDict [(k "names", a_note)]) (VDict []) kw0 = Ok m' /\
  ~ alike_data text_key m m'.
Proof.
  eexists. eexists. split; [vm_compute; reflexivity|]. split; [vm_compute; reflexivity|].
  intros (_ & C & _). cbn in C. destruct C as [_ (_ & _ & G)]. specialize (G (k "names")). vm_compute in G.
  inversion G as [|a b B]; subst. clear G.
  inversion B as [|l l' F Q1 Q2| | |]; subst. inversion F as [|v w ? ? Q]; subst. inversion Q.
Qed.

(** class Twice: a = IntType(serialized_name="x"); b = StringType(serialized_name="x"). *)
Definition Twice : mclass := MC [fld "a" (o_sname "x" (o0 0)) (TLeaf any_leaf); fld "b" (o_sname "x" (o0 0)) (TLeaf any_leaf)] [] [] DEFAULT None.
Definition Etwice : env := Env (fun _ => Twice) N.eqb (fun _ => []).
Lemma twice_exports : exists m m',
  model_init Etwice (conv_at Etwice 5) 0 (VDict [(k "a", VInt 1); (k "b", VInt 2)]) (VDict []) kw0 = Ok m /\
  model_init (reversed Etwice) (conv_at (reversed Etwice) 5) 0 (VDict [(k "a", VInt 1); (k "b", VInt 2)]) (VDict []) kw0 = Ok m' /\
  model_export_top Etwice (export_at Etwice 5) 0 m xprim = Ok [(k "x", VInt 2)] /\
  model_export_top (reversed Etwice) (export_at (reversed Etwice) 5) 0 m' xprim = Ok [(k "x", VInt 1)].
Proof.
  eexists. eexists. split; [vm_compute; reflexivity|]. split; [vm_compute; reflexivity|]. split; vm_compute; reflexivity.
Qed.
