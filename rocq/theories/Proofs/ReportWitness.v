(** Sample programs for ReportSpec, and the cases in which other exceptions reach the caller. *)
From Verif.Model Require Import Py Core Export Api Equality Text Num Types DateTime Enum Net Mongo.
From Verif.Spec Require Import ImportSpec FuelSpec OrderSpec TypeSpec DateSpec ReportSpec.
From Verif.Proofs Require Import DictLemmas TypeLemmas PrimitiveTypes Fuel FuelBound ReportFacts ReportTypes.
From Verif.Conformance Require Import Sample TypeSample.
Open Scope string_scope.
Open Scope list_scope.

(** An order: a name of at most five characters, a positive quantity, labels, prices by currency, a customer, and a code that
    is a number or a text; validate_qty wants less than 100. *)
Definition few : mvalidator := fun _ d v => (d, match v with VInt z => if (z <? 100)%Z then None else Some (XValid false [u "too many"]) | _ => None end).
Definition Order : mclass := MC
  [fld "name" (o_val [validate_length None (Some 5%Z)] (o_req (o0 0))) (TLeaf string_leaf);
   fld "qty" (o_val [validate_range (Some (VInt 1)) None] (o_def (VInt 1) (o0 0))) (TLeaf (int_type rt0 false));
   fld "labels" (o0 0) (TList (FS (o_inner (o0 0)) (TLeaf string_leaf)));
   fld "prices" (o0 0) (TDict (FS (o_inner (o0 0)) (TLeaf (int_type rt0 false))) (fun y => Ok y));
   fld "customer" (o0 0) (TModel 1);
   fld "code" (o0 0) (TUnion [member_of (int_type rt0 false) []; member_of string_leaf []])]
  [(k "qty", few)] [] DEFAULT None.
Definition Customer : mclass := MC [fld "mail" (o_req (o0 1)) (TLeaf string_leaf)] [] [] DEFAULT None.
Definition Eorder : env := Env (fun c => if N.eqb c 0 then Order else if N.eqb c 1 then Customer else Nothing) N.eqb (fun _ => []).
Lemma order_cases (P : cid -> Prop) : P 0%N -> P 1%N -> (forall c, c <> 0%N -> c <> 1%N -> P c) -> forall c, P c.
Proof. intros H0 H1 H2 c. destruct (N.eq_dec c 0) as [->|]; [exact H0|]. destruct (N.eq_dec c 1) as [->|]; [exact H1|auto]. Qed.
Lemma order_other c : c <> 0%N -> c <> 1%N -> fields_of Eorder c = [].
Proof. intros A B. unfold fields_of, Eorder. cbn. destruct (N.eqb_spec c 0); [congruence|]. destruct (N.eqb_spec c 1); [congruence|]. reflexivity. Qed.
Lemma order_other_v c : c <> 0%N -> c <> 1%N -> mc_validators (e_class Eorder c) = [].
Proof. intros A B. unfold Eorder. cbn. destruct (N.eqb_spec c 0); [congruence|]. destruct (N.eqb_spec c 1); [congruence|]. reflexivity. Qed.
Section Sample.
  Context (A : pyval -> Prop) (cl : bool).
  Hypothesis HA : forall s, A (VStr s).
  Hypothesis Hd : A (VInt 1).
  Hypothesis Hl : forall l v, l = string_leaf \/ l = int_type rt0 false -> built A v -> v <> VNone -> keeps A cl (lf_native l v).
  Lemma leaf_re o l : (l = string_leaf \/ l = int_type rt0 false) -> (forall g, In g (fo_validators o) -> own_check rt0 Eorder l g) ->
    reporting A cl Eorder true (FS o (TLeaf l)).
  Proof. intros H Hg. constructor; [intros; now apply Hl|]. intros _. now apply (library_checks rt0). Qed.
  Lemma none_sound f : fo_validators (fs_opts f) = [] -> sound_validators A cl Eorder f.
  Proof. intros H g v e. rewrite H. intros []. Qed.
  Lemma order_reporting : reporting_env A cl Eorder true.
  Proof.
    constructor.
    - apply (order_cases (fun c => NoDup (dkeys (fields_of Eorder c)))); [| |intros c H1 H2; rewrite (order_other c H1 H2); constructor];
        cbn; repeat constructor; cbn; intuition discriminate.
    - apply (order_cases (fun c => no_setters (fields_of Eorder c))); [| |intros c H1 H2; rewrite (order_other c H1 H2); intros ? ? []];
        intros n f Hi; cbn in Hi; repeat (destruct Hi as [[= <- <-]|Hi]; [reflexivity|]); destruct Hi.
    - assert (G : forall c n f, In (n, f) (fields_of Eorder c) -> fd_get f = None).
      { apply (order_cases (fun c => forall n f, In (n, f) (fields_of Eorder c) -> fd_get f = None));
          [| |intros c H1 H2; rewrite (order_other c H1 H2); intros ? ? []];
          intros n f Hi; cbn in Hi; repeat (destruct Hi as [[= <- <-]|Hi]; [reflexivity|]); destruct Hi. }
      intros c n f g Hi Hg. rewrite (G c n f Hi) in Hg. discriminate Hg.
    - apply (order_cases (fun c => forall n f, In (n, f) (fields_of Eorder c) -> A (key_val n)));
        [| |intros c H1 H2; rewrite (order_other c H1 H2); intros ? ? []];
        intros n f Hi; cbn in Hi; repeat (destruct Hi as [[= <- <-]|Hi]; [apply HA|]); destruct Hi.
    - apply (order_cases (fun c => forall n f, In (n, f) (fields_of Eorder c) -> reporting A cl Eorder true (fd_spec f)));
        [| |intros c H1 H2; rewrite (order_other c H1 H2); intros ? ? []];
        intros n f Hi; cbn in Hi.
      + destruct Hi as [[= <- <-]|Hi]; [apply leaf_re; [auto|]; intros g [<-|[]]; constructor|].
        destruct Hi as [[= <- <-]|Hi]; [apply leaf_re; [auto|]; intros g [<-|[]]; constructor; intros m [[= <-]|[=]]; discriminate|].
        destruct Hi as [[= <- <-]|Hi]; [constructor; [apply leaf_re; [auto|intros g []]|intros _; now apply none_sound]|].
        destruct Hi as [[= <- <-]|Hi]; [constructor; [apply leaf_re; [auto|intros g []]|discriminate|intros _; now apply none_sound]|].
        destruct Hi as [[= <- <-]|Hi]; [constructor; intros _; now apply none_sound|].
        destruct Hi as [[= <- <-]|Hi]; [constructor; intros m [<-|[<-|[]]]; (apply leaf_re; [auto|intros g []])|]. destruct Hi.
      + destruct Hi as [[= <- <-]|[]]. apply leaf_re; [auto|intros g []].
    - apply (order_cases (fun c => forall n f, In (n, f) (fields_of Eorder c) -> fo_default (fs_opts (fd_spec f)) <> VUndef ->
          built A (fo_default (fs_opts (fd_spec f)))));
        [| |intros c H1 H2; rewrite (order_other c H1 H2); intros ? ? []];
        intros n f Hi; cbn in Hi; repeat (destruct Hi as [[= <- <-]|Hi]; [try (intros Q; destruct (Q eq_refl); fail)|]); try destruct Hi.
      intros _. apply bu_atom; [reflexivity|discriminate|exact Hd|discriminate].
    - intros _. apply (order_cases (fun c => forall n vf, In (n, vf) (mc_validators (e_class Eorder c)) -> forall mut d v,
        (cl = true -> all_built A d) -> let '(d1, oe) := vf mut d v in
        (forall y, dmem y d = true -> dmem y d1 = true) /\ (cl = true -> all_built A d1) /\
        match oe with None => True | Some e => mv_caught e <> None end));
        [| |intros c H1 H2; rewrite (order_other_v c H1 H2); intros ? ? []];
        intros n vf Hi; cbn in Hi; [|destruct Hi].
      destruct Hi as [[= <- <-]|[]]. intros mut d v Hb. unfold few. split; [auto|]. split; [exact Hb|].
      destruct v; try exact I. destruct (Z.ltb z 100); [exact I|discriminate].
  Qed.
End Sample.
Lemma order_json : reporting_env json_atom false Eorder true.
Proof.
  apply order_reporting; [exact (fun _ => I)|cbn; eexists; vm_compute; reflexivity|]. intros l v H. apply (json_types rt0). left. destruct H as [->| ->]; constructor.
Qed.
Lemma order_any : reporting_env no_infinity true Eorder true.
Proof.
  apply order_reporting; [discriminate|discriminate|]. intros l v H. apply (closed_types rt0). destruct H as [->| ->]; constructor.
Qed.

(** ** With enough stack *)
Theorem init_only_data_error A cl E vb : reporting_env A cl E vb -> calm_env E -> forall n c raw td w,
  kw_convert w = true -> kw_validate w = false -> built A raw -> (truthy raw = true -> a_mapping raw) -> all_built A td ->
  4 * vdepth raw + 4 <= n -> 4 * vdepth (VDict td) + 8 <= n ->
  match model_init E (conv_at E n) c raw (VDict td) w with Ok _ => True | Raise e => exists errs d, e = XData errs d end.
Proof.
  intros HE HC n c raw td w Hc Hv Hr Mr Ht N1 N2.
  pose proof (init_reports A cl E vb HE n c raw td w Hc ltac:(congruence) Hr Mr Ht) as K.
  pose proof (init_settles E HC n c raw (VDict td) w Hv N1 (or_introl (ex_intro _ td (conj eq_refl N2)))) as S.
  destruct (model_init _ _ _ _ _ _) as [m|e]; [exact I|]. destruct K as [K| ->]; [exact K|congruence].
Qed.
Theorem validate_only_data_error A cl E : reporting_env A cl E true -> calm_env E -> forall n c m w,
  kw_convert w = true -> built_data A m -> 4 * vdepth (VModel c m) + 4 <= n ->
  match snd (model_validate E (conv_at E n) c m w) with None => True | Some e => exists errs d, e = XData errs d end.
Proof.
  intros HE HC n c m w Hc Hm N1.
  pose proof (validate_reports A cl E true HE n c m w Hc eq_refl Hm) as K.
  rewrite (mdepth_eq c m) in N1. pose proof (validate_api_settles E HC n c m w N1) as S.
  destruct (model_validate _ _ _ _ _) as [m1 oe]. cbn [snd] in *. destruct K as [K _]. destruct oe as [e|]; [|exact I].
  destruct K as [K| ->]; [exact K|congruence].
Qed.
Ltac each := repeat match goal with H : _ \/ _ |- _ => destruct H as [H|H] | H : False |- _ => destruct H | H : @eq (_ * _) _ (_, _) |- _ => injection H as <- <- end.
Lemma string_settles v : settles (string_native v).
Proof. intros H. destruct v; cbn in H; try discriminate H. destruct (utf8_decode _) in H; discriminate H. Qed.
Lemma int_settles v : settles (int_native rt0 false v).
Proof.
  intros H. destruct (basic_errors rt0 (int_type rt0 false) v XFuel (bl_int rt0 false) H) as [(ms & [Q|[Q|Q]])|[(? & ? & _ & _ & Q)|[(? & _ & _ & _ & Q)|(_ & _ & Q)]]]; discriminate Q.
Qed.
Lemma order_calm : calm_env Eorder.
Proof.
  assert (V1 : forall v, settles_opt (validate_length None (Some 5%Z) v)).
  { intros v H. unfold validate_length in H. destruct v; cbn in H; try discriminate H; brk; try discriminate H; destruct (5 <? _)%Z in H; discriminate H. }
  assert (V2 : forall v, settles_opt (validate_range (Some (VInt 1)) None v)).
  { intros v H. unfold validate_range, py_lt in H. destruct (num_of v); cbn in H; [|discriminate H]. destruct (num_ltb _ _); discriminate H. }
  assert (LS : forall o, (forall g v, In g (fo_validators o) -> settles_opt (g v)) -> calm Eorder (FS o (TLeaf string_leaf))).
  { intros o H. constructor; [exact H|exact string_settles|discriminate]. }
  assert (LI : forall o, (forall g v, In g (fo_validators o) -> settles_opt (g v)) -> calm Eorder (FS o (TLeaf (int_type rt0 false)))).
  { intros o H. constructor; [exact H|exact int_settles|discriminate]. }
  constructor.
  - apply (order_cases (fun c => plain_fields (fields_of Eorder c))); [| |intros c H1 H2; rewrite (order_other c H1 H2); intros ? ? []];
      intros n f Hi; cbn in Hi; each; split; reflexivity.
  - apply (order_cases (fun c => forall n f, In (n, f) (fields_of Eorder c) -> calm Eorder (fd_spec f)));
      [| |intros c H1 H2; rewrite (order_other c H1 H2); intros ? ? []]; intros n f Hi; cbn in Hi; each; cbn [fd_spec].
    + apply LS. intros g v [<-|[]]. apply V1.
    + apply LI. intros g v [<-|[]]. apply V2.
    + constructor; [intros g v []|]. apply LS. intros g v [].
    + constructor; [intros g v []| |discriminate]. apply LI. intros g v [].
    + constructor. intros g v [].
    + constructor; intros m [<-|[<-|[]]]; try exact I; [apply LI|apply LS]; intros g v [].
    + apply LS. intros g v [].
  - apply (order_cases (fun c => forall n f, In (n, f) (fields_of Eorder c) -> holds_values (fd_spec f) = true -> vdepth (fo_default (fs_opts (fd_spec f))) = 0));
      [| |intros c H1 H2; rewrite (order_other c H1 H2); intros ? ? []]; intros n f Hi; cbn in Hi; each; intros; reflexivity || discriminate.
  - apply (order_cases (fun c => forall n vf, In (n, vf) (mc_validators (e_class Eorder c)) -> forall mut data v, settles_opt (snd (vf mut data v))));
      [| |intros c H1 H2; rewrite (order_other_v c H1 H2); intros ? ? []]; intros n vf Hi; cbn in Hi; each.
    intros mut data v. unfold few. cbn [snd]. destruct v; try discriminate. destruct (Z.ltb z 100); discriminate.
  - intros c cl. unfold Eorder. cbn. destruct (N.eqb c 0); [discriminate|]. destruct (N.eqb c 1); discriminate.
Qed.

(** ** Other exceptions *)

(** A top level value that is not a mapping. *)
Lemma not_a_mapping_witness : exists E c v, reporting_env json_atom false E true /\ json_atom v /\
  forall n w, model_init E (conv_at E n) c v (VDict []) w = Raise (XPy ETypeError).
Proof. exists Eorder, 0%N, (VInt 5). split; [exact order_json|]. split; [cbn; eexists; vm_compute; reflexivity|]. intros n w. reflexivity. Qed.
(** import_data(..., validate=True) on an instance that holds an instance. *)
Lemma import_validate_witness : exists E c m raw w e, reporting_env json_atom false E true /\ reporting_env no_infinity true E true /\
  calm_env E /\ built_data json_atom m /\ kw_convert w = true /\ kw_validate w = true /\ built json_atom (VDict raw) /\
  snd (model_import_data E (conv_at E 9) c m (VDict raw) w) = Some e /\ e = XPy EAttributeError.
Proof.
  exists Eorder, 0%N, (MD [] [(k "name", VStr (u "ann")); (k "customer", VModel 1 (MD [] [(k "mail", VStr (u "a@b"))] [] None))] [] None),
    [(k "qty", VInt 2)], kwv. eexists. split; [exact order_json|]. split; [exact order_any|]. split; [exact order_calm|].
  assert (St : forall s, built json_atom (VStr s)) by (intros s; apply bu_atom; [reflexivity|discriminate|exact I|discriminate]).
  split.
  { repeat split; intros n v Hi; cbn in Hi; each; try apply St.
    apply bu_model; intros n v Hi; cbn in Hi; each; apply St. }
  split; [reflexivity|]. split; [reflexivity|]. split.
  { apply bu_dict. intros n v [[= <- <-]|[]]. apply bu_atom; [reflexivity|discriminate|cbn; eexists; vm_compute; reflexivity|discriminate]. }
  split; [vm_compute; reflexivity|reflexivity].
Qed.
(** One field of the type. *)
Definition Eone (t : ftype) : env := Env (fun c => if N.eqb c 0 then MC [fld "x" (o0 0) t] [] [] DEFAULT None else Customer) N.eqb (fun _ => []).
(** A number for a UUID, infinity for an integer, a huge integer for a float, a huge number as text for a date. *)
Lemma types_witness :
  model_init (Eone (TLeaf (uuid_type rt0))) (conv_at (Eone (TLeaf (uuid_type rt0))) 9) 0 (VDict [(k "x", VInt 5)]) (VDict []) kw1 = Raise (XPy EAttributeError) /\
  model_init (Eone (TLeaf (int_type rt0 false))) (conv_at (Eone (TLeaf (int_type rt0 false))) 9) 0 (VDict [(k "x", VFloat (S754_infinity false))]) (VDict []) kw1 = Raise (XPy EOverflowError) /\
  model_init (Eone (TLeaf (float_type rt0))) (conv_at (Eone (TLeaf (float_type rt0))) 9) 0 (VDict [(k "x", VInt (2 ^ 1024))]) (VDict []) kw1 = Raise (XPy EOverflowError) /\
  model_init (Eone (TLeaf (utc_type rt0))) (conv_at (Eone (TLeaf (utc_type rt0))) 9) 0 (VDict [(k "x", VStr (u "1e300"))]) (VDict []) kw1 = Raise (XPy EOverflowError) /\
  let p := Poly [1%N] false None in
  model_init (Eone (TPoly p)) (conv_at (Eone (TPoly p)) 9) 0 (VDict [(k "x", VInt 5)]) (VDict []) kw1 = Raise (XData [(k "x", NConv [m_poly_input])] []) /\
  model_init (Eone (TPoly p)) (conv_at (Eone (TPoly p)) 9) 0 (VDict [(k "x", VInt 5)]) (VDict []) kwv = Raise (XPy ETypeError).
Proof. repeat split; vm_compute; reflexivity. Qed.
