(** Reordered dictionaries: permutations, and examples. *)
From Coq Require Import Lia Permutation.
From Verif.Model Require Import Py Text Core Export Api Num Equality Types DateTime Enum Net.
From Verif.Spec Require Import ImportSpec ValidateSpec ExportSpec DeepSpec PrimitiveSpec TypeSpec DateSpec OrderSpec.
From Verif.Proofs Require Import DictLemmas OrderFacts OrderMain OrderExport OrderTypes PrimitiveFacts ExportWitness PrimitiveWitness.
From Verif.Conformance Require Import Sample TypeSample.
Open Scope string_scope.
Open Scope list_scope.

Lemma dget_NoDup {A} x (v : A) d : NoDup (dkeys d) -> In (x, v) d -> dget x d = Some v.
Proof.
  induction d as [|[y w] d IH]; cbn [dkeys map fst dget]; [contradiction|]. intros N [Q|I].
  - injection Q as -> ->. now rewrite key_eqb_refl.
  - inversion N as [|? ? Hy N']; subst. destruct (key_eqb x y) eqn:E; [|auto]. apply key_eqb_eq in E as ->. destruct Hy.
    apply in_map_iff. now exists (y, v).
Qed.
Lemma permuted_get {A} (d e : list (key * A)) x : Permutation d e -> NoDup (dkeys d) -> dget x e = dget x d.
Proof.
  intros P N. assert (N' : NoDup (dkeys e)) by (eapply Permutation_NoDup; [apply Permutation_map; eassumption|assumption]).
  destruct (dget x d) as [v|] eqn:D.
  - apply dget_In in D. apply dget_NoDup; [assumption|]. eapply Permutation_in; eassumption.
  - destruct (dget x e) as [v|] eqn:F; [|reflexivity]. apply dget_In in F. apply Permutation_sym in P.
    rewrite (dget_NoDup x v d N (Permutation_in _ P F)) in D. discriminate.
Qed.
(** The entries of a dictionary in another order. *)
Theorem permuted_alike K d e : Permutation d e -> sound_value K (VDict d) -> alike K (VDict d) (VDict e).
Proof.
  intros P S. unfold sound_value in S. apply al_dict. inversion S as [? A| | |? ? (HK & N & _ & G)|]; subst; [discriminate|].
  split; [assumption|]. split; [assumption|]. split.
  - eapply Permutation_NoDup; [apply Permutation_map; eassumption|assumption].
  - intros x. rewrite (permuted_get d e x P N). apply G.
Qed.
Theorem import_export_same K E x : blind_env K E -> blind_export K E x -> tidy_env E ->
  (forall c, e_issub E c c = true) -> (forall c n f, In (n, f) (fields_of E c) -> monomorphic (fd_spec f)) ->
  forall j n c d e w m, kw_validate w = false -> kw_mapping w = no_mapping -> kw_convert w = true ->
  alike K (VDict d) (VDict e) ->
  model_init E (conv_at E j) c (VDict d) (VDict []) w = Ok m -> clean (VModel c m) ->
  exists m', model_init E (conv_at E j) c (VDict e) (VDict []) w = Ok m' /\
    agree (keyed K (alike K)) (model_export_top E (export_at E n) c m x) (model_export_top E (export_at E n) c m' x).
Proof.
  intros HE HX T S M j n c d e w m W1 W2 W3 A I C.
  pose proof (init_same K E HE (conv_at E j) (conv_at_same K E HE j) c (VDict d) (VDict e) (VDict []) (VDict []) w A (al_dict _ _ _ (keyed_nil _ _))) as R.
  rewrite I in R. inversion R as [a b H Q1 Q2|]. subst. exists b. split; [reflexivity|].
  apply export_top_same; [assumption|assumption|assumption|]. eapply init_typed; eassumption.
Qed.

(** Tests. *)
Fixpoint nodupb (l : list key) : bool := match l with [] => true | x :: r => negb (existsb (key_eqb x) r) && nodupb r end.
Lemma nodupb_ok l : nodupb l = true -> NoDup l.
Proof.
  induction l as [|x r IH]; cbn; [constructor|]. intros H. apply andb_true_iff in H as [H1 H2]. constructor; [|auto].
  intros I. apply negb_true_iff in H1. assert (existsb (key_eqb x) r = true); [|congruence].
  apply existsb_exists. exists x. split; [assumption|apply key_eqb_refl].
Qed.
Definition is_text (x : key) : bool := match x with KStr _ => true | KInt _ => false end.
Lemma is_text_ok l : forallb is_text l = true -> forall x, In x l -> text_key x.
Proof. rewrite forallb_forall. intros H x I. specialize (H x I). now destruct x. Qed.

(** class Cart: buyer = ModelType(Buyer); prices = DictType(IntType()); extra = BaseType(); count = IntType(), which is
    checked against prices; the role "public" hides count. *)
Definition enough : mvalidator := fun _ data v =>
  (data, match dget (k "prices") data, v with
         | Some (VDict d), VInt n => if (Z.of_nat (length d) <? n)%Z then Some (XValid false [u "too many"]) else None
         | _, _ => None
         end).
Definition Cart : mclass :=
  MC [ fld "buyer" (o0 1) (TModel 0);
       fld "prices" (o0 1) (TDict (FS (o_inner (o0 1)) (TLeaf (int_type rt0 false))) (fun x => Ok x));
       fld "extra" (o0 1) (TLeaf any_leaf);
       fld "count" (o_sname "n" (o_req (o0 1))) (TLeaf (int_type rt0 false)) ]
     [(k "count", enough)] [(k "public", fun n _ => key_eqb n (k "count"))] DEFAULT None.
Definition Ecart : env :=
  Env (fun c => match c with 0%N => Buyer | 1%N => Cart | _ => Nothing end) N.eqb (fun _ => []).

Lemma plain_opts (o : fopts) : fo_default o = VUndef -> fo_validators o = [] -> blind_opts text_key o.
Proof. intros D V. split; [rewrite D; now apply al_atom|rewrite V; constructor]. Qed.
Lemma any_blind K : blind K (alike K) (lf_native any_leaf).
Proof. intros v w H. now constructor. Qed.
Lemma enough_blind K : blind_model_validator K enough.
Proof.
  intros s t d e v w Hs Hd H. unfold enough. cbn [fst snd]. split; [assumption|]. destruct Hd as [_ He].
  destruct (entries_get _ _ _ (k "prices") He) as [|a b Hab]; [constructor|].
  destruct Hab as [a A|l m F|l m F|d' e' [_ F]|c m n U V W Z]; try constructor; [destruct a; try discriminate; constructor|].
  destruct H as [v A|l m F'|l m F'|d'' e'' F'|c m n U V W Z]; try constructor. destruct v; try constructor.
  rewrite (entries_length _ _ _ F). destruct (_ <? _)%Z; constructor. constructor.
Qed.
Lemma text_keeps_apart : keeps_apart text_key (fun x => Ok x).
Proof. split; [intros x Hx; now constructor|]. intros x y z _ _ [= ->] [= ->]. reflexivity. Qed.
Lemma cart_blind : blind_env text_key Ecart.
Proof.
  intros c. cbn [Ecart e_class]. destruct c as [|[p|p|]].
  - split; cbn.
    + apply nodupb_ok. reflexivity.
    + intros n f [Q|[]]. injection Q as <- <-. exact I.
    + intros n f [Q|[]]. injection Q as <- <-. constructor; [now apply plain_opts|]. apply (common_blind rt0). constructor.
    + intros n f [Q|[]]. now injection Q as <- <-.
    + intros n f g [Q|[]]. injection Q as <- <-. discriminate.
    + contradiction.
    + discriminate.
  - split; cbn; try contradiction; try discriminate. constructor.
  - split; cbn; try contradiction; try discriminate. constructor.
  - split; cbn [Cart mc_fields mc_validators mc_claim].
    + apply nodupb_ok. reflexivity.
    + intros n f [Q|[Q|[Q|[Q|[]]]]]; injection Q as <- <-; exact I.
    + intros n f [Q|[Q|[Q|[Q|[]]]]]; injection Q as <- <-; cbn [fd_spec].
      * constructor. now apply plain_opts.
      * constructor; [now apply plain_opts|apply text_keeps_apart|]. constructor; [now apply plain_opts|]. apply (common_blind rt0). constructor.
      * constructor; [now apply plain_opts|apply any_blind].
      * constructor; [now apply plain_opts|]. apply (common_blind rt0). constructor.
    + intros n f [Q|[Q|[Q|[Q|[]]]]]; now injection Q as <- <-.
    + intros n f g [Q|[Q|[Q|[Q|[]]]]]; injection Q as <- <-; discriminate.
    + intros n f [Q|[]]. injection Q as <- <-. apply enough_blind.
    + discriminate.
Qed.
Lemma cart_export x : (forall g, ec_role x <> RoleFn g) -> blind_export text_key Ecart x.
Proof.
  intros HR. split.
  - intros c n f. cbn [Ecart e_class]. destruct c as [|[p|p|]]; cbn; try contradiction.
    + intros [Q|[]]. injection Q as <- <-. apply (common_form rt0). constructor.
    + intros [Q|[Q|[Q|[Q|[]]]]]; injection Q as <- <-; cbn [fd_spec blind_writer].
      * exact I.
      * apply (common_form rt0). constructor.
      * intros v w H _. unfold leaf_form. cbn. destruct (ec_fmt x); now constructor.
      * apply (common_form rt0). constructor.
  - intros c n f. cbn [Ecart e_class]. destruct c as [|[p|p|]]; cbn; try contradiction.
    + intros [Q|[]]. injection Q as <- <-. exact I.
    + intros [Q|[Q|[Q|[Q|[]]]]]; injection Q as <- <-; exact I.
  - intros c n g. cbn [Ecart e_class]. destruct c as [|[p|p|]]; cbn; try contradiction.
    intros [Q|[]]. injection Q as <- <-. intros m v w _. reflexivity.
  - intros g Q. now destruct (HR g).
Qed.

Definition cart1 : pyval :=
  VDict [(k "buyer", VDict [(k "name", VStr (u "Bo"))]); (k "prices", VDict [(k "a", VInt 1); (k "b", VStr (u "2"))]);
         (k "n", VInt 2); (k "extra", VList [VDict [(k "x", VNone); (k "y", VInt 3)]])].
Definition cart2 : pyval :=
  VDict [(k "extra", VList [VDict [(k "y", VInt 3); (k "x", VNone)]]); (k "n", VInt 2);
         (k "prices", VDict [(k "b", VStr (u "2")); (k "a", VInt 1)]); (k "buyer", VDict [(k "name", VStr (u "Bo"))])].
(** Entries related one by one, in the second's order. *)
Lemma listed_alike d e : forallb is_text (dkeys d) = true -> nodupb (dkeys d) = true -> nodupb (dkeys e) = true ->
  length d = length e -> Forall (fun p => both (alike text_key) (dget (fst p) d) (Some (snd p))) e ->
  alike text_key (VDict d) (VDict e).
Proof.
  intros T N1 N2 L F. apply nodupb_ok in N1, N2. rewrite Forall_forall in F.
  apply al_dict. split; [now apply is_text_ok|]. split; [assumption|]. split; [assumption|]. intros x.
  destruct (dget x e) as [w|] eqn:G.
  - apply dget_In in G. exact (F (x, w) G).
  - destruct (dget x d) as [v|] eqn:D; [|constructor]. exfalso. apply dget_In in D.
    assert (I : incl (dkeys e) (dkeys d)).
    { intros y Hy. apply in_map_iff in Hy as ([z w] & E & Hy). cbn in E. subst z. pose proof (F (y, w) Hy) as B.
      cbn [fst snd] in B. destruct (dget y d) as [q|] eqn:Q; [|inversion B]. apply dget_In in Q. apply in_map_iff. now exists (y, q). }
    assert (J : incl (dkeys d) (dkeys e)).
    { apply NoDup_length_incl; [assumption| |assumption]. unfold dkeys. rewrite !map_length. lia. }
    assert (In x (dkeys e)) as Hx by (apply J, in_map_iff; now exists (x, v)).
    apply in_map_iff in Hx as ([z w] & E & Hx). cbn in E. subst z. rewrite (dget_NoDup x w e N2 Hx) in G. discriminate.
Qed.
Ltac alike_tac := first [apply al_atom; reflexivity
  | apply al_list; repeat (constructor; [alike_tac|]); constructor
  | apply listed_alike; [reflexivity..|]; repeat (constructor; [cbn; constructor; alike_tac|]); constructor ].
Lemma carts_alike : alike text_key cart1 cart2.
Proof. alike_tac. Qed.

(** A point given as a dictionary is read in the order of its entries. *)
Lemma geo_order : exists v w, alike text_key v w /\ lf_native geo_type v = Ok v /\ lf_native geo_type w = Ok w /\ geo_range v = None /\ geo_range w <> None.
Proof.
  exists (VDict [(k "lat", VInt 10); (k "lon", VInt 120)]), (VDict [(k "lon", VInt 120); (k "lat", VInt 10)]).
  split; [alike_tac|]. split; [reflexivity|]. split; [reflexivity|]. split; [reflexivity|]. vm_compute. discriminate.
Qed.

(** class Bag: items = DictType(IntType()), with [str] of keys *)
Definition str_key (x : key) : res key := match x with KStr _ => Ok x | KInt z => Ok (KStr (dec_text z)) end.
Definition Bag : mclass :=
  MC [fld "items" (o0 0) (TDict (FS (o_inner (o0 0)) (TLeaf (int_type rt0 false))) str_key)] [] [] DEFAULT None.
Definition Ebag : env := Env (fun _ => Bag) N.eqb (fun _ => []).
Lemma colliding_keys : exists d e m n, alike (fun _ => True) (VDict d) (VDict e) /\ model_init Ebag (conv_at Ebag 5) 0 (VDict d) (VDict []) kw0 = Ok m /\ model_init Ebag (conv_at Ebag 5) 0 (VDict e) (VDict []) kw0 = Ok n /\ ~ alike_data (fun _ => True) m n.
Proof.
  exists [(k "items", VDict [(KInt 1, VInt 7); (k "1", VInt 8)])], [(k "items", VDict [(k "1", VInt 8); (KInt 1, VInt 7)])].
  eexists. eexists. split; [|split; [vm_compute; reflexivity|split; [vm_compute; reflexivity|]]].
  - assert (A : alike (fun _ => True) (VDict [(KInt 1, VInt 7); (k "1", VInt 8)]) (VDict [(k "1", VInt 8); (KInt 1, VInt 7)])).
    { apply permuted_alike; [apply perm_swap|]. apply al_dict. split; [auto|]. split; [apply nodupb_ok; reflexivity|].
      split; [apply nodupb_ok; reflexivity|]. intros x. cbn [dget]. destruct (key_eqb x (KInt 1)); [constructor; now apply al_atom|].
      destruct (key_eqb x (k "1")); constructor. now apply al_atom. }
    apply al_dict. split; [auto|]. split; [apply nodupb_ok; reflexivity|]. split; [apply nodupb_ok; reflexivity|].
    intros x. cbn [dget]. destruct (key_eqb x (k "items")); constructor. exact A.
  - intros (_ & C & _). cbn in C. destruct C as [_ (_ & _ & G)]. specialize (G (k "items")). vm_compute in G.
    inversion G as [|a b B]; subst. inversion B as [? A| | |? ? C|]; subst. destruct C as [_ (_ & _ & C)].
    specialize (C (KStr [49%N])). vm_compute in C. inversion C as [|a b D]; subst. inversion D.
Qed.
Lemma str_keeps_apart : keeps_apart text_key str_key.
Proof.
  split.
  - intros [s|z] Hx; [|destruct Hx]. now constructor.
  - intros [s|z] [t|y] w Hx Hy; try (now destruct Hx); try (now destruct Hy). intros [= <-] [= <-]. reflexivity.
Qed.
