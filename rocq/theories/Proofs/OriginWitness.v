(** Origins of values: the sample program, and a list made from an instance. *)
From Verif.Model Require Import Py Core Export Api.
From Verif.Spec Require Import ImportSpec ExportSpec PartSpec OriginSpec.
From Verif.Proofs Require Import DictLemmas Decide ApiLemmas PartFacts OriginFacts.
From Verif.Conformance Require Import Sample.
Open Scope string_scope.
Open Scope list_scope.

Lemma made_keyed A v : made_of A v -> keyed v.
Proof.
  induction 1 as [v P _|l _ IH|l _ IH|d N _ IH|c m N1 N2 N3 _ IH].
  - apply ky_atom; intros; intros ->; contradiction.
  - apply ky_list, Forall_forall, IH.
  - apply ky_tuple, Forall_forall, IH.
  - now apply ky_dict.
  - now apply ky_model.
Qed.
Lemma lives_shows_less E A : keeps E A -> showing E -> forall c m, lives E A c m -> forall x x2, shows_less E x x2 -> forall n d2,
  model_export_top E (export_at E n) c m x2 = Ok d2 -> exists d, model_export_top E (export_at E n) c m x = Ok d /\ part_of (VDict d) (VDict d2).
Proof. intros K Sh c m Lm x x2 Ls n d2. apply (top_less E Sh x x2 Ls). apply (made_keyed A). now apply lives_fit with (E := E). Qed.
Lemma construct_fit E A : keeps E A -> forall n c raw trusted w, made_of A raw -> made_of A trusted ->
  match model_init E (conv_at E n) c raw trusted w with Ok m => made_of A (VModel c m) | Raise e => fit_exn A e end.
Proof. intros K n c raw trusted w. now apply init_fit. Qed.
Lemma import_data_fit E A : keeps E A -> forall n c m raw w, made_of A (VModel c m) -> made_of A raw ->
  forall m' e, model_import_data E (conv_at E n) c m raw w = (m', Some e) -> fit_exn A e.
Proof. intros K n c m raw w Hm R m' e Q. pose proof (import_fit E A K n c m raw w Hm R) as F. rewrite Q in F. now apply F. Qed.
Lemma validate_errors_fit E A : keeps E A -> forall n c m w, made_of A (VModel c m) -> forall m' e, model_validate E (conv_at E n) c m w = (m', Some e) -> fit_exn A e.
Proof. intros K n c m w Hm m' e Q. pose proof (validate_api_fit E A K n c m w Hm) as F. rewrite Q in F. now apply F. Qed.
Lemma field_value_fit E A : keeps E A -> forall n c y f v x w, In (y, f) (fields_of E c) -> made_of A v -> made_of A (cx_trusted x) ->
  cv_field (conv_at E n) (fd_spec f) v x = Ok w -> made_of A w.
Proof.
  intros K n c y f v x w I Hv T Q. pose proof (cf_field _ _ _ (conv_at_fit E A K n) (fd_spec f) v x) as F. rewrite Q in F. apply F; try assumption. exists c, y, f. split; [exact I|constructor].
Qed.
Lemma reading_fit E A : keeps E A -> forall c m y v, made_of A (VModel c m) -> py_getitem E (VModel c m) y = Ok v -> made_of A v.
Proof. intros K c m y v Hm Q. pose proof (getitem_fit E A K (VModel c m) y Hm) as F. now rewrite Q in F. Qed.

(** Not one of the objects the library knows nothing about. *)
Definition no_object (v : pyval) : Prop := forall n, v <> VObj n.
(** A field and its elements and members. *)
Fixpoint parts (f : fspec) : list fspec :=
  f :: match f with FS _ t => match t with TUnion ms => flat_map parts ms | TList g => parts g | TDict g _ => parts g | _ => [] end end.
Lemma parts_ok h f : field_in h f -> In h (parts f).
Proof.
  induction 1 as [f|h o ms m I _ IH|h o g _ IH|h o g ck _ IH]; [destruct f as [o []]; now left|right..]; try exact IH. cbn. apply in_flat_map. now exists m.
Qed.
Definition modest (h : fspec) : Prop :=
  match h with FS o t => (fo_validators o = [] \/ fo_validators o = [non_negative]) /\ match t with TLeaf l => l = any_leaf \/ l = int_leaf | _ => True end end.
Lemma sample_fields c n f : In (n, f) (fields_of Esample c) -> Forall modest (parts (fd_spec f)) /\
  (fo_default (fs_opts (fd_spec f)) = VUndef \/ fo_default (fs_opts (fd_spec f)) = VInt 18) /\ fd_get f = None /\ fd_set f = None.
Proof.
  intros H. destruct c as [|[[]|[]|]]; cbn in H;
    repeat (destruct H as [[= <- <-]|H]; [split; [cbn; repeat (apply Forall_cons; [split; cbn; auto|]); apply Forall_nil|cbn; auto]|]); try destruct H.
Qed.
Lemma sample_keeps : keeps Esample no_object.
Proof.
  constructor.
  - intros c. apply nodupb_ok. destruct c as [|[[]|[]|]]; reflexivity.
  - split; intros n; discriminate.
  - intros c n f _ j. destruct n; discriminate.
  - intros b c _ _ n. discriminate.
  - intros c n f o l v I F Hv. destruct (sample_fields c n f I) as (Fa & _). apply parts_ok in F. rewrite Forall_forall in Fa. destruct (Fa _ F) as [_ [->| ->]]; cbn; [exact Hv|].
    destruct v; try (apply fit_conv); try exact Hv; constructor; cbn; auto; intros j; discriminate.
  - intros c n f I. destruct (sample_fields c n f I) as (_ & [->| ->] & _); constructor; cbn; auto; intros j; discriminate.
  - intros c n f h vd v e I F J _ Q. destruct (sample_fields c n f I) as (Fa & _). apply parts_ok in F. rewrite Forall_forall in Fa. apply Fa in F. destruct h as [o t]. cbn in *.
    destruct F as [[F|F] _]; rewrite F in J; [destruct J|]. destruct J as [<-|[]]. unfold non_negative in Q. destruct v; try discriminate. destruct (z <? 0)%Z; [|discriminate]. injection Q as <-. apply fit_other. discriminate.
  - intros c n f g v I G. destruct (sample_fields c n f I) as (_ & _ & Q & _). congruence.
  - intros c n f g v w I G. destruct (sample_fields c n f I) as (_ & _ & _ & Q). congruence.
  - intros c n vf v d w I _ D _. destruct c as [|[[]|[]|]]; cbn in I; try destruct I as [[= <- <-]|[]]; try destruct I. exact D.
  - intros c cl v e G. destruct c as [|[[]|[]|]]; discriminate G.
Qed.
Lemma alice_made : made_of no_object (VDict alice).
Proof.
  assert (S_ : forall s, made_of no_object (VStr s)) by (intros s; constructor; [exact I|intros j; discriminate]). assert (I_ : forall z, made_of no_object (VInt z)) by (intros z; constructor; [exact I|intros j; discriminate]).
  apply mo_dict; [apply nodupb_ok; reflexivity|]. intros y v [[= <- <-]|[[= <- <-]|[[= <- <-]|[]]]]; [apply S_| |].
  - apply mo_list. intros v [<-|[<-|[]]]; [apply I_|]. constructor; [exact I|intros j; discriminate].
  - apply mo_dict; [apply nodupb_ok; reflexivity|]. intros y v [[= <- <-]|[[= <- <-]|[]]]; auto.
Qed.
(** Made, changed, validated (which fails), imported into. *)
Definition alice_later : mdata pyval :=
  fst (model_import_data Esample (conv_at Esample 12) 1
        (fst (model_validate Esample (conv_at Esample 11) 1
          (fst (model_setitem Esample (conv_at Esample 10) 1
            (MD [] [(k "name", VStr (u "Alice")); (k "age", VInt 18); (k "tags", VList [VInt 1; VInt 1]);
               (k "home", VModel 0 (MD [] [(k "street", VStr (u "Main")); (k "zip", VInt 123)] [] None))] [] None)
            (k "age") (VInt (-1)))) kw1)) (VDict [(k "age", VInt 3)]) kw1).
Lemma alice_lives : lives Esample no_object 1 alice_later.
Proof.
  apply lf_import; [apply lf_validate, lf_set|].
  - apply (lf_new Esample no_object 1 10 (VDict alice) (VDict []) kw0); [exact alice_made|apply M_dict, L_nil|exact alice_imports].
  - constructor; [exact I|intros j; discriminate].
  - apply mo_dict; [apply nodupb_ok; reflexivity|]. intros y v [[= <- <-]|[]]. constructor; [exact I|intros j; discriminate].
Qed.
Lemma alice_later_is : md_converted alice_later =
  [(k "name", VStr (u "Alice")); (k "tags", VList [VInt 1; VInt 1]);
   (k "home", VModel 0 (MD [] [(k "street", VStr (u "Main")); (k "zip", VInt 123)] [] None)); (k "age", VInt 3)].
Proof. vm_compute. reflexivity. Qed.

(** class Point: x = BaseType(); class Bag: items = ListType(BaseType) *)
Definition Point : mclass := MC [fld "x" (o0 0) (TLeaf any_leaf)] [] [] DEFAULT None.
Definition Bag : mclass := MC [fld "items" (o0 1) (TList (FS (o_inner (o0 1)) (TLeaf any_leaf)))] [] [] DEFAULT None.
Definition Ebag : env := Env (fun c => match c with 0%N => Point | 1%N => Bag | _ => Nothing end) N.eqb (fun _ => []).
Definition no_text (v : pyval) : Prop := forall s, v <> VStr s.
Lemma bag_of_names : exists E c raw m,
  (forall c n f, In (n, f) (fields_of E c) -> fd_get f = None /\ fd_set f = None /\ fo_default (fs_opts (fd_spec f)) = VUndef /\
     forall o l v, field_in (FS o (TLeaf l)) (fd_spec f) -> lf_native l v = Ok v) /\
  made_of no_text raw /\ model_init E (conv_at E 9) c raw (VDict []) kw0 = Ok m /\ ~ made_of no_text (VModel c m) /\
  md_converted m = [(k "items", VList [VStr (u "x")])].
Proof.
  exists Ebag, 1%N, (VDict [(k "items", VModel 0 (MD [] [(k "x", VInt 5)] [] None))]). eexists. split.
  { intros c n f H. destruct c as [|[[]|[]|]]; cbn in H; repeat (destruct H as [[= <- <-]|H]; [split; [reflexivity|]; split; [reflexivity|]; split; [reflexivity|]; intros o l v I; apply parts_ok in I; cbn in I;
      repeat (destruct I as [[= <- <-]|I]; [reflexivity|]); try destruct I as [I|I]; try discriminate I; repeat (destruct I as [[= <- <-]|I]; [reflexivity|]); try destruct I|]); try destruct H. }
  split. { apply mo_dict; [apply nodupb_ok; reflexivity|]. intros y v [[= <- <-]|[]]. apply mo_model; try (apply nodupb_ok; reflexivity). intros y v [[= <- <-]|[]]. constructor; [exact I|intros s; discriminate]. }
  split; [vm_compute; reflexivity|]. split; [|reflexivity].
  intros H. apply M_model in H as (_ & (_ & H) & _). specialize (H (k "items") _ (or_introl eq_refl)). inversion H as [? P|? F| | |]; subst; [destruct P|]. specialize (F _ (or_introl eq_refl)).
  inversion F as [? P Q| | | |]; subst. now apply (Q (u "x")).
Qed.
