(** Facts about calls of type classes (C73). *)
From Verif.Model Require Import Py Core Export Compound Equality Build.
From Verif.Spec Require Import BuildSpec.
From Verif.Proofs Require Import DictLemmas.

Lemma dget_filter {A} (g : key -> bool) x (d : list (key * A)) :
  dget x (filter (fun p => g (fst p)) d) = if g x then dget x d else None.
Proof.
  induction d as [|[y v] d IH]; cbn [filter fst dget]; [now destruct (g x)|].
  destruct (g y) eqn:Gy; cbn [dget]; destruct (key_eqb x y) eqn:K; try exact IH.
  - apply key_eqb_eq in K. subst y. now rewrite Gy.
  - apply key_eqb_eq in K. subst y. rewrite IH, Gy. reflexivity.
Qed.
Lemma dget_only x ns kw : dget x (only ns kw) = if kmem x ns then dget x kw else None.
Proof. apply (dget_filter (fun y => kmem y ns)). Qed.
Lemma dget_without x ns kw : dget x (without ns kw) = if kmem x ns then None else dget x kw.
Proof. unfold without. rewrite (dget_filter (fun y => negb (kmem y ns))). now destruct (kmem x ns). Qed.

Lemma dget_some_key {A} x (a : A) d : dget x d = Some a -> In x (dkeys d).
Proof. intros H. apply dget_In in H. unfold dkeys. apply in_map_iff. now exists (x, a). Qed.

(** Goals about names written out. *)
Ltac names := first [apply kmem_In; reflexivity | let K := fresh in intros K; vm_compute in K; discriminate K].

Section Facts.
  Context (E : env) (depth : nat) (str : key -> res key).
  Notation base_init := (base_init E depth).
  Notation new_type := (new_type E depth str).

  (** ** BaseType.__init__ *)

  Lemma base_init_ok own kw o : base_init own kw = Ok o ->
    (forall x, In x (dkeys kw) -> In x field_options) /\
    exists ch vs, read_choices (arg_val (dget (k "choices") kw) VNone) = Ok ch /\
      read_validators (dget (k "validators") kw) = Ok vs /\
      fo_validators o = validate_choices E depth ch :: own ++ vs /\
      fo_named o = false /\
      fo_required o = (match dget (k "required") kw with Some a => arg_true a | None => false end) /\
      fo_default o = arg_val (dget (k "default") kw) VUndef /\
      fo_sname o = as_key (arg_val (dget (k "serialized_name") kw) VNone) /\
      fo_dfrom o = listify_keys (arg_val (dget (k "deserialize_from") kw) VNone) /\
      fo_level o = read_level (dget (k "export_level") kw) (dget (k "serialize_when_none") kw).
  Proof.
    unfold Build.base_init. destruct (forallb _ kw) eqn:F; [|discriminate].
    destruct (read_choices _) as [ch|e] eqn:C; [|discriminate]. cbn [rbind].
    destruct (read_validators _) as [vs|e] eqn:V; [|discriminate]. cbn [rbind]. intros [= <-].
    split.
    - intros x Hx. unfold dkeys in Hx. apply in_map_iff in Hx. destruct Hx as ([y a] & <- & Hx).
      rewrite forallb_forall in F. apply F in Hx. now apply kmem_In in Hx.
    - exists ch, vs. repeat split; auto.
  Qed.

  (** The same options in, the same options out. *)
  Lemma base_init_same own1 own2 kw1 kw2 o1 o2 :
    (forall x, In x field_options -> x <> k "validators" -> dget x kw1 = dget x kw2) ->
    base_init own1 kw1 = Ok o1 -> base_init own2 kw2 = Ok o2 ->
    same_options o1 o2 /\
    exists ch vs1 vs2, read_choices (arg_val (dget (k "choices") kw1) VNone) = Ok ch /\
      read_validators (dget (k "validators") kw1) = Ok vs1 /\ read_validators (dget (k "validators") kw2) = Ok vs2 /\
      fo_validators o1 = validate_choices E depth ch :: own1 ++ vs1 /\
      fo_validators o2 = validate_choices E depth ch :: own2 ++ vs2.
  Proof.
    intros S H1 H2. apply base_init_ok in H1, H2.
    destruct H1 as (_ & ch & vs1 & C1 & V1 & -> & _ & R1 & D1 & N1 & F1 & L1).
    destruct H2 as (_ & ch2 & vs2 & C2 & V2 & -> & _ & R2 & D2 & N2 & F2 & L2).
    rewrite <- (S (k "choices")), C1 in C2 by names. injection C2 as <-.
    split.
    - unfold same_options. rewrite R1, R2, D1, D2, N1, N2, F1, F2, L1, L2.
      rewrite (S (k "required")), (S (k "default")), (S (k "serialized_name")), (S (k "deserialize_from")),
        (S (k "export_level")), (S (k "serialize_when_none")) by names. repeat split.
    - exists ch, vs1, vs2. auto.
  Qed.

  Lemma base_init_iff own kw : (exists o, base_init own kw = Ok o) <->
    (forall x, In x (dkeys kw) -> In x field_options) /\
    (exists ch, read_choices (arg_val (dget (k "choices") kw) VNone) = Ok ch) /\
    exists vs, read_validators (dget (k "validators") kw) = Ok vs.
  Proof.
    split.
    - intros [o H]. apply base_init_ok in H. destruct H as (H & ch & vs & C & V & _). eauto.
    - intros (H & [ch C] & [vs V]). unfold Build.base_init.
      replace (forallb (fun p => kmem (fst p) base_params) kw) with true.
      + rewrite C, V. cbn [rbind]. eauto.
      + symmetry. apply forallb_forall. intros [x a] K. apply kmem_In. apply H. unfold dkeys. apply in_map_iff. now exists (x, a).
  Qed.

  (** ** Handing on options *)

  (** Every option of BaseType is the same in both, except perhaps validators. *)
  Definition agree_on (kw1 kw2 : kwds) : Prop := forall x, In x field_options -> dget x kw1 = dget x kw2.

  Lemma agree_without ns kw : (forall x, In x ns -> ~ In x field_options) -> agree_on (without ns kw) kw.
  Proof.
    intros H x Hx. rewrite dget_without. destruct (kmem x ns) eqn:K; [|reflexivity].
    apply kmem_In in K. now destruct (H x K).
  Qed.
  Lemma agree_only ns kw : (forall x, In x field_options -> In x ns) -> agree_on (only ns kw) kw.
  Proof. intros H x Hx. rewrite dget_only. apply H, kmem_In in Hx. now rewrite Hx. Qed.
  Lemma agree_trans a b c : agree_on a b -> agree_on b c -> agree_on a c.
  Proof. intros H K x Hx. now rewrite (H x Hx), (K x Hx). Qed.
  Lemma agree_sym a b : agree_on a b -> agree_on b a.
  Proof. intros H x Hx. now rewrite (H x Hx). Qed.
  Lemma agree_cons y a kw : ~ In y field_options -> agree_on ((y, a) :: kw) kw.
  Proof.
    intros H x Hx. cbn [dget]. destruct (key_eqb x y) eqn:K; [|reflexivity].
    apply key_eqb_eq in K. now subst y.
  Qed.

  Ltac no_option := intros ? K; cbn [In] in K;
    repeat (destruct K as [<-|K]; [apply kmem_nIn; reflexivity|]); contradiction.
  Ltac not_option := apply kmem_nIn; reflexivity.

  Lemma dkeys_without x ns kw : In x (dkeys (without ns kw)) <-> In x (dkeys kw) /\ ~ In x ns.
  Proof.
    unfold dkeys, without. rewrite !in_map_iff. split.
    - intros ([y a] & <- & H). apply filter_In in H. destruct H as [H K]. cbn in *. split; [now exists (y, a)|].
      apply kmem_nIn. now destruct (kmem y ns).
    - intros (([y a] & <- & H) & K). exists (y, a). split; [reflexivity|]. apply filter_In. split; [exact H|].
      cbn in *. apply kmem_nIn in K. now rewrite K.
  Qed.
  Lemma without_absent ns kw : (forall x, In x ns -> ~ In x (dkeys kw)) -> without ns kw = kw.
  Proof.
    induction kw as [|[y a] kw IH]; intros H; [reflexivity|]. cbn [without filter fst].
    destruct (kmem y ns) eqn:K.
    - apply kmem_In in K. destruct (H y K). now left.
    - cbn [negb]. f_equal. apply IH. intros x Hx Hd. apply (H x Hx). now right.
  Qed.

  Lemma init_field_ok new a options f rest : init_field new a options = Ok (f, rest) ->
    (exists c, a = AField c f /\ rest = options) \/
    exists c kw, a = AClass c /\ new c kw = Ok f /\ agree_on rest options /\ agree_on kw options /\
      (forall x, In x (dkeys options) -> x <> k "nested_field" -> x <> k "compound_field" -> In x (dkeys rest)).
  Proof.
    destruct a as [v|l|l|c|c g|l|a|ck|cf]; try discriminate.
    - cbn [init_field]. intros H. right. exists c.
      set (n1 := match dget (k "nested_field") options with Some a => arg_true a | None => false end) in *.
      set (nested := if n1 then dget (k "nested_field") options else
                       match dget (k "compound_field") (without [k "nested_field"] options) with
                       | Some a => if arg_true a then Some a else None
                       | None => None
                       end).
      set (opt2 := if n1 then without [k "nested_field"] options
                   else without [k "compound_field"] (without [k "nested_field"] options)).
      assert (A2 : agree_on opt2 options).
      { unfold opt2. destruct n1; [apply agree_without; no_option|].
        eapply agree_trans; apply agree_without; no_option. }
      assert (K2 : forall x, In x (dkeys options) -> x <> k "nested_field" -> x <> k "compound_field" -> In x (dkeys opt2)).
      { intros x Hx N1 N2. unfold opt2. destruct n1; rewrite !dkeys_without; cbn [In]; intuition congruence. }
      exists (match nested with Some a => (k "field", a) :: opt2 | None => opt2 end).
      assert (H' : rbind (new c (match nested with Some a => (k "field", a) :: opt2 | None => opt2 end))
                         (fun f => Ok (f, opt2)) = Ok (f, rest)).
      { unfold nested, opt2. destruct n1; exact H. }
      clear H. destruct (new c _) as [g|e] eqn:N; [|discriminate]. cbn [rbind] in H'.
      apply (f_equal (fun r => match r with Ok p => p | Raise _ => (f, rest) end)) in H'.
      apply pair_equal_spec in H'. destruct H' as [-> <-].
      split; [reflexivity|]. split; [reflexivity|]. split; [exact A2|]. split; [|exact K2].
      destruct nested; [|exact A2]. eapply agree_trans; [apply agree_cons; not_option|exact A2].
    - cbn [init_field]. intros [= <- <-]. left. now exists c.
  Qed.

  Lemma list_validators_ok a vs : list_validators a = Ok vs -> read_validators a = Ok vs.
  Proof.
    destruct a as [[v|l|l|c|c f0|l|a0|ck|cf]|]; cbn; try discriminate; try tauto.
    destruct v as [| | | | | | |[|? ?]| | | | | | | | | |]; try discriminate. tauto.
  Qed.

  (** The constructor of BaseType behind any constructor. *)
  Lemma new_type_base n c kw f : own_params c -> new_type n c kw = Ok f ->
    exists own kw1 vs, base_init own kw1 = Ok (fs_opts f) /\
      (forall x, In x field_options -> x <> k "validators" -> dget x kw1 = dget x kw) /\
      read_validators (dget (k "validators") kw) = Ok vs /\
      exists pre, read_validators (dget (k "validators") kw1) = Ok (pre ++ vs).
  Proof.
    assert (Direct : forall own kw1 f, base_init own kw1 = Ok (fs_opts f) -> agree_on kw1 kw ->
      exists own kw1 vs, base_init own kw1 = Ok (fs_opts f) /\
        (forall x, In x field_options -> x <> k "validators" -> dget x kw1 = dget x kw) /\
        read_validators (dget (k "validators") kw) = Ok vs /\
        exists pre, read_validators (dget (k "validators") kw1) = Ok (pre ++ vs)).
    { intros own kw1 g H A. destruct (proj1 (base_init_iff own kw1) (ex_intro _ _ H)) as (_ & _ & vs & V).
      exists own, kw1, vs. split; [exact H|]. split; [intros; now apply A|].
      rewrite <- (A (k "validators")) by names. split; [exact V|]. now exists []. }
    intros P. destruct n as [|n]; [discriminate|]. destruct c as [l|nm types| | | |]; cbn [Build.new_type].
    - unfold leaf_init. destruct (forallb _ _); [|discriminate]. destruct (lc_make _ _) as [[lf vs]|e]; [|discriminate].
      cbn [rbind]. destruct (Build.base_init _ _ _ _) as [o|e] eqn:B; [|discriminate]. intros [= <-].
      apply (Direct vs (without (lc_params l) kw) (FS o (TLeaf lf)) B). apply agree_without. exact P.
    - unfold uniontype_init. destruct (match dget (k "types") kw with Some _ => _ | None => _ end) as [ts|]; [|discriminate].
      destruct (union_loop _ _ _) as [decl|e]; [|discriminate]. cbn [rbind].
      destruct (Build.base_init _ _ _ _) as [o|e] eqn:B; [|discriminate]. intros [= <-].
      apply (Direct [] _ (FS o (TUnion (union_members decl))) B).
      eapply agree_trans; [apply agree_only; auto|]. apply agree_without. no_option.
    - unfold list_init. destruct (dget (k "field") kw) as [a|]; [|discriminate].
      destruct (init_field _ _ _) as [[g rest]|e] eqn:I; [|discriminate]. cbn [rbind].
      assert (A : agree_on rest kw).
      { apply init_field_ok in I. destruct I as [(c & _ & ->)|(c & kw2 & _ & _ & A & _)];
          [|eapply agree_trans; [exact A|]]; apply agree_without; no_option. }
      set (chk := check_length _ _).
      destruct (list_validators _) as [vs|e] eqn:V; [|discriminate]. cbn [rbind].
      destruct (Build.base_init _ _ _ _) as [o|e] eqn:B; [|discriminate]. intros [= <-].
      exists [], ((k "validators", AFuns (chk :: vs)) :: without [k "validators"] rest), vs. split; [exact B|]. split; [|split].
      + intros x Hx Hn. cbn [dget]. destruct (key_eqb x (k "validators")) eqn:K; [apply key_eqb_eq in K; contradiction|].
        rewrite dget_without. destruct (kmem x [k "validators"]) eqn:M; [|now apply A].
        apply kmem_In in M. destruct M as [<-|[]]. contradiction.
      + rewrite <- (A (k "validators")) by names. now apply list_validators_ok.
      + exists [chk]. reflexivity.
    - unfold dict_init. destruct (dget (k "field") kw) as [a|]; [|discriminate].
      destruct (init_field _ _ _) as [[g rest]|e] eqn:I; [|discriminate]. cbn [rbind].
      assert (A : agree_on rest kw).
      { apply init_field_ok in I. destruct I as [(c & _ & ->)|(c & kw2 & _ & _ & A & _)];
          [|eapply agree_trans; [exact A|]]; apply agree_without; no_option. }
      destruct (Build.base_init _ _ _ _) as [o|e] eqn:B; [|discriminate]. cbn [rbind]. intros H.
      eapply Direct; [|exact A]. apply (f_equal (fun r => match r with Ok p => p | Raise _ => f end)) in H.
      rewrite <- H. exact B.
    - unfold modeltype_init. destruct (dget (k "model_spec") kw) as [[v|l|l|c|c f0|l|[c|l]|ck|cf]|]; try discriminate.
      destruct (Build.base_init _ _ _ _) as [o|e] eqn:B; [|discriminate]. intros [= <-].
      apply (Direct [] _ (FS o (TModel c)) B). apply agree_without. no_option.
    - unfold polytype_init. destruct (dget (k "model_spec") kw) as [[v|l|l|c|c f0|l|a|ck|cf]|]; try discriminate.
      destruct (Build.base_init _ _ _ _) as [o|e] eqn:B; [|discriminate]. cbn [rbind]. intros H.
      eapply (Direct []); [|apply (agree_without [k "model_spec"; k "claim_function"; k "allow_subclasses"]); no_option].
      apply (f_equal (fun r => match r with Ok p => p | Raise _ => f end)) in H. rewrite <- H. exact B.
  Qed.

  (** ** Lists and dictionaries *)

  Lemma read_validators_given a vs : read_validators a = Ok vs ->
    vs = match a with Some (AFuns l) | Some (AFunTuple l) => l | _ => [] end.
  Proof.
    destruct a as [[v|l|l|c|c f0|l|a0|ck|cf]|]; cbn; try discriminate; try congruence.
    - destruct (truthy v); congruence.
    - destruct (nonempty l); congruence.
  Qed.

  Lemma list_type_ok n kw f : new_type n CList kw = Ok f ->
    exists m a i rest o vs, n = S m /\ dget (k "field") kw = Some a /\
      init_field (new_type m) a (without [k "field"; k "min_size"; k "max_size"] kw) = Ok (i, rest) /\
      list_validators (dget (k "validators") rest) = Ok vs /\ agree_on rest kw /\
      base_init [] ((k "validators", AFuns (check_length (given_number (k "min_size") kw) (given_number (k "max_size") kw) :: vs))
                    :: without [k "validators"] rest) = Ok o /\
      f = FS o (TList i).
  Proof.
    destruct n as [|m]; [discriminate|]. cbn [Build.new_type]. unfold list_init.
    destruct (dget (k "field") kw) as [a|]; [|discriminate].
    destruct (init_field _ _ _) as [[i rest]|e] eqn:I; [|discriminate]. cbn [rbind].
    destruct (list_validators _) as [vs|e] eqn:V; [|discriminate]. cbn [rbind].
    destruct (Build.base_init _ _ _ _) as [o|e] eqn:B; [|discriminate]. intros [= <-].
    exists m, a, i, rest, o, vs. do 2 (split; [reflexivity|]). split; [exact I|]. split; [exact V|].
    split; [|now split]. apply init_field_ok in I. destruct I as [(c & _ & ->)|(c & kw2 & _ & _ & A & _)];
      [|eapply agree_trans; [exact A|]]; apply agree_without; no_option.
  Qed.

  Lemma dget_list_opts x v rest kw : agree_on rest kw -> In x field_options -> x <> k "validators" ->
    dget x ((k "validators", v) :: without [k "validators"] rest) = dget x kw.
  Proof.
    intros A Hx Hn. cbn [dget]. destruct (key_eqb x (k "validators")) eqn:K; [apply key_eqb_eq in K; contradiction|].
    rewrite dget_without. destruct (kmem x [k "validators"]) eqn:M; [|now apply A].
    apply kmem_In in M. destruct M as [<-|[]]. contradiction.
  Qed.


  Lemma read_choices_given kw ch : read_choices (arg_val (dget (k "choices") kw) VNone) = Ok ch -> ch = given_choices kw.
  Proof.
    unfold given_choices. destruct (dget (k "choices") kw) as [[v|l|l|c|c f0|l|a0|ck|cf]|]; cbn [arg_val read_choices];
      try congruence.
    destruct v; cbn [read_choices]; try congruence;
      try (match goal with |- context [truthy ?v] => destruct (truthy v) end; congruence).
    intros [= <-]. unfold dkeys. now rewrite map_map.
  Qed.

  Lemma list_options_shared n kw c o i : own_params c ->
    new_type n CList kw = Ok (FS o (TList i)) -> dget (k "field") kw = Some (AClass c) ->
    same_options o (fs_opts i) /\
    fo_validators o = validate_choices E depth (given_choices kw)
      :: check_length (given_number (k "min_size") kw) (given_number (k "max_size") kw) :: given_validators kw /\
    exists own, fo_validators (fs_opts i) = validate_choices E depth (given_choices kw) :: own ++ given_validators kw.
  Proof.
    intros P H F. apply list_type_ok in H. destruct H as (m & a & i0 & rest & o0 & vs & -> & Fa & I & V & A & B & [= <- <-]).
    rewrite F in Fa. injection Fa as <-. apply init_field_ok in I.
    destruct I as [(c' & [=] & _)|(c' & kw2 & [= <-] & N & _ & A2 & _)].
    destruct (new_type_base _ _ _ _ P N) as (own & kw1 & vs1 & B1 & S1 & V1 & pre & V2).
    assert (A2' : agree_on kw2 kw) by (eapply agree_trans; [exact A2|]; apply agree_without; no_option).
    edestruct base_init_same with (o1 := o) (o2 := fs_opts i) as (S & ch & w1 & w2 & C & W1 & W2 & -> & ->);
      [|exact B|exact B1|].
    { intros x Hx Hn. rewrite (dget_list_opts _ _ _ _ A Hx Hn), (S1 x Hx Hn). symmetry. now apply A2'. }
    rewrite (dget_list_opts (k "choices") _ _ _ A) in C by names. apply read_choices_given in C. subst ch.
    split; [exact S|].
    rewrite V2 in W2. injection W2 as <-. cbn in W1. injection W1 as <-.
    apply list_validators_ok, read_validators_given in V. rewrite (A (k "validators")) in V by names.
    apply read_validators_given in V1. rewrite (A2' (k "validators")) in V1 by names.
    unfold given_validators. split; [now rewrite <- V|]. exists (own ++ pre). now rewrite <- V1, <- app_assoc.
  Qed.

  Lemma dict_type_ok n kw f : new_type n CDict kw = Ok f ->
    exists m a i rest o, n = S m /\ dget (k "field") kw = Some a /\
      init_field (new_type m) a (without [k "field"; k "coerce_key"] kw) = Ok (i, rest) /\ agree_on rest kw /\
      base_init [] rest = Ok o /\
      f = FS o (TDict i (match dget (k "coerce_key") kw with Some (AKeys ck) => ck | _ => str end)).
  Proof.
    destruct n as [|m]; [discriminate|]. cbn [Build.new_type]. unfold dict_init.
    destruct (dget (k "field") kw) as [a|]; [|discriminate].
    destruct (init_field _ _ _) as [[i rest]|e] eqn:I; [|discriminate]. cbn [rbind].
    destruct (Build.base_init _ _ _ _) as [o|e] eqn:B; [|discriminate]. cbn [rbind]. intros H.
    apply (f_equal (fun r => match r with Ok p => p | Raise _ => f end)) in H. cbv beta iota in H.
    exists m, a, i, rest, o. do 2 (split; [reflexivity|]). split; [exact I|].
    split; [|split; [exact B|now symmetry]].
    apply init_field_ok in I. destruct I as [(c & _ & ->)|(c & kw2 & _ & _ & A & _)];
      [|eapply agree_trans; [exact A|]]; apply agree_without; no_option.
  Qed.

  Lemma dict_options_shared n kw c o i ck : own_params c ->
    new_type n CDict kw = Ok (FS o (TDict i ck)) -> dget (k "field") kw = Some (AClass c) ->
    same_options o (fs_opts i) /\
    fo_validators o = validate_choices E depth (given_choices kw) :: given_validators kw /\
    exists own, fo_validators (fs_opts i) = validate_choices E depth (given_choices kw) :: own ++ given_validators kw.
  Proof.
    intros P H F. apply dict_type_ok in H. destruct H as (m & a & i0 & rest & o0 & -> & Fa & I & A & B & H).
    apply (f_equal fs_opts) in H as Ho. cbn in Ho. subst o0.
    assert (i0 = i) by (apply (f_equal (fun f => match f with FS _ (TDict i _) => i | f => f end)) in H; now symmetry). subst i0. clear H.
    rewrite F in Fa. injection Fa as <-. apply init_field_ok in I.
    destruct I as [(c' & [=] & _)|(c' & kw2 & [= <-] & N & _ & A2 & _)].
    destruct (new_type_base _ _ _ _ P N) as (own & kw1 & vs1 & B1 & S1 & V1 & pre & V2).
    assert (A2' : agree_on kw2 kw) by (eapply agree_trans; [exact A2|]; apply agree_without; no_option).
    edestruct base_init_same with (o1 := o) (o2 := fs_opts i) as (S & ch & w1 & w2 & C & W1 & W2 & -> & ->);
      [|exact B|exact B1|].
    { intros x Hx Hn. rewrite (A x Hx), (S1 x Hx Hn). symmetry. now apply A2'. }
    rewrite (A (k "choices")) in C by names. apply read_choices_given in C. subst ch.
    split; [exact S|].
    rewrite V2 in W2. injection W2 as <-. rewrite (A (k "validators")) in W1 by names.
    apply read_validators_given in W1.
    apply read_validators_given in V1. rewrite (A2' (k "validators")) in V1 by names.
    unfold given_validators. split; [now rewrite <- W1|]. exists (own ++ pre). now rewrite <- V1, <- app_assoc.
  Qed.

  (** An instance is taken as it is. *)
  Lemma list_instance_kept n kw c g f : new_type n CList kw = Ok f -> dget (k "field") kw = Some (AField c g) ->
    exists o, f = FS o (TList g).
  Proof.
    intros H F. apply list_type_ok in H. destruct H as (m & a & i & rest & o & vs & -> & Fa & I & _ & _ & _ & ->).
    rewrite F in Fa. injection Fa as <-. cbn in I. injection I as <- _. now exists o.
  Qed.
  Lemma dict_instance_kept n kw c g f : new_type n CDict kw = Ok f -> dget (k "field") kw = Some (AField c g) ->
    exists o ck, f = FS o (TDict g ck).
  Proof.
    intros H F. apply dict_type_ok in H. destruct H as (m & a & i & rest & o & -> & Fa & I & _ & _ & ->).
    rewrite F in Fa. injection Fa as <-. cbn in I. injection I as <- _. eauto.
  Qed.

  (** Options that are not options of every type. *)
  Lemma init_field_keys new a options f rest : init_field new a options = Ok (f, rest) ->
    forall x, In x (dkeys options) -> x <> k "nested_field" -> x <> k "compound_field" -> In x (dkeys rest).
  Proof.
    intros I x Hx N1 N2. apply init_field_ok in I. destruct I as [(c & _ & ->)|(c & kw2 & _ & _ & _ & _ & K)]; auto.
  Qed.
  Lemma list_unknown n kw x : In x (dkeys kw) ->
    ~ In x ([k "field"; k "min_size"; k "max_size"; k "nested_field"; k "compound_field"] ++ field_options) ->
    forall f, new_type n CList kw <> Ok f.
  Proof.
    intros Hx Hn f H. apply list_type_ok in H. destruct H as (m & a & i & rest & o & vs & -> & Fa & I & _ & _ & B & _).
    apply base_init_ok in B. destruct B as [B _]. apply Hn. apply in_or_app. right. apply B. right.
    rewrite in_app_iff in Hn. cbn [In] in Hn.
    fold (dkeys (without [k "validators"] rest)). rewrite dkeys_without. split.
    - eapply init_field_keys; [exact I| | |]; [apply dkeys_without; split; [exact Hx|cbn [In]]| |]; intuition congruence.
    - intros [<-|[]]. apply Hn. right. names.
  Qed.
  Lemma dict_unknown n kw x : In x (dkeys kw) ->
    ~ In x ([k "field"; k "coerce_key"; k "nested_field"; k "compound_field"] ++ field_options) ->
    forall f, new_type n CDict kw <> Ok f.
  Proof.
    intros Hx Hn f H. apply dict_type_ok in H. destruct H as (m & a & i & rest & o & -> & Fa & I & _ & B & _).
    apply base_init_ok in B. destruct B as [B _]. apply Hn. apply in_or_app. right. apply B.
    rewrite in_app_iff in Hn. cbn [In] in Hn.
    eapply init_field_keys; [exact I| | |]; [apply dkeys_without; split; [exact Hx|cbn [In]]| |]; intuition congruence.
  Qed.

  (** When a list of a class that is not compound can be made. *)
  Lemma list_accepted n l kw : own_params (CLeaf l) ->
    (forall x, In x [k "field"; k "min_size"; k "max_size"; k "nested_field"; k "compound_field"] -> ~ In x (dkeys kw)) ->
    ((exists f, new_type (S (S n)) CList ((k "field", AClass (CLeaf l)) :: kw) = Ok f) <->
     (exists f, new_type (S n) (CLeaf l) kw = Ok f) /\ (forall x, In x (dkeys kw) -> In x field_options) /\
     (dget (k "validators") kw = None \/ (exists fs, dget (k "validators") kw = Some (AFuns fs)) \/
      dget (k "validators") kw = Some (AVal (VList [])))).
  Proof.
    intros P Hk.
    assert (W : without [k "field"; k "min_size"; k "max_size"] ((k "field", AClass (CLeaf l)) :: kw) = kw).
    { cbn [without filter fst]. change (kmem (k "field") [k "field"; k "min_size"; k "max_size"]) with true. cbn [negb].
      apply without_absent. intros x [<-|[<-|[<-|[]]]]; apply Hk; names. }
    assert (W1 : without [k "nested_field"] kw = kw) by (apply without_absent; intros x [<-|[]]; apply Hk; names).
    assert (W2 : without [k "compound_field"] kw = kw) by (apply without_absent; intros x [<-|[]]; apply Hk; names).
    assert (G1 : dget (k "nested_field") kw = None) by (apply dget_None_keys; apply Hk; names).
    assert (G2 : dget (k "compound_field") kw = None) by (apply dget_None_keys; apply Hk; names).
    assert (I : forall f rest, init_field (new_type (S n)) (AClass (CLeaf l)) kw = Ok (f, rest) <->
                               new_type (S n) (CLeaf l) kw = Ok f /\ rest = kw).
    { intros f rest. cbn [init_field]. rewrite G1, W1, W2, G2. destruct (new_type (S n) (CLeaf l) kw) as [g|e]; cbn [rbind].
      - split; [intros [= <- <-]; auto|intros [[= ->] ->]; reflexivity].
      - split; [discriminate|intros [[=] _]]. }
    split.
    - intros [f H]. apply list_type_ok in H. destruct H as (m & a & i & rest & o & vs & [= <-] & Fa & If & V & _ & B & _).
      cbn in Fa. injection Fa as <-. rewrite W in If. apply I in If. destruct If as [N ->].
      split; [eauto|]. split.
      + apply base_init_ok in B. destruct B as [B _]. intros x Hx.
        destruct (key_eqb x (k "validators")) eqn:K; [apply key_eqb_eq in K; subst x; names|].
        apply B. right. fold (dkeys (without [k "validators"] kw)). rewrite dkeys_without. split; [exact Hx|].
        intros [<-|[]]. rewrite key_eqb_refl in K. discriminate.
      + destruct (dget (k "validators") kw) as [[v|fs|fs|c|c f0|ts|a0|ck|cf]|]; try discriminate V; eauto.
        destruct v as [| | | | | | |[|? ?]| | | | | | | | | |]; try discriminate V. auto.
    - intros ([f N] & Hf & V).
      destruct (new_type_base _ _ _ _ P N) as (own & kw1 & vs1 & B1 & S1 & V1 & pre & V2).
      assert (L : exists vs, list_validators (dget (k "validators") kw) = Ok vs)
        by (destruct V as [->|[[fs ->]| ->]]; cbn; eauto).
      destruct L as [vs L].
      change (exists g, list_init E depth (new_type (S n)) ((k "field", AClass (CLeaf l)) :: kw) = Ok g).
      unfold list_init. cbn [dget]. rewrite key_eqb_refl. rewrite W.
      rewrite (proj2 (I f kw) (conj N eq_refl)). cbn [rbind]. rewrite L. cbn [rbind].
      match goal with |- context [Build.base_init E depth [] ?w] => assert (B : exists o, base_init [] w = Ok o) end.
      { apply base_init_iff. split; [|split].
        - intros x [<-|Hx]; [names|]. fold (dkeys (without [k "validators"] kw)) in Hx. apply dkeys_without in Hx. now apply Hf.
        - apply base_init_ok in B1. destruct B1 as (_ & ch & _ & C & _). exists ch.
          rewrite (dget_list_opts (k "choices") _ _ kw); try names; [|intros ? ?; reflexivity].
          rewrite <- (S1 (k "choices")) by names. exact C.
        - cbn [dget]. rewrite key_eqb_refl. cbn. eauto. }
      destruct B as [o B]. rewrite B. cbn [rbind]. eauto.
  Qed.

  Lemma list_validators_kind n l kw f a :
    (forall x, In x [k "field"; k "min_size"; k "max_size"; k "nested_field"; k "compound_field"] -> ~ In x (dkeys kw)) ->
    new_type (S n) (CLeaf l) kw = Ok f -> dget (k "validators") kw = Some a ->
    (forall fs, a <> AFuns fs) -> a <> AVal (VList []) ->
    new_type (S (S n)) CList ((k "field", AClass (CLeaf l)) :: kw) = Raise (XPy ETypeError).
  Proof.
    intros Hk N G A1 A2.
    assert (W : without [k "field"; k "min_size"; k "max_size"] ((k "field", AClass (CLeaf l)) :: kw) = kw).
    { cbn [without filter fst]. change (kmem (k "field") [k "field"; k "min_size"; k "max_size"]) with true. cbn [negb].
      apply without_absent. intros x [<-|[<-|[<-|[]]]]; apply Hk; names. }
    assert (W1 : without [k "nested_field"] kw = kw) by (apply without_absent; intros x [<-|[]]; apply Hk; names).
    assert (W2 : without [k "compound_field"] kw = kw) by (apply without_absent; intros x [<-|[]]; apply Hk; names).
    assert (G1 : dget (k "nested_field") kw = None) by (apply dget_None_keys; apply Hk; names).
    assert (G2 : dget (k "compound_field") kw = None) by (apply dget_None_keys; apply Hk; names).
    change (list_init E depth (new_type (S n)) ((k "field", AClass (CLeaf l)) :: kw) = Raise (XPy ETypeError)).
    unfold list_init. cbn [dget]. rewrite key_eqb_refl. rewrite W. cbn [init_field]. rewrite G1, W1, W2, G2, N. cbn [rbind].
    rewrite G. destruct a as [v|fs| | | | | | |]; cbn [list_validators]; try reflexivity; [|now elim (A1 fs)].
    destruct v as [| | | | | | |[|? ?]| | | | | | | | | |]; try reflexivity. now elim A2.
  Qed.
End Facts.

Lemma compound_without_field E d str n kw : dget (k "field") kw = None ->
  new_type E d str (S n) CList kw = Raise (XPy ETypeError) /\ new_type E d str (S n) CDict kw = Raise (XPy ETypeError).
Proof. intros H. cbn [new_type]. unfold list_init, dict_init. now rewrite H. Qed.
Lemma model_without_class E d str n kw : (forall c, dget (k "model_spec") kw <> Some (AModels (OneClass c))) ->
  new_type E d str (S n) CModel kw = Raise (XPy ETypeError).
Proof.
  intros H. cbn [new_type]. unfold modeltype_init. destruct (dget (k "model_spec") kw) as [a|]; [|reflexivity].
  destruct a as [v|l|l|c|c f|l|a|ck|cf]; try reflexivity. destruct a as [c| ]; try reflexivity. now destruct (H c).
Qed.
Lemma serializable_argument E d str n a kw : (forall c, a <> AClass c) -> (forall c f, a <> AField c f) ->
  serializable_type E d str n a kw = Raise (XPy ETypeError).
Proof. intros H1 H2. destruct a; try reflexivity; [now destruct (H1 c)|now destruct (H2 c f)]. Qed.
Lemma union_without_types E d str n nm own kw : (forall l, ~ given_types own kw l) ->
  new_type E d str (S n) (CUnion nm own) kw = Raise (XPy ETypeError).
Proof.
  intros H. cbn [new_type]. unfold uniontype_init. unfold given_types in H.
  destruct (dget (k "types") kw) as [a0|]; [destruct a0 as [| | | | | | | |]|]; try match goal with l : list arg |- _ => destruct l as [|a l] end; try (destruct own as [l0|]; [destruct (H l0); reflexivity|reflexivity]).
  all: destruct (H (a :: l)); reflexivity.
Qed.
Lemma union_of_others E d str n nm own kw pre a post : given_types own kw (pre ++ a :: post) ->
  (forall b, In b pre -> exists c f, b = AField c f) -> (forall c, a <> AClass c) -> (forall c f, a <> AField c f) ->
  new_type E d str (S n) (CUnion nm own) kw = Raise (XPy ETypeError).
Proof.
  intros G P H1 H2. cbn [new_type]. unfold uniontype_init.
  assert (L : forall g kw', union_loop g kw' (pre ++ a :: post) = Raise (XPy ETypeError)).
  { intros g kw'. clear G. induction pre as [|b pre IH]; cbn [app union_loop].
    - destruct a; try reflexivity; [now destruct (H1 c)|now destruct (H2 c f)].
    - destruct (P b (or_introl eq_refl)) as (c & f & ->). cbn [rbind]. rewrite IH; [reflexivity|].
      intros b' I. apply P. now right. }
  replace (match dget (k "types") kw with Some (ATypes (a0 :: l)) => Some (a0 :: l) | _ => own end) with (Some (pre ++ a :: post)).
  - rewrite L. reflexivity.
  - unfold given_types in G. destruct (dget (k "types") kw) as [[| | | | |[|]| | |]|]; congruence.
Qed.
Lemma missing_parameter E d str n c kw x : In x (lc_needed c) -> ~ In x (dkeys kw) ->
  new_type E d str (S n) (CLeaf c) kw = Raise (XPy ETypeError).
Proof.
  intros H K. cbn [new_type]. unfold leaf_init. destruct (forallb (fun x => dmem x kw) (lc_needed c)) eqn:F; [|reflexivity].
  rewrite forallb_forall in F. specialize (F x H). apply dmem_In in F. contradiction.
Qed.
Lemma unknown_option E d str n c kw x p : (forall y, In y (lc_needed c) -> In y (dkeys kw)) ->
  lc_make c (map (fun q => (fst q, arg_val (Some (snd q)) VNone)) (only (lc_params c) kw)) = Ok p ->
  In x (dkeys kw) -> ~ In x (lc_params c) -> ~ In x field_options -> new_type E d str (S n) (CLeaf c) kw = Raise (XPy ETypeError).
Proof.
  intros Hn Hm Hx Hp Hb. cbn [new_type]. unfold leaf_init. replace (forallb (fun x => dmem x kw) (lc_needed c)) with true.
  2: { symmetry. apply forallb_forall. intros y Hy. apply dmem_In. auto. }
  rewrite Hm. cbn [rbind]. destruct p as [l vs]. unfold base_init. destruct (forallb _ (without _ _)) eqn:F; [|reflexivity].
  exfalso. assert (K : In x (dkeys (without (lc_params c) kw))) by (apply dkeys_without; now split).
  unfold dkeys in K. apply in_map_iff in K as ([x' a] & <- & K). rewrite forallb_forall in F. specialize (F _ K). apply kmem_In in F. auto.
Qed.
Lemma elements_are_types E d str n kw v : dget (k "field") kw = Some (AVal v) ->
  new_type E d str (S n) CList kw = Raise (XPy ETypeError) /\ new_type E d str (S n) CDict kw = Raise (XPy ETypeError).
Proof. intros H. cbn [new_type]. unfold list_init, dict_init. rewrite H. split; reflexivity. Qed.
