(** What the options of containing types lead to (C73). *)
From Verif.Model Require Import Py Core Export Compound Equality Build.
From Verif.Spec Require Import ImportSpec CompoundSpec BuildSpec.
From Verif.Proofs Require Import DictLemmas CompoundLemmas BuildFacts.

Section Use.
  Context (E : env) (depth : nat) (str : key -> res key).
  Notation base_init := (base_init E depth).
  Notation new_type := (new_type E depth str).

  (** ** Element options at work *)

  Lemma new_type_required n c kw f a : own_params c -> new_type n c kw = Ok f -> dget (k "required") kw = Some a ->
    fo_required (fs_opts f) = arg_true a.
  Proof.
    intros P H R. destruct (new_type_base _ _ _ _ _ _ _ P H) as (own & kw1 & vs & B & S & _).
    apply base_init_ok in B. destruct B as (_ & ch & w & _ & _ & _ & _ & B & _).
    rewrite (S (k "required")), R in B by names. exact B.
  Qed.

  Lemma required_elements n kw c v f cl j l x w : own_params c ->
    new_type n CList kw = Ok f -> dget (k "field") kw = Some (AClass c) ->
    dget (k "required") kw = Some (AVal v) -> truthy v = true ->
    cv_convert (conv_at E j) (set_up_field true cl f) (VList l) x = Ok w -> ~ In VNone l.
  Proof.
    intros P H F R T C. pose proof H as H0. apply list_type_ok in H0.
    destruct H0 as (m & a & i & rest & o & vs & _ & _ & _ & _ & _ & _ & ->).
    pose proof (new_type_required n CList kw _ _ I H R) as Ro. cbn [fs_opts arg_true] in Ro. rewrite T in Ro.
    destruct (list_options_shared _ _ _ _ _ _ _ _ P H F) as [(Re & _) _]. rewrite Ro in Re.
    destruct j as [|j]; [discriminate|]. cbn [conv_at conv_step cv_convert set_up_field] in C.
    unfold convert_step in C. cbn [fs_type] in C. apply list_convert_ok in C.
    destruct C as (l' & ws & [= <-] & _ & C). intros K. apply in_split in K. destruct K as (l1 & l2 & ->).
    apply Forall2_app_inv_l in C. destruct C as (w1 & w2 & _ & C & _). inversion C as [|? y ? ? C1 _]. subst.
    destruct j as [|j]; [discriminate|]. cbn [conv_at conv_step cv_field] in C1. unfold field_step, check_required in C1.
    destruct i as [oi ti]. cbn in C1, Re. rewrite <- Re in C1. discriminate.
  Qed.

  Lemma validators_result_ok vs v w : validators_result vs v = Ok w -> w = v /\ forall g, In g vs -> g v = None.
  Proof.
    unfold validators_result.
    assert (K : forall vs acc r, run_validators vs v acc = Ok r -> (acc = [] -> r = [] -> forall g, In g vs -> g v = None) /\ (acc <> [] -> r <> [])).
    { clear vs. induction vs as [|f vs IH]; intros acc r; cbn [run_validators].
      - intros [= <-]. split; [intros _ _ g []|auto].
      - destruct (f v) as [[ms|stop ms|d|d pd|e|]|] eqn:F; try discriminate.
        + destruct stop.
          * intros [= <-]. split; [intros _ K; destruct acc; discriminate|intros _ K; destruct acc; discriminate].
          * intros H. apply IH in H. destruct H as [_ H]. assert (r <> []) by (apply H; destruct acc; discriminate).
            split; [intros; contradiction|auto].
        + intros H. apply IH in H. destruct H as [H1 H2]. split; [|exact H2].
          intros A R g [<-|G]; [exact F|now apply H1]. }
    destruct (run_validators vs v []) as [r|e] eqn:R; [|discriminate]. apply K in R. destruct r; [|discriminate].
    intros [= <-]. split; [reflexivity|]. now apply R.
  Qed.

  Lemma py_in_true v l : py_in E depth v l = Ok true -> exists y, In y l /\ eq_at E depth y v = Ok true.
  Proof.
    induction l as [|y l IH]; cbn [py_in]; [discriminate|].
    destruct (eq_at E depth y v) as [[|]|e] eqn:Q; cbn [rbind]; try discriminate.
    - intros _. exists y. split; [now left|exact Q].
    - intros H. destruct (IH H) as (z & Hz & Q'). exists z. split; [now right|exact Q'].
  Qed.

  Lemma list_choices n kw f cl j ch u x w :
    new_type n CList kw = Ok f -> dget (k "choices") kw = Some (AVal (VList ch)) ->
    cv_validate (conv_at E j) (set_up_field true cl f) u x = Ok w -> exists y, In y ch /\ eq_at E depth y w = Ok true.
  Proof.
    intros H G V. apply list_type_ok in H. destruct H as (m & a & i & rest & o & vs & _ & _ & _ & _ & A & B & ->).
    apply base_init_ok in B. destruct B as (_ & c0 & w0 & C & _ & Vo & _).
    rewrite (dget_list_opts (k "choices") _ _ _ A) in C by names. rewrite G in C. cbn in C. injection C as <-.
    destruct j as [|j]; [discriminate|]. cbn [conv_at conv_step cv_validate set_up_field] in V.
    unfold validate_step in V. cbn [fs_type fs_opts fo_validators] in V.
    match type of V with rbind ?r _ = _ => destruct r as [u'|e] end; [|discriminate]. cbn [rbind] in V.
    apply validators_result_ok in V. destruct V as [-> V].
    specialize (V (validate_choices E depth (Some ch))). rewrite Vo in V. specialize (V (or_introl eq_refl)).
    unfold validate_choices in V. destruct (py_in E depth u' ch) as [[|]|e] eqn:Q; try discriminate. now apply py_in_true.
  Qed.

  Lemma list_export_loop_none fe g lvl x l data r : (lvl <= NOT_NONE)%Z -> ~ In VNone data ->
    list_export_loop fe g lvl x l data = Ok r -> ~ In VNone r.
  Proof.
    intros L. revert data. induction l as [|v l IH]; intros data D; cbn [list_export_loop]; [intros [= <-]; exact D|].
    destruct (fe g v x) as [w|e]; [|discriminate]. cbn [rbind]. apply IH.
    unfold skip_elem. destruct (is_none w) eqn:N.
    - apply Z.leb_le in L. now rewrite L.
    - destruct (_ && _); [exact D|]. intros K. apply in_app_or in K. destruct K as [K|[->|[]]]; [auto|discriminate].
  Qed.

  Lemma dropped_elements n kw c f cl j v x ws : own_params c ->
    new_type n CList kw = Ok f -> dget (k "field") kw = Some (AClass c) ->
    dget (k "serialize_when_none") kw = Some (AVal (VBool false)) -> dget (k "export_level") kw = None -> ec_level x = None ->
    export_at E j (set_up_field true cl f) v x = Ok (VList ws) -> ~ In VNone ws.
  Proof.
    intros P H F W L X Ex. pose proof H as H0. apply list_type_ok in H0.
    destruct H0 as (m & a & i & rest & o & vs & _ & _ & _ & _ & A & B & ->).
    destruct (list_options_shared _ _ _ _ _ _ _ _ P H F) as [(_ & _ & _ & _ & Le) _].
    apply base_init_ok in B. destruct B as (_ & ch & w0 & _ & _ & _ & _ & _ & _ & _ & _ & Lo).
    rewrite (dget_list_opts (k "export_level") _ _ _ A), (dget_list_opts (k "serialize_when_none") _ _ _ A), W, L in Lo by names.
    cbn in Lo. rewrite Lo in Le.
    destruct j as [|j]; [discriminate|]. cbn [export_at] in Ex. unfold export_step in Ex. cbn [set_up_field fs_type] in Ex.
    unfold list_export, get_export_level in Ex. rewrite X in Ex. destruct i as [oi ti]. cbn [fs_opts fo_level] in Le.
    cbn [set_up_field fs_opts fo_level] in Ex. rewrite <- Le in Ex.
    change (Z.eqb NONEMPTY DROP) with false in Ex. cbv iota in Ex.
    destruct (py_iter E v) as [l|e]; [|discriminate]. cbn [rbind] in Ex.
    destruct (list_export_loop _ _ _ _ _ _) as [d|e] eqn:D; [|discriminate]. cbn [rbind] in Ex. injection Ex as <-.
    eapply list_export_loop_none; [| |exact D]; [discriminate|intros []].
  Qed.

  (** ** Unions *)

  Lemma union_loop_ok new kw l decl : union_loop new kw l = Ok decl ->
    forall x f, In (x, f) decl -> exists a, In a l /\
      (a = AField x f \/ exists c, a = AClass c /\ x = class_name c /\ new c (only (valid_args c) kw) = Ok f).
  Proof.
    revert decl. induction l as [|a l IH]; intros decl; cbn [union_loop]; [intros [= <-] x f []|].
    match goal with |- rbind ?r _ = _ -> _ => destruct r as [[y g]|e] eqn:M end; [|discriminate]. cbn [rbind].
    destruct (union_loop new kw l) as [d|e] eqn:U; [|discriminate]. cbn [rbind]. intros H.
    apply (f_equal (fun r => match r with Ok p => p | Raise _ => decl end)) in H. cbv beta iota in H. subst decl.
    intros x f [K|K].
    - apply pair_equal_spec in K. destruct K as [-> ->]. exists a. split; [now left|].
      destruct a as [v|fs|fs|c|c f0|ts|a0|ck|cf]; try discriminate.
      + destruct (new c _) as [h|e] eqn:N; [|discriminate]. cbn [rbind] in M.
        apply (f_equal (fun r => match r with Ok p => p | Raise _ => (x, f) end)) in M.
        apply pair_equal_spec in M. destruct M as [<- ->]. right. exists c. auto.
      + apply (f_equal (fun r => match r with Ok p => p | Raise _ => (x, f) end)) in M.
        apply pair_equal_spec in M. destruct M as [-> ->]. now left.
    - destruct (IH d eq_refl x f K) as (b & Hb & Q). exists b. split; [now right|exact Q].
  Qed.

  Lemma In_dset {A} x y (v w : A) d : In (y, w) (dset x v d) -> (y, w) = (x, v) \/ In (y, w) d.
  Proof.
    induction d as [|[z u] d IH]; cbn [dset]; [intros [H|[]]; auto|].
    destruct (key_eqb x z) eqn:K.
    - intros [H|H]; [|right; now right]. apply key_eqb_eq in K. subst z. left. now symmetry.
    - intros [H|H]; [right; left; exact H|]. destruct (IH H); [now left|right; now right].
  Qed.
  Lemma union_members_In f decl : In f (union_members decl) -> exists x, In (x, f) decl.
  Proof.
    unfold union_members, union_init. intros H. apply in_map_iff in H. destruct H as ([x g] & <- & H). exists x. cbn [snd].
    assert (G : forall acc, In (x, g) (fold_left (fun acc p => dset (fst p) (snd p) acc) decl acc) -> In (x, g) acc \/ In (x, g) decl).
    { clear H. induction decl as [|[y h] decl IH]; intros acc; cbn [fold_left fst snd]; [auto|]. intros H. apply IH in H.
      destruct H as [H|H]; [|right; now right]. apply In_dset in H. destruct H as [H|H]; [right; left; now symmetry|now left]. }
    destruct (G [] H) as [[]|K]. exact K.
  Qed.

  Lemma union_type_ok n nm own kw f : new_type n (CUnion nm own) kw = Ok f ->
    exists m l decl o, n = S m /\ given_types own kw l /\
      union_loop (new_type m) (without [k "types"; k "resolver"] kw) l = Ok decl /\
      base_init [] (only base_params (without [k "types"; k "resolver"] kw)) = Ok o /\ f = FS o (TUnion (union_members decl)).
  Proof.
    destruct n as [|m]; [discriminate|]. cbn [Build.new_type]. unfold uniontype_init, given_types.
    assert (Q : exists t, t = (match dget (k "types") kw with Some (ATypes (a :: l)) => Some (a :: l) | _ => own end)) by eauto.
    destruct Q as [t Q]. rewrite <- Q. destruct t as [l|]; [|discriminate].
    destruct (union_loop _ _ _) as [decl|e] eqn:U; [|discriminate]. cbn [rbind].
    destruct (Build.base_init _ _ _ _) as [o|e] eqn:B; [|discriminate]. intros [= <-].
    exists m, l, decl, o. split; [reflexivity|]. split; [|auto].
    destruct (dget (k "types") kw) as [[v|fs|fs|c|c f0|[|a ts]|a0|ck|cf]|]; try (now symmetry). now injection Q.
  Qed.

  Ltac no_option := intros ? K; cbn [In] in K;
    repeat (destruct K as [<-|K]; [apply kmem_nIn; reflexivity|]); contradiction.

  Lemma union_options_shared n nm own kw o ms l : new_type n (CUnion nm own) kw = Ok (FS o (TUnion ms)) ->
    given_types own kw l -> (forall c, In (AClass c) l -> own_params c) ->
    forall f, In f ms -> (exists x, In (AField x f) l) \/
      same_options o (fs_opts f) /\
      exists pre, fo_validators (fs_opts f) = validate_choices E depth (given_choices kw) :: pre ++ given_validators kw.
  Proof.
    intros H G P f Hf. apply union_type_ok in H. destruct H as (m & l' & decl & o' & -> & G' & U & B & [= <- ->]).
    assert (l' = l).
    { unfold given_types in G, G'. destruct (dget (k "types") kw) as [[v|fs|fs|c|c f0|[|a ts]|a0|ck|cf]|]; congruence. }
    subst l'. apply union_members_In in Hf. destruct Hf as [x Hf]. apply (union_loop_ok _ _ _ _ U) in Hf.
    destruct Hf as (a & Ha & [->|(c & -> & _ & N)]); [left; eauto|right].
    destruct (new_type_base _ _ _ _ _ _ _ (P c Ha) N) as (own1 & kw1 & vs1 & B1 & S1 & V1 & pre & V2).
    assert (A0 : agree_on (without [k "types"; k "resolver"] kw) kw) by (apply agree_without; no_option).
    assert (A1 : agree_on (only (valid_args c) (without [k "types"; k "resolver"] kw)) kw).
    { eapply agree_trans; [|exact A0]. apply agree_only. intros y Hy. apply in_or_app. now right. }
    assert (A2 : agree_on (only base_params (without [k "types"; k "resolver"] kw)) kw).
    { eapply agree_trans; [|exact A0]. apply agree_only. auto. }
    edestruct base_init_same with (o1 := o) (o2 := fs_opts f) as (S & ch & w1 & w2 & C & W1 & W2 & _ & ->);
      [|exact B|exact B1|].
    { intros y Hy Hn. rewrite (A2 y Hy), (S1 y Hy Hn). symmetry. now apply A1. }
    rewrite (A2 (k "choices")) in C by names. apply read_choices_given in C. subst ch.
    split; [exact S|]. rewrite V2 in W2. injection W2 as <-.
    apply read_validators_given in V1. rewrite (A1 (k "validators")) in V1 by names.
    exists (own1 ++ pre). unfold given_validators. now rewrite <- V1, <- app_assoc.
  Qed.

  Lemma only_cons_absent ns y a kw : ~ In y ns -> only ns ((y, a) :: kw) = only ns kw.
  Proof. intros H. unfold only. cbn [filter fst]. apply kmem_nIn in H. now rewrite H. Qed.

  Lemma union_loop_ignores new l y a kw : (forall c, In (AClass c) l -> ~ In y (known_options c)) ->
    union_loop new ((y, a) :: kw) l = union_loop new kw l.
  Proof.
    induction l as [|b l IH]; intros H; [reflexivity|]. cbn [union_loop].
    rewrite IH by (intros c Hc; apply H; now right).
    destruct b as [v|fs|fs|c|c f0|ts|a0|ck|cf]; try reflexivity.
    rewrite only_cons_absent; [reflexivity|]. apply (H c). now left.
  Qed.

  Lemma union_ignores n nm own kw y a l : given_types own kw l ->
    ~ In y ([k "types"; k "resolver"] ++ field_options) -> (forall c, In (AClass c) l -> ~ In y (known_options c)) ->
    new_type n (CUnion nm own) ((y, a) :: kw) = new_type n (CUnion nm own) kw.
  Proof.
    intros G N K. destruct n as [|m]; [reflexivity|]. cbn [Build.new_type]. unfold uniontype_init.
    rewrite in_app_iff in N.
    assert (D : dget (k "types") ((y, a) :: kw) = dget (k "types") kw).
    { cbn [dget]. destruct (key_eqb (k "types") y) eqn:Q; [|reflexivity]. apply key_eqb_eq in Q. destruct N. left. now left. }
    rewrite D.
    assert (W : without [k "types"; k "resolver"] ((y, a) :: kw) = (y, a) :: without [k "types"; k "resolver"] kw).
    { unfold without at 1. cbn [filter fst]. destruct (kmem y [k "types"; k "resolver"]) eqn:Q; [|reflexivity].
      apply kmem_In in Q. tauto. }
    rewrite W.
    assert (T : forall l', (match dget (k "types") kw with Some (ATypes (a :: l)) => Some (a :: l) | _ => own end) = Some l' -> l' = l).
    { unfold given_types in G. destruct (dget (k "types") kw) as [[v|fs|fs|c|c f0|[|b ts]|a0|ck|cf]|]; intros l' Q; congruence. }
    destruct (match dget (k "types") kw with Some _ => _ | None => own end) as [l'|]; [|reflexivity].
    rewrite (T l' eq_refl). rewrite union_loop_ignores by exact K.
    rewrite only_cons_absent; [reflexivity|]. tauto.
  Qed.

  (** ** Computed fields *)

  Lemma as_keys_str l : as_keys (map VStr l) = map KStr l.
  Proof. clear. induction l as [|s l IH]; [reflexivity|]. cbn. unfold as_keys in IH. now rewrite IH. Qed.
  Lemma serializable_instance n c o t kw f : serializable_type E depth str n (AField c (FS o t)) kw = Ok f ->
    exists o', f = FS o' t /\ fo_default o' = fo_default o /\
      (dget (k "deserialize_from") kw = None -> fo_dfrom o' = fo_dfrom o) /\
      (forall l, dget (k "deserialize_from") kw = Some (AVal (VList (map VStr l))) -> fo_dfrom o' = map KStr l) /\
      (forall s, dget (k "deserialize_from") kw = Some (AVal (VStr s)) -> fo_dfrom o' = map (fun c => KStr [c]) s) /\
      (dget (k "validators") kw = None -> fo_validators o' = fo_validators o) /\
      (forall l, dget (k "validators") kw = Some (AFuns l) -> fo_validators o' = l) /\
      (forall l, dget (k "validators") kw = Some (AFunTuple l) -> fo_validators o' = l) /\
      (dget (k "required") kw = None -> fo_required o' = fo_required o) /\
      (forall v, dget (k "required") kw = Some (AVal v) -> fo_required o' = truthy v) /\
      (dget (k "serialized_name") kw = None -> fo_sname o' = fo_sname o) /\
      (forall s, dget (k "serialized_name") kw = Some (AVal (VStr s)) -> fo_sname o' = Some (KStr s)) /\
      (dget (k "export_level") kw = None -> dget (k "serialize_when_none") kw = None -> fo_level o' = None) /\
      (forall z, dget (k "export_level") kw = Some (AVal (VInt z)) -> fo_level o' = Some z) /\
      (forall b, dget (k "export_level") kw = None -> dget (k "serialize_when_none") kw = Some (AVal (VBool b)) ->
         fo_level o' = Some (if b then DEFAULT else NONEMPTY)).
  Proof.
    cbn [serializable_type]. destruct (dmem (k "default") kw); [discriminate|]. intros [= <-].
    eexists. split; [reflexivity|]. cbn [fo_default fo_dfrom fo_validators fo_required fo_sname fo_level].
    repeat (split; [reflexivity|]).
    repeat split; intros; repeat match goal with H : dget _ kw = _ |- _ => rewrite H; clear H end; try reflexivity; [apply as_keys_str|now destruct b].
  Qed.
End Use.

Lemma new_type_means E d str n c kw f : own_params c -> new_type E d str n c kw = Ok f -> options_mean kw (fs_opts f).
Proof.
  intros P H. destruct (new_type_base E d str n c kw f P H) as (own & kw1 & vs & B & A & _ & _).
  apply base_init_ok in B. destruct B as (_ & ch & ws & _ & _ & _ & _ & R & D & N & F & L).
  rewrite (A (k "required")) in R by names. rewrite (A (k "default")) in D by names.
  rewrite (A (k "serialized_name")) in N by names. rewrite (A (k "deserialize_from")) in F by names.
  rewrite (A (k "export_level")), (A (k "serialize_when_none")) in L by names.
  split; intros.
  - now rewrite R, H0.
  - now rewrite R, H0.
  - now rewrite R, H0.
  - now rewrite D, H0.
  - now rewrite D, H0.
  - now rewrite N, H0.
  - now rewrite N, H0.
  - now rewrite F, H0.
  - now rewrite F, H0.
  - rewrite F. destruct H0 as [-> | ->]; cbn; apply as_keys_str.
  - now rewrite L, H0.
  - rewrite L, H0, H1. now destruct b.
  - now rewrite L, H0, H1.
Qed.
