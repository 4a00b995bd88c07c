(** The library's types and validators raise only the library's errors, and the cases in which they do not. *)
From Verif.Model Require Import Py Core Export Api Equality Text Num Types DateTime Enum Net Mongo.
From Verif.Spec Require Import ImportSpec FuelSpec OrderSpec TypeSpec DateSpec ReportSpec.
From Verif.Proofs Require Import DictLemmas TypeLemmas PrimitiveTypes DateErrors Fuel FuelBound ReportFacts.
From Verif.Conformance Require Import Sample TypeSample.
Open Scope string_scope.
Open Scope list_scope.

Lemma field_own A cl e : field_error e -> own_error A cl e.
Proof. intros (ms & [->|[->| ->]]); exact I. Qed.
Section Types.
  Context (R : runtime) (A : pyval -> Prop) (cl : bool).
  Lemma string_own v e : string_native v = Raise e -> own_error A cl e.
  Proof. destruct v; cbn; try discriminate; try (intros [= <-]; exact I). destruct (utf8_decode _); [discriminate|]. intros [= <-]; exact I. Qed.
  Lemma float_own v e : (forall z, v = VInt z -> exists f, float_of_int z = Ok f) -> float_native R v = Raise e -> own_error A cl e.
  Proof.
    intros Hz. unfold float_native. destruct v; cbn; try discriminate; try (intros [= <-]; exact I).
    - destruct b; cbn; discriminate.
    - destruct (Hz z eq_refl) as [f ->]. discriminate.
    - destruct (float_text _ _); [discriminate|]. intros [= <-]; exact I.
    - destruct (float_ascii _); [discriminate|]. intros [= <-]; exact I.
  Qed.
  Lemma plain_errors l v e : plain_leaf R l -> no_infinity v -> lf_native l v = Raise e -> own_error A cl e.
  Proof.
    intros H Hv. destruct H;
      cbn [lf_native string_leaf int_type decimal_type hash_type bool_type geo_type multi_type date_type enum_type mac_type objectid_type].
    - apply string_own.
    - intros K. destruct (basic_errors R (int_type R strict) v e (bl_int R strict) K) as [F|[(st & s & _ & -> & _)|[(z & Q & _)|(Q & _)]]].
      + now apply field_own.
      + destruct (Hv s eq_refl).
      + apply (f_equal lf_native), (f_equal (fun h => h (VInt 0))) in Q. discriminate Q.
      + apply (f_equal lf_native), (f_equal (fun h => h (VInt 0))) in Q. discriminate Q.
    - unfold decimal_native. intros H.
      destruct v; try discriminate H; try (destruct (decimal_text _ _) as [[? ?|]|]; [discriminate H..|]; injection H as <-; exact I).
      destruct n; [discriminate H|]. destruct (decimal_text _ _) as [[? ?|]|]; [discriminate H..|]; injection H as <-; exact I.
    - unfold hash_native. destruct (string_native v) as [x|e'] eqn:S; cbn.
      + destruct x; try discriminate. destruct (Nat.eqb _ _); [destruct (int_text _ _ _); [discriminate|]|]; intros [= <-]; exact I.
      + intros [= <-]. now apply string_own in S.
    - intros H. destruct (bool_total v) as [[b E]|E]; rewrite E in H; [discriminate|]. injection H as <-. exact I.
    - unfold geo_native. destruct (geo_elems v); [destruct (negb _); [|destruct (negb _); [|discriminate]]|]; intros [= <-]; exact I.
    - destruct v; cbn; try discriminate; intros [= <-]; exact I.
    - intros K. destruct (date_errors R (date_type R fmts) v e (dl_date R fmts) K) as [F|F]; [now apply field_own|].
      revert K. cbn [lf_native date_type]. unfold date_native. destruct v; try discriminate; (destruct (first_format _ _); [discriminate|]; intros [= <-]; exact I).
    - unfold enum_native. destruct (match v with VEnum _ _ _ => _ | _ => _ end); [discriminate|].
      destruct (find_by_name c v); [discriminate|]. destruct (find_by_value c use_values v); [discriminate|]. intros [= <-]; exact I.
    - apply string_own.
    - unfold objectid_native.
      destruct v; try (destruct (bs_parse _ _); [discriminate|]; intros [= <-]; exact I).
      destruct (bs_is_id B n); [discriminate|]. destruct (bs_parse _ _); [discriminate|]. intros [= <-]; exact I.
  Qed.
  (** What they give back. *)
  Lemma atom_any v : atomic v = true -> v <> VUndef -> no_infinity v -> (forall b, v <> VBytes b) -> built no_infinity v.
  Proof. intros H1 H2 H3 H4. apply bu_atom; auto. intros b c ->. destruct (H4 b eq_refl). Qed.
  Ltac atom := apply atom_any; [reflexivity|discriminate|intros ?; discriminate|discriminate].
  Lemma plain_gives l v w : plain_leaf R l -> built no_infinity v -> v <> VNone -> lf_native l v = Ok w -> built no_infinity w.
  Proof.
    intros H Hv Nv. destruct H;
      cbn [lf_native string_leaf int_type decimal_type hash_type bool_type geo_type multi_type date_type enum_type mac_type objectid_type]; intros K.
    - apply string_range in K as [s ->]. atom.
    - apply int_range in K as [z ->]. atom.
    - apply decimal_range in K as [(c & e & ->)| ->]; atom.
    - apply hash_range in K as [s ->]. atom.
    - apply bool_range in K as [b ->]. atom.
    - apply geo_iff in K as [-> _]. exact Hv.
    - destruct v; cbn in K; try discriminate K; injection K as <-; exact Hv.
    - revert K. unfold date_native. destruct v; try (destruct (first_format _ _); [intros [= <-]; atom|discriminate]); intros [= <-]; atom.
    - revert K. unfold enum_native. destruct (match v with VEnum _ _ _ => _ | _ => _ end); [intros [= <-]; exact Hv|].
      destruct (find_by_name c v); [intros [= <-]; atom|]. destruct (find_by_value c use_values v); [intros [= <-]; atom|discriminate].
    - apply string_range in K as [s ->]. atom.
    - revert K. unfold objectid_native.
      destruct v; try (destruct (bs_parse _ _); [intros [= <-]; atom|discriminate]).
      destruct (bs_is_id B n); [intros [= <-]; atom|]. destruct (bs_parse _ _); [intros [= <-]; atom|discriminate].
  Qed.
End Types.
Lemma json_finite v : built json_atom v -> no_infinity v.
Proof. intros H s ->. inversion H; subst. match goal with K : json_atom _ |- _ => now apply (K s) end. Qed.
Lemma any_finite v : built no_infinity v -> no_infinity v.
Proof. intros H s ->. inversion H; subst. match goal with K : no_infinity _ |- _ => now apply (K s) end. Qed.
Theorem json_types R l v : plain_leaf R l \/ l = float_type R -> built json_atom v -> v <> VNone -> keeps json_atom false (lf_native l v).
Proof.
  intros H Hv Nv. unfold keeps. destruct (lf_native l v) as [w|e] eqn:K; [discriminate|].
  destruct H as [H| ->].
  - exact (plain_errors R json_atom false l v e H (json_finite v Hv) K).
  - eapply float_own; [|exact K]. intros z ->. inversion Hv; subst. assumption.
Qed.
Theorem closed_types R l v : plain_leaf R l -> built no_infinity v -> v <> VNone -> keeps no_infinity true (lf_native l v).
Proof.
  intros H Hv Nv. unfold keeps. destruct (lf_native l v) as [w|e] eqn:K.
  - intros _. eapply plain_gives; eauto.
  - exact (plain_errors R no_infinity true l v e H (any_finite v Hv) K).
Qed.

(** ** Validators *)
Lemma lt_ok v w : num_of v <> None -> num_of w <> None -> exists b, py_lt v w = Ok b.
Proof. unfold py_lt. destruct (num_of v), (num_of w); try congruence. eauto. Qed.
Lemma range_own A cl lo hi v e : (forall m, lo = Some m \/ hi = Some m -> num_of m <> None) -> num_of v <> None ->
  validate_range lo hi v = Some e -> own_error A cl e.
Proof.
  intros Hm Hv. unfold validate_range. destruct lo as [m|].
  - destruct (lt_ok v m Hv (Hm m (or_introl eq_refl))) as [[|] ->]; [intros [= <-]; exact I|]. destruct hi as [m'|]; [|discriminate].
    destruct (lt_ok m' v (Hm m' (or_intror eq_refl)) Hv) as [[|] ->]; [intros [= <-]; exact I|discriminate].
  - destruct hi as [m'|]; [|discriminate]. destruct (lt_ok m' v (Hm m' (or_intror eq_refl)) Hv) as [[|] ->]; [intros [= <-]; exact I|discriminate].
Qed.
Lemma geo_check_own A cl r m next e : (exists b, r = Ok b) -> (next = Some e -> own_error A cl e) -> geo_check r m next = Some e -> own_error A cl e.
Proof. intros [[|] ->] H; cbn; [intros [= <-]; exact I|exact H]. Qed.
Lemma py_in_atom E n v l : atomic v = true -> exists b, py_in E (S n) v l = Ok b.
Proof.
  intros H. induction l as [|w l [b IH]]; [exists false; reflexivity|]. cbn [py_in].
  assert (K : eq_at E (S n) w v = Ok (atom_eq w v)) by (destruct w, v; try discriminate H; reflexivity).
  rewrite K. cbn [rbind]. destruct (atom_eq w v); eauto.
Qed.
Lemma native_atomic R l u v : plain_leaf R l \/ l = float_type R -> l <> geo_type -> (forall a b, l <> multi_type a b) ->
  lf_native l u = Ok v -> atomic v = true.
Proof.
  intros H N1 N2. destruct H as [H| ->]; [|intros K; now apply float_range in K as [f ->]].
  destruct H; cbn [lf_native string_leaf int_type decimal_type hash_type bool_type geo_type multi_type date_type enum_type mac_type objectid_type]; intros K.
  - now apply string_range in K as [s ->].
  - now apply int_range in K as [z ->].
  - now apply decimal_range in K as [(c & e & ->)| ->].
  - now apply hash_range in K as [s ->].
  - now apply bool_range in K as [b ->].
  - congruence.
  - destruct (N2 _ _ eq_refl).
  - revert K. unfold date_native. destruct u; try (destruct (first_format _ _); [now intros [= <-]|discriminate]); now intros [= <-].
  - revert K. unfold enum_native. destruct (match u with VEnum _ _ _ => _ | _ => _ end) eqn:M.
    + destruct u; try discriminate M. now intros [= <-].
    + destruct (find_by_name c u); [now intros [= <-]|]. destruct (find_by_value c use_values u); [now intros [= <-]|discriminate].
  - now apply string_range in K as [s ->].
  - revert K. unfold objectid_native.
    destruct u; try (destruct (bs_parse _ _); [now intros [= <-]|discriminate]).
    destruct (bs_is_id B n); [now intros [= <-]|]. destruct (bs_parse _ _); [now intros [= <-]|discriminate].
Qed.
Lemma made_native A E o l v : made_by A E (FS o (TLeaf l)) v -> exists u, lf_native l u = Ok v.
Proof. intros (j & u & x & _ & H). destruct j as [|j]; [discriminate H|]. exists u. exact H. Qed.
Theorem library_checks R A cl E o l : (forall g, In g (fo_validators o) -> own_check R E l g) -> sound_validators A cl E (FS o (TLeaf l)).
Proof.
  intros H g v e Hg Hm. apply made_native in Hm as [u Hu]. specialize (H g Hg). cbn [fs_opts] in *.
  destruct H as [lo hi|re|stop p m|stop p m|strict lo hi Hb|lo hi Hb| |l n ch Hl N1 N2].
  - apply string_range in Hu as [s ->]. unfold validate_length. cbn [py_len]. destruct hi as [h|], lo as [b|]; brk; try discriminate; intros [= <-]; exact I.
  - apply string_range in Hu as [s ->]. unfold validate_regex. destruct re as [p|]; [|discriminate]. destruct (p s); [discriminate|]. intros [= <-]; exact I.
  - apply string_range in Hu as [s ->]. unfold text_validator. destruct (p s); [discriminate|]. intros [= <-]; exact I.
  - apply string_range in Hu as [s ->]. unfold text_validator. destruct (p s); [discriminate|]. intros [= <-]; exact I.
  - apply int_range in Hu as [z ->]. apply range_own; [exact Hb|discriminate].
  - apply float_range in Hu as [f ->]. apply range_own; [exact Hb|discriminate].
  - apply geo_iff in Hu as (-> & x & y & P & Rx & Ry).
    assert (Nx : num_of x <> None) by (destruct Rx; discriminate). assert (Ny : num_of y <> None) by (destruct Ry; discriminate).
    unfold geo_range. replace (geo_normalize u) with (Ok [x; y]) by (destruct P; reflexivity).
    repeat (apply geo_check_own; [apply lt_ok; assumption || discriminate|]). discriminate.
  - pose proof (native_atomic R l u v Hl N1 N2 Hu) as At. unfold validate_choices. destruct ch as [ch|]; [|discriminate].
    destruct (py_in_atom E n v ch At) as [[|] ->]; [discriminate|]. intros [= <-]; exact I.
Qed.
