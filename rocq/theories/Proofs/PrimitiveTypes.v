(** What the types of the library write. *)
From Verif.Model Require Import Py Core Export Api Text Num Equality Types Calendar DateTime Enum Net.
From Verif.Spec Require Import ExportSpec PrimitiveSpec.

Lemma scalar_made v : scalar v -> made_of scalar v.
Proof. apply mo_plain. Qed.
Lemma object_made v : plain_object v -> made_of plain_object v.
Proof. apply mo_plain. Qed.
Local Hint Resolve scalar_made object_made mo_none : made.

Lemma geo_ok v w : geo_native v = Ok w -> w = v /\ exists l, geo_elems v = Some l /\ forallb is_float_or_int l = true.
Proof.
  unfold geo_native. destruct (geo_elems v) as [l|]; [|discriminate]. destruct (negb _); [discriminate|].
  destruct (forallb is_float_or_int l) eqn:F; [|discriminate]. intros [= <-]. eauto.
Qed.
Lemma geo_made (Q : pyval -> Prop) v w : (forall v, is_float_or_int v = true -> Q v) -> geo_native v = Ok w -> made_of Q w.
Proof.
  intros HQ H. apply geo_ok in H as (-> & l & G & F). rewrite forallb_forall in F.
  destruct v; try discriminate; injection G as <-.
  - apply mo_list. intros v Hi. apply mo_plain, HQ, F, Hi.
  - apply mo_tuple. intros v Hi. apply mo_plain, HQ, F, Hi.
  - apply mo_dict. intros y v Hi. apply mo_plain, HQ, F. apply (in_map snd) in Hi. exact Hi.
Qed.

(** Which values the types produce. *)
Definition no_bytes (v : pyval) : Prop := match v with VBytes _ => False | _ => True end.
Definition no_decimal (v : pyval) : Prop := match v with VDecimal _ _ => False | _ => True end.
Section T.
  Context (R : runtime).
  Lemma string_range v w : string_native v = Ok w -> exists s, w = VStr s.
  Proof. destruct v; cbn; try discriminate; try (destruct (utf8_decode s); [|discriminate]); intros [= <-]; eauto. Qed.
  Lemma int_range b v w : int_native R b v = Ok w -> exists z, w = VInt z.
  Proof.
    unfold int_native. set (v' := match v with VBool _ => _ | _ => v end). clearbody v'.
    intros H. destruct v'; try (injection H as <-; eauto; fail); cbv zeta in H;
      (destruct (py_int R _) as [[?|]|]; cbn [rbind] in H; try discriminate;
       destruct (negb b && _); [injection H as <-; eauto|]; try discriminate; injection H as <-; eauto).
  Qed.
  Lemma float_range v w : float_native R v = Ok w -> exists f, w = VFloat f.
  Proof.
    unfold float_native. set (v' := match v with VBool _ => _ | _ => v end). clearbody v'.
    intros H. destruct v'; try (injection H as <-; eauto; fail);
      (destruct (py_float R _) as [[?|]|]; cbn [rbind] in H; try discriminate; injection H as <-; eauto).
  Qed.
  Lemma decimal_range v w : decimal_native R v = Ok w -> (exists c e, w = VDecimal c e) \/ w = VObj 0.
  Proof.
    intros H.
    assert (G : forall s, match decimal_text (rt_uni R) s with Some (DFin c e) => Ok (VDecimal c e) | Some DSpecial => Ok (VObj 0)
                          | None => conv_err "number_coerce" end = Ok w -> (exists c e, w = VDecimal c e) \/ w = VObj 0).
    { intros s G. destruct (decimal_text (rt_uni R) s) as [[c e|]|]; try discriminate; injection G as <-; eauto. }
    destruct v; cbn [decimal_native] in H; try (apply G in H; exact H); try (injection H as <-; eauto).
    destruct n; [injection H as <-; eauto|apply G in H; exact H].
  Qed.
  Lemma hash_range n v w : hash_native R n v = Ok w -> exists s, w = VStr s.
  Proof.
    unfold hash_native. destruct (string_native v) as [w'|] eqn:S; cbn [rbind]; [|discriminate].
    apply string_range in S as [s ->]. destruct (Nat.eqb _ _); [|discriminate].
    destruct (int_text _ _ _); [|discriminate]. intros [= <-]. eauto.
  Qed.
  Lemma bool_range v w : bool_native v = Ok w -> exists b, w = VBool b.
  Proof.
    intros H. destruct v; cbn [bool_native] in H; try discriminate;
      repeat match type of H with (if ?b then _ else _) = _ => destruct b end; try discriminate; injection H as <-; eauto.
  Qed.
  Lemma uuid_range v w : uuid_native R v = Ok w -> exists n, w = VUUID n.
  Proof.
    intros H. destruct v; cbn [uuid_native] in H; try discriminate; try (destruct (uuid_text _ _); [|discriminate]);
      injection H as <-; eauto.
  Qed.
  Lemma date_range fmts v w : date_native R fmts v = Ok w -> exists d, w = VDate d.
  Proof. intros H. destruct v; cbn [date_native] in H; try destruct (first_format _ _); try discriminate; injection H as <-; eauto. Qed.
  Lemma dt_range o v w : dt_native R o v = Ok w -> exists d t z, w = VDateTime d t z.
  Proof.
    assert (D : forall x : dt, exists d t z, dt_val x = VDateTime d t z) by (intros [[d t] z]; cbn; eauto).
    intros H. destruct v; cbn [dt_native] in H;
      try (destruct (dt_read R _ _); cbn [rbind] in H; [|discriminate]; destruct (dt_parsed o _); cbn [rbind] in H; [|discriminate];
           injection H as <-; apply D).
    destruct (dt_given o _); cbn [rbind] in H; [|discriminate]. injection H as <-; apply D.
  Qed.
  Lemma delta_range p v w : delta_native R p v = Ok w -> exists us, w = VTimedelta us.
  Proof.
    intros H. destruct v; cbn [delta_native] in H; try (injection H as <-; eauto; fail);
      (destruct (py_float R _) as [[?|]|]; cbn [rbind] in H; try discriminate;
       destruct (timedelta_of _ _) as [us|e]; [injection H as <-; eauto|destruct e as [| | | |[]|]; discriminate]).
  Qed.
  Lemma enum_range c b v w : enum_native c b v = Ok w -> exists i n x, w = VEnum i n x.
  Proof.
    unfold enum_native, enum_member. destruct (match v with VEnum i _ _ => N.eqb i (ec_id c) | _ => false end) eqn:M.
    - intros [= <-]. destruct v; try discriminate. eauto.
    - destruct (find_by_name c v); [intros [= <-]; eauto|]. destruct (find_by_value c b v); [intros [= <-]; eauto|discriminate].
  Qed.

  (** What each type writes of a value another type has produced and it accepts. *)
  Lemma library_writes l v w u : library_type R l -> no_bytes v -> (numeral R l -> no_decimal v) ->
    (lf_prim l = (fun v => Ok v) -> v = VNone \/ lf_native l v = Ok u) -> lf_prim l v = Ok w -> made_of scalar w.
  Proof.
    intros L NB ND. destruct L as [|l N| | | | | | | |o e He| | |]; cbn [lf_native lf_prim string_leaf decimal_type hash_type bool_type uuid_type geo_type multi_type date_type dt_type delta_type enum_type mac_type].
    - intros A. destruct (A eq_refl) as [->|H]; clear A; intros [= <-]; [constructor|]. destruct v; try discriminate; cbn in NB; try tauto; auto with made.
      all: apply scalar_made; exact I.
    - specialize (ND N). destruct N; cbn [lf_native lf_prim int_type float_type]; (intros A; destruct (A eq_refl) as [->|H]; clear A; intros [= <-]; [constructor|]);
        (destruct v; try (apply scalar_made; exact I); try destruct NB; try destruct ND; exfalso; revert H).
      all: try (cbv; discriminate).
      all: unfold int_native, float_native; cbn [py_int py_float rbind int_equals num_of]; try discriminate.
      all: rewrite andb_false_r; discriminate.
    - intros _ H. destruct v; cbn in H; injection H as <-; apply scalar_made; exact I.
    - intros A. destruct (A eq_refl) as [->|H]; clear A; intros [= <-]; [constructor|]. unfold hash_native in H.
      destruct (string_native v) as [w'|] eqn:S; cbn [rbind] in H; [|discriminate].
      destruct v; try discriminate; try destruct NB; apply scalar_made; exact I.
    - intros A. destruct (A eq_refl) as [->|H]; clear A; intros [= <-]; [constructor|]. destruct v; try discriminate; apply scalar_made; exact I.
    - intros _ H. destruct v; cbn in H; injection H as <-; apply scalar_made; exact I.
    - intros A. destruct (A eq_refl) as [->|H]; clear A; intros [= <-]; [constructor|]. apply (geo_made _ v v); [|now destruct (geo_ok _ _ H) as [-> _]].
      intros v' F; destruct v'; try discriminate; exact I.
    - intros _ H. destruct v; cbn [multi_prim] in H; try (destruct (locale_list ctx ++ locale_list dflt)%list; discriminate).
      + injection H as <-. constructor.
      + destruct (locale_list ctx ++ locale_list dflt)%list; [discriminate|].
        destruct (pick_locale d _) as [w'|]; [|discriminate].
        destruct w'; cbn [multi_cast] in H; try discriminate; try (destruct (utf8_decode s); [|discriminate]); injection H as <-; apply scalar_made; exact I.
    - intros _ H. destruct v; try discriminate; injection H as <-; apply scalar_made; exact I.
    - intros _ H. destruct e as [| |f|]; [| |destruct (He f eq_refl)|]; destruct v; try discriminate; cbn [dt_prim] in H.
      + injection H as <-. apply scalar_made; exact I.
      + destruct (zone_text off); [|discriminate]. injection H as <-. apply scalar_made; exact I.
      + injection H as <-. apply scalar_made; exact I.
      + injection H as <-. apply scalar_made; exact I.
      + destruct off as [off|]; [|injection H as <-; apply scalar_made; exact I].
        destruct (to_utc d t off) as [[d' t']|]; [|discriminate]. injection H as <-. apply scalar_made; exact I.
    - intros _ H. destruct v; try discriminate. cbn [delta_prim] in H. destruct (num_trunc _); [|discriminate].
      injection H as <-. apply scalar_made; exact I.
    - intros _ H. destruct v; cbn in H; injection H as <-; try (apply scalar_made; exact I).
      destruct use_values; [|apply scalar_made; exact I]. destruct v; apply scalar_made; exact I.
    - intros _ H. destruct v; try discriminate. injection H as <-. apply scalar_made; exact I.
  Qed.
  Lemma library_range l u v : library_type R l -> lf_native l u = Ok v ->
    no_bytes v /\ (l = decimal_type R \/ no_decimal v).
  Proof.
    intros L H. destruct L as [|l N| | | | | | | |o e He| | |]; cbn [lf_native] in H.
    - apply string_range in H as [? ->]. cbn; auto.
    - destruct N; [apply int_range in H as [? ->]|apply float_range in H as [? ->]]; cbn; auto.
    - split; [|now left]. apply decimal_range in H as [(? & ? & ->)| ->]; exact I.
    - apply hash_range in H as [? ->]. cbn; auto.
    - apply bool_range in H as [? ->]. cbn; auto.
    - apply uuid_range in H as [? ->]. cbn; auto.
    - apply geo_ok in H as (-> & l & G & _). destruct u; try discriminate; cbn; auto.
    - destruct u; try discriminate; injection H as <-; cbn; auto.
    - apply date_range in H as [? ->]. cbn; auto.
    - apply dt_range in H as (? & ? & ? & ->). cbn; auto.
    - apply delta_range in H as [? ->]. cbn; auto.
    - apply enum_range in H as (? & ? & ? & ->). cbn; auto.
    - apply string_range in H as [? ->]. cbn; auto.
  Qed.
  Lemma range_accepted l u v : library_type R l -> lf_prim l = (fun v => Ok v) -> lf_native l u = Ok v -> lf_native l v = Ok v.
  Proof.
    intros L I H. destruct L as [|l N| | | | | | | |o e He| | |]; cbn [lf_native lf_prim] in *;
      try (apply (f_equal (fun f => f VNone)) in I; discriminate).
    - apply string_range in H as [? ->]. reflexivity.
    - destruct N; [apply int_range in H as [? ->]|apply float_range in H as [? ->]]; reflexivity.
    - pose proof H as H0. apply hash_range in H0 as [s ->]. unfold hash_type, hash_native in *. cbn [lf_native] in *.
      destruct (string_native u) as [w'|] eqn:S; cbn [rbind] in H; [|discriminate].
      apply string_range in S as [s' ->]. cbn [string_native rbind].
      destruct (Nat.eqb (length s') n) eqn:L; [|discriminate]. destruct (int_text (rt_uni R) 16 s') eqn:T; [|discriminate].
      injection H as <-. now rewrite L, T.
    - apply bool_range in H as [? ->]. reflexivity.
    - cbn. apply geo_ok in H as HH. destruct HH as [-> _]. exact H.
    - exfalso. apply (f_equal (fun f => f (VInt 0))) in I. cbn in I. destruct (locale_list ctx ++ locale_list dflt)%list; discriminate.
    - exfalso. apply (f_equal (fun f => f VNone)) in I. destruct e as [| |f|]; [| |now destruct (He f)|]; discriminate.
  Qed.
  Lemma library_primitive x l : ec_fmt x = Primitive -> library_type R l -> leaf_gives x scalar l.
  Proof.
    intros F L v w V H. unfold leaf_form in H. rewrite F in H.
    eapply (library_writes l v w v L); [| | |exact H].
    - destruct V as [->|[u V]]; [exact I|]. apply (library_range l u v L V).
    - intros N. destruct V as [->|[u V]]; [exact I|]. destruct (library_range l u v L V) as [_ [D|D]]; [|exact D].
      destruct N; [|].
      + apply int_range in V as [? ->]. exact I.
      + apply float_range in V as [? ->]. exact I.
    - intros P. destruct V as [->|[u V]]; [now left|right]. eapply range_accepted; eauto.
  Qed.
  Lemma library_range_made l v w : library_type R l -> (forall a b, l <> multi_type a b) -> lf_native l v = Ok w -> made_of plain_object w.
  Proof.
    intros L M H.
    destruct L as [|l N| | | | | | | |o e He| | |]; cbn [lf_native] in H.
    - apply string_range in H as [? ->]. apply object_made; exact I.
    - destruct N; [apply int_range in H as [? ->]|apply float_range in H as [? ->]]; apply object_made; exact I.
    - apply decimal_range in H as [(? & ? & ->)| ->]; apply object_made; exact I.
    - apply hash_range in H as [? ->]. apply object_made; exact I.
    - apply bool_range in H as [? ->]. apply object_made; exact I.
    - apply uuid_range in H as [? ->]. apply object_made; exact I.
    - apply (geo_made _ v w); [|exact H]. intros v' G; destruct v'; try discriminate; exact I.
    - destruct (M ctx dflt eq_refl).
    - apply date_range in H as [? ->]. apply object_made; exact I.
    - apply dt_range in H as (? & ? & ? & ->). apply object_made; exact I.
    - apply delta_range in H as [? ->]. apply object_made; exact I.
    - apply enum_range in H as (? & ? & ? & ->). apply object_made; exact I.
    - apply string_range in H as [? ->]. apply object_made; exact I.
  Qed.
  Lemma library_native x l : ec_fmt x = Native -> library_type R l -> (forall a b, l <> multi_type a b) -> leaf_gives x plain_object l.
  Proof. intros F L M v w _ H. unfold leaf_form in H. rewrite F in H. eapply library_range_made; eauto. Qed.
  Lemma library_union x ms : ec_fmt x = Primitive -> (forall m, In m ms -> exists o l, m = FS o (TLeaf l) /\ library_type R l) ->
    (forall o o' l, In (FS o (TLeaf (decimal_type R))) ms -> In (FS o' (TLeaf l)) ms -> ~ numeral R l) ->
    union_gives x scalar ms.
  Proof.
    intros F HL HD. split; [intros m Hi; destruct (HL m Hi) as (o & l & -> & _); eauto|].
    intros o l o' l' v w Hi Hi' V [u A] H. unfold leaf_form in H. rewrite F in H.
    destruct (HL _ Hi) as (? & ? & [= <- <-] & L). destruct (HL _ Hi') as (? & ? & [= <- <-] & L').
    apply (library_writes l' v w u L'); [| |auto|exact H].
    - destruct V as [->|[u0 V]]; [exact I|]. apply (library_range l u0 v L V).
    - intros N. destruct V as [->|[u0 V]]; [exact I|]. destruct (library_range l u0 v L V) as [_ [->|D]]; [|exact D].
      destruct (HD o o' l' Hi Hi' N).
  Qed.
  Lemma library_union_native x ms : ec_fmt x = Native ->
    (forall m, In m ms -> exists o l, m = FS o (TLeaf l) /\ library_type R l /\ forall a b, l <> multi_type a b) ->
    union_gives x plain_object ms.
  Proof.
    intros F HL. split; [intros m Hi; destruct (HL m Hi) as (o & l & -> & _); eauto|].
    intros o l o' l' v w Hi Hi' _ _ H. destruct (HL _ Hi') as (? & ? & [= <- <-] & L & M).
    unfold leaf_form in H. rewrite F in H. eapply library_range_made; eauto.
  Qed.
  Fixpoint spec_gives x (F : ec_fmt x = Primitive) f {struct f} : library_spec R f -> gives x scalar f.
  Proof.
    destruct f as [o [l|ms|c|p|g|g ck]]; cbn; intros H; try exact I.
    - now apply library_primitive.
    - destruct H as [H1 H2]. now apply library_union.
    - now apply spec_gives.
    - now apply spec_gives.
  Qed.
  Lemma library_env_gives E x : ec_fmt x = Primitive -> library_env R E -> gives_env E x scalar.
  Proof. intros F L c n f Hi. apply spec_gives; [exact F|]. eapply L; exact Hi. Qed.
End T.

From Verif.Spec Require Import ImportSpec ValidateSpec.
From Verif.Proofs Require Import PrimitiveFacts.

Lemma primitive_after_init E R j n c d w m x out : tidy_env E -> library_env R E -> (forall c, e_issub E c c = true) ->
  (forall c n f, In (n, f) (fields_of E c) -> monomorphic (fd_spec f)) ->
  kw_validate w = false -> kw_mapping w = no_mapping -> kw_convert w = true ->
  model_init E (conv_at E j) c (VDict d) (VDict []) w = Ok m -> clean (VModel c m) ->
  ec_fmt x = Primitive -> model_export_top E (export_at E n) c m x = Ok out -> made_of scalar (VDict out).
Proof.
  intros HT L Hr HM Hv Hm Hc H C F. eapply export_made; [apply (library_env_gives R); assumption|]. eapply init_typed; eauto.
Qed.
Lemma primitive_after_validate E R j n c m w m' x out : tidy_env E -> library_env R E -> (forall c, e_issub E c c = true) ->
  kw_mapping w = no_mapping -> kw_convert w = true ->
  defined_layers m -> NoDup (dkeys (md_converted m)) -> (md_converted m <> [] \/ kw_partial w = false) ->
  model_validate E (conv_at E j) c m w = (m', None) -> clean (VModel c m') ->
  ec_fmt x = Primitive -> model_export_top E (export_at E n) c m' x = Ok out -> made_of scalar (VDict out).
Proof.
  intros HT L Hr Hm Hc Hd Hk Hrun H C F. eapply export_made; [apply (library_env_gives R); assumption|]. eapply validate_typed; eauto.
Qed.
