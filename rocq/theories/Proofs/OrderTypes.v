(** The types of the library do not look at the order of dictionaries. *)
From Coq Require Import Lia.
From Verif.Model Require Import Py Text Core Export Api Num Equality Types DateTime Enum Net.
From Verif.Spec Require Import ExportSpec PrimitiveSpec TypeSpec DateSpec OrderSpec.
From Verif.Proofs Require Import PrimitiveTypes TypeLemmas DateErrors OrderFacts.

Section Order.
  Context (R : runtime) (K : key -> Prop).
  Local Notation alike := (alike K).

  Lemma alike_atom v w : alike v w -> atomic v = true -> w = v.
  Proof. destruct 1; [reflexivity|discriminate..]. Qed.
  Lemma alike_shape v w : alike v w -> atomic w = atomic v.
  Proof. now destruct 1. Qed.
  Lemma field_error_same e : field_error e -> alike_exn K e e.
  Proof. intros (ms & [->|[->| ->]]); constructor. Qed.

  (** Conversions whose results have no parts and which treat all values with parts in the same way. *)
  Definition flat (f : pyval -> res pyval) : Prop :=
    (forall v w, f v = Ok w -> atomic w = true) /\ (forall v e, f v = Raise e -> alike_exn K e e) /\
    (forall v w, alike v w -> atomic v = false -> f v = f w).
  Lemma flat_blind f : flat f -> blind K alike f.
  Proof.
    intros (A & B & C) v w H. assert (Q : f w = f v).
    { destruct (atomic v) eqn:At; [now rewrite (alike_atom _ _ H At)|symmetry; now apply C]. }
    rewrite Q. destruct (f v) as [a|e] eqn:F; constructor; [apply al_atom; eauto|eauto].
  Qed.

  Lemma basic_exn l v e : basic_leaf R l -> lf_native l v = Raise e -> alike_exn K e e.
  Proof.
    intros B H. destruct (basic_errors R l v e B H) as [F|[(? & ? & _ & _ & ->)|[(? & _ & _ & _ & ->)|(_ & _ & ->)]]].
    - now apply field_error_same.
    - apply py_same.
    - apply py_same.
    - apply py_same.
  Qed.
  Lemma date_exn l v e : date_leaf R l -> lf_native l v = Raise e -> alike_exn K e e.
  Proof.
    intros B H. destruct (date_errors R l v e B H) as [F|O]; [now apply field_error_same|].
    assert (C : exists y, e = XPy y); [|destruct C as [y ->]; apply py_same].
    unfold odd_error in O. repeat match goal with H : _ \/ _ |- _ => destruct H | H : exists _, _ |- _ => destruct H | H : _ /\ _ |- _ => destruct H end;
      subst; eauto.
  Qed.

  Ltac shapes H := destruct H as [? At|? ? ?|? ? ?|? ? ?|? ? ? ? ? ? ?]; [try (rewrite At in *; discriminate)|..].

  Lemma first_format_atoms {A} (fmts : list (pyval -> option A)) v : Forall reads_atoms fmts -> atomic v = false ->
    first_format fmts v = None.
  Proof. induction 1 as [|f r Hf Hr IH]; intros At; cbn; [reflexivity|]. rewrite (Hf v At). auto. Qed.

  Lemma string_flat : flat string_native.
  Proof.
    split; [|split].
    - intros v w H. now apply string_range in H as [? ->].
    - intros v e H. exact (basic_exn string_leaf v e (bl_string R) H).
    - intros v w H F. shapes H; reflexivity.
  Qed.
  Lemma common_flat l : common_type R l -> l = geo_type \/ (exists a b, l = multi_type a b) \/ flat (lf_native l).
  Proof.
    intros C. destruct C as [|strict| |D|n| | | |ctx dflt|fmts F|o e F X|p|c b|]; cbn [lf_native]; try (now left); try (right; left; now eauto); right; right.
    - exact string_flat.
    - split; [|split].
      + intros v w H. now apply int_range in H as [? ->].
      + intros v e H. exact (basic_exn _ v e (bl_int R strict) H).
      + intros v w H A. shapes H; reflexivity.
    - split; [|split].
      + intros v w H. now apply float_range in H as [? ->].
      + intros v e H. exact (basic_exn _ v e (bl_float R) H).
      + intros v w H A. shapes H; reflexivity.
    - split; [|split].
      + intros v w H. now apply decimal_range in H as [(? & ? & ->)| ->].
      + intros v e H. exact (basic_exn _ v e (bl_decimal R) H).
      + assert (Z : forall v, atomic v = false -> decimal_native R v = conv_err "number_coerce").
        { intros v A. pose proof (fun w => D v w A) as D'. cbn [lf_native decimal_type] in D'. destruct v; try discriminate; cbn [decimal_native] in *;
            (destruct (decimal_text _ _) as [[]|]; [exfalso; eapply D'; reflexivity..|reflexivity]). }
        intros v w H A. cbn [decimal_type lf_native]. rewrite (Z v A), (Z w) by (now rewrite (alike_shape _ _ H)). reflexivity.
    - split; [|split].
      + intros v w H. now apply hash_range in H as [? ->].
      + intros v e H. exact (basic_exn _ v e (bl_hash R n) H).
      + intros v w H A. shapes H; reflexivity.
    - split; [|split].
      + intros v w H. now apply bool_range in H as [? ->].
      + intros v e H. exact (basic_exn _ v e (bl_bool R) H).
      + intros v w H A. shapes H; reflexivity.
    - split; [|split].
      + intros v w H. now apply uuid_range in H as [? ->].
      + intros v e H. exact (basic_exn _ v e (bl_uuid R) H).
      + intros v w H A. shapes H; reflexivity.
    - split; [|split].
      + intros v w H. now apply date_range in H as [? ->].
      + intros v e H. exact (date_exn (date_type R fmts) v e (dl_date R fmts) H).
      + assert (Z : forall v, atomic v = false -> date_native R fmts v = conv_err "parse").
        { intros v A. destruct v; try discriminate; cbn [date_native]; unfold date_formats; (destruct fmts; [reflexivity|]);
            rewrite first_format_atoms by (try assumption; reflexivity); reflexivity. }
        intros v w H A. cbn [date_type lf_native]. rewrite (Z v A), (Z w) by (now rewrite (alike_shape _ _ H)). reflexivity.
    - split; [|split].
      + intros v w H. now apply dt_range in H as (? & ? & ? & ->).
      + intros v e' H. exact (date_exn (dt_type R o e) v e' (dl_datetime R o e) H).
      + assert (Z : forall v, atomic v = false -> dt_read R (dt_how o) v =
          match dt_how o with PFormats _ _ => conv_err "parse_formats" | PExternal _ => conv_err "parse_external" | PBuiltin => conv_err "parse" end).
        { intros v A. destruct (dt_how o) as [f r|f|]; cbn [dt_read]; cbn [parser_reads_atoms] in F.
          - now rewrite first_format_atoms by assumption.
          - now rewrite (F v A).
          - destruct v; try discriminate; reflexivity. }
        intros v w H A. assert (A' : atomic w = false) by (now rewrite (alike_shape _ _ H)).
        assert (Q : forall v, atomic v = false -> dt_native R o v = rbind (dt_read R (dt_how o) v) (fun x => rbind (dt_parsed o x) (fun x => Ok (dt_val x)))).
        { intros v' A''. destruct v'; try discriminate; reflexivity. }
        cbn [dt_type lf_native]. rewrite (Q v A), (Q w A'), (Z v A), (Z w A'). reflexivity.
    - split; [|split].
      + intros v w H. now apply delta_range in H as [? ->].
      + intros v e H. exact (date_exn (delta_type R p) v e (dl_delta R p) H).
      + intros v w H A. shapes H; reflexivity.
    - split; [|split].
      + intros v w H. now apply enum_range in H as (? & ? & ? & ->).
      + intros v e H. cbn [enum_type lf_native] in H. unfold enum_native in H. destruct (match v with VEnum i _ _ => N.eqb i (ec_id c) | _ => false end); [discriminate|].
        destruct (find_by_name c v); [discriminate|]. destruct (find_by_value c b v); [discriminate|]. injection H as <-. constructor.
      + assert (V : forall v ms, atomic v = false -> enum_valued ms v = None).
        { intros v ms A. induction ms as [|[x m] ms IH]; cbn [enum_valued]; [reflexivity|].
          assert (Q : atom_eq (key_val (snd m)) v = false) by (destruct (snd m), v; try discriminate; reflexivity).
          now rewrite Q, andb_false_r, IH. }
        intros v w H A. assert (A' : atomic w = false) by (now rewrite (alike_shape _ _ H)).
        assert (Q : forall v, atomic v = false -> enum_native c b v = conv_err "convert").
        { intros v' A''. unfold enum_native, find_by_name, find_by_value. pose proof (V v' (ec_members c) A'') as V'.
          destruct v'; try discriminate; rewrite V'; destruct b; reflexivity. }
        cbn [enum_type lf_native]. now rewrite (Q v A), (Q w A').
    - exact string_flat.
  Qed.

  Lemma float_or_int_same v w : alike v w -> is_float_or_int v = is_float_or_int w.
  Proof. now destruct 1. Qed.
  Lemma forallb_ints l m : Forall2 alike l m -> forallb is_float_or_int l = forallb is_float_or_int m.
  Proof. induction 1 as [|v w l m H _ IH]; cbn; [reflexivity|]. now rewrite (float_or_int_same _ _ H), IH. Qed.
  Lemma F2_length {A} (Q : A -> A -> Prop) l m : Forall2 Q l m -> length l = length m.
  Proof. induction 1; cbn; congruence. Qed.
  Lemma entries_length {A} (Q : A -> A -> Prop) (d e : list (key * A)) : entries Q d e -> length d = length e.
  Proof.
    intros H. pose proof H as (N1 & N2 & _). rewrite <- (map_length fst d), <- (map_length fst e).
    apply Nat.le_antisymm; apply NoDup_incl_length; try assumption; intros x; apply (entries_keys _ d e x H).
  Qed.
  Lemma forallb_values d e : entries alike d e -> forallb is_float_or_int (map snd d) = forallb is_float_or_int (map snd e).
  Proof.
    intros H. apply eq_true_iff_eq. rewrite !forallb_forall. split; intros F v I; apply in_map_iff in I as ([x v'] & <- & I); cbn.
    - destruct (entries_In_r _ _ _ _ _ H I) as (w & I' & A). rewrite <- (float_or_int_same _ _ A). apply F. apply in_map_iff. now exists (x, w).
    - destruct (entries_In_l _ _ _ _ _ H I) as (w & I' & A). rewrite (float_or_int_same _ _ A). apply F. apply in_map_iff. now exists (x, w).
  Qed.
  Lemma geo_blind : blind K alike geo_native.
  Proof.
    intros v w H. assert (S : both (fun l m => length l = length m /\ forallb is_float_or_int l = forallb is_float_or_int m) (geo_elems v) (geo_elems w)).
    { destruct H as [v A|l m F|l m F|d e [_ F]|c m n _ _ _ _]; cbn [geo_elems].
      - destruct v; try discriminate; constructor.
      - constructor. split; [eapply F2_length|apply forallb_ints]; eassumption.
      - constructor. split; [eapply F2_length|apply forallb_ints]; eassumption.
      - constructor. rewrite !map_length. split; [eapply entries_length|apply forallb_values]; eassumption.
      - constructor. }
    unfold geo_native. destruct S as [|l m [L F]]; [repeat constructor|]. rewrite L, F.
    destruct (negb _); [repeat constructor|]. destruct (negb _); repeat constructor. assumption.
  Qed.
  Lemma multi_blind : blind K alike multi_native.
  Proof.
    intros v w H. destruct H as [v A|l m F|l m F|d e F|c m n U V W Z]; cbn [multi_native]; try (repeat constructor; fail).
    - destruct v; try discriminate; repeat constructor.
    - constructor. now apply al_dict.
  Qed.
  Theorem common_blind l : common_type R l -> blind K alike (lf_native l).
  Proof.
    intros C. destruct (common_flat l C) as [->|[(a & b & ->)|F]]; [exact geo_blind|exact multi_blind|now apply flat_blind].
  Qed.

  Lemma agree_res {A} (Q : A -> A -> Prop) r s : alike_res K Q r s -> agree Q r s.
  Proof. destruct 1; constructor; assumption. Qed.
  (** Values with parts are only accepted by the types whose values have parts. *)
  Lemma common_accepts l v u : common_type R l -> atomic v = false -> lf_native l v = Ok u ->
    l = geo_type \/ exists a b, l = multi_type a b.
  Proof.
    intros C A H. destruct C as [|strict| |D|n| | | |ctx dflt|fmts F|o e F X|p|c b|]; eauto; exfalso; revert H.
    - destruct v; try discriminate.
    - destruct v; try discriminate.
    - destruct v; try discriminate.
    - apply D, A.
    - destruct v; try discriminate.
    - destruct v; try discriminate.
    - destruct v; try discriminate.
    - cbn [lf_native date_type]. destruct v; try discriminate; cbn [date_native]; unfold date_formats; (destruct fmts; [discriminate|]);
        rewrite first_format_atoms by (try assumption; reflexivity); discriminate.
    - cbn [lf_native dt_type]. assert (Z : forall x, dt_read R (dt_how o) v <> Ok x).
      { intros x. destruct (dt_how o) as [f r|f|]; cbn [dt_read]; cbn [parser_reads_atoms] in F.
        - rewrite first_format_atoms by assumption. discriminate.
        - rewrite (F v A). discriminate.
        - destruct v; discriminate. }
      destruct v; try discriminate; cbn [dt_native]; (destruct (dt_read R (dt_how o) _) as [x|]; [now destruct (Z x)|discriminate]).
    - destruct v; try discriminate.
    - cbn [lf_native enum_type]. assert (V : forall ms, enum_valued ms v = None).
      { intros ms. induction ms as [|[x m] ms IH]; cbn [enum_valued]; [reflexivity|].
        assert (Q : atom_eq (key_val (snd m)) v = false) by (destruct (snd m), v; try discriminate; reflexivity).
        now rewrite Q, andb_false_r, IH. }
      unfold enum_native, find_by_name, find_by_value. rewrite V. destruct v; try discriminate; destruct b; discriminate.
    - destruct v; try discriminate.
  Qed.
  Lemma common_writes l v z : common_type R l -> atomic v = true -> lf_prim l v = Ok z -> atomic z = true.
  Proof.
    intros C A. destruct C as [|strict| |D|n| | | |ctx dflt|fmts F|o e F X|p|c b|]; cbn [lf_prim string_leaf int_type float_type hash_type bool_type geo_type mac_type];
      try (intros [= <-]; exact A).
    - destruct v; try discriminate; cbn; intros [= <-]; reflexivity.
    - destruct v; try discriminate; cbn; intros [= <-]; reflexivity.
    - cbn [lf_prim multi_type]. destruct v; try discriminate; cbn [multi_prim]; try (intros [= <-]; reflexivity); destruct (locale_list ctx ++ locale_list dflt)%list; discriminate.
    - destruct v; try discriminate; cbn; intros [= <-]; reflexivity.
    - cbn [lf_prim dt_type]. destruct e as [| |f|]; [| |now destruct (X f)|]; destruct v; try discriminate; cbn [dt_prim].
      + intros [= <-]; reflexivity.
      + destruct (zone_text off); cbn [rbind]; [|discriminate]. intros [= <-]; reflexivity.
      + intros [= <-]; reflexivity.
      + intros [= <-]; reflexivity.
      + destruct off as [off|]; [|intros [= <-]; reflexivity]. destruct (to_utc d t off) as [[]|]; cbn [rbind]; [|discriminate]. intros [= <-]; reflexivity.
    - cbn [lf_prim delta_type]. destruct v; try discriminate. cbn [delta_prim]. destruct (num_trunc _); [|discriminate]. intros [= <-]; reflexivity.
    - cbn [lf_prim enum_type]. destruct v; try discriminate; cbn [enum_prim]; intros [= <-]; try reflexivity. destruct b; [|reflexivity]. now destruct v.
    - destruct v; try discriminate; cbn; intros [= <-]; reflexivity.
  Qed.
  Lemma pick_locale_same d e ls : entries alike d e -> both alike (pick_locale d ls) (pick_locale e ls).
  Proof.
    intros H. induction ls as [|x r IH]; cbn [pick_locale]; [constructor|]. pose proof (proj2 (proj2 H) x) as B.
    destruct B; [assumption|now constructor].
  Qed.
  Lemma multi_cast_same v w : alike v w -> agree alike (multi_cast v) (multi_cast w).
  Proof.
    destruct 1 as [v A|l m F|l m F|d e F|c m n U V W Z]; cbn [multi_cast]; try constructor.
    destruct v; try discriminate; cbn [multi_cast]; try (constructor; fail); try (constructor; now apply al_atom).
    destruct (utf8_decode s); constructor. now apply al_atom.
  Qed.
  Theorem common_form x l : common_type R l -> blind_form K x l.
  Proof.
    intros C v w H A. unfold leaf_form. destruct (ec_fmt x); [now apply agree_res, common_blind|].
    destruct (atomic v) eqn:At.
    - rewrite (alike_atom _ _ H At). destruct (lf_prim l v) as [z|] eqn:P; constructor. apply al_atom. eapply common_writes; eassumption.
    - assert (G : l = geo_type \/ exists a b, l = multi_type a b).
      { destruct A as [[->|[u U]]|[u U]]; [discriminate| |eapply common_accepts; eassumption].
        destruct (common_flat l C) as [->|[(a & b & ->)|(Q & _)]]; eauto. rewrite (Q _ _ U) in At. discriminate. }
      destruct G as [->|(a & b & ->)]; cbn [lf_prim geo_type multi_type].
      + now constructor.
      + destruct H as [v A'|l m F|l m F|d e [_ F]|c m n U V W Z]; cbn [multi_prim]; try (rewrite A' in At; discriminate);
          (destruct (locale_list a ++ locale_list b)%list as [|y ls] eqn:Ls; [constructor|]); try constructor.
        destruct (pick_locale_same d e (y :: ls) F); [constructor|]. now apply multi_cast_same.
  Qed.
End Order.
