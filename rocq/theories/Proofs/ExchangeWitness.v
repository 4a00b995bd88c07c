(** The sample program and a later version of it exchange data. *)
From Verif.Model Require Import Py Core Export Api.
From Verif.Spec Require Import ImportSpec ValidateSpec CompoundSpec PrimitiveSpec ExportSpec OrderSpec EvolveSpec ForwardSpec ExchangeSpec.
From Verif.Proofs Require Import DictLemmas ExportLemmas RoundTrip Decide ExportWitness EvolveFacts ForwardFacts EvolveWitness ForwardWitness ExchangeFacts.
From Verif.Conformance Require Import Sample.
Open Scope string_scope.
Open Scope list_scope.

Ltac classes := match goal with |- forall c : cid, @?P c => apply (class_cases P) end; cbv beta.
Lemma same_pin_back : lenient_model Esample Elater 2%N (FS (o0 2) (TLeaf int_leaf)) same_pin.
Proof.
  intros m n d e v w K (_ & _ & _ & _ & L & _) Kv. apply trim_leaf_eq in Kv as <-. unfold same_pin. cbn [snd].
  specialize (L (k "pin") _ (or_intror (or_introl eq_refl))). destruct L as [|a b Kab]; [auto|].
  apply trim_leaf_eq in Kab as <-. auto.
Qed.
Lemma later_lenient c n f : In (n, f) (fields_of Esample c) -> lenient_field Esample Elater (fd_spec f).
Proof.
  assert (G : forall o l, lenient_field Esample Elater (FS o (TLeaf l))).
  { intros o l. apply lf_leaf. split; [|right; apply tr_leaf]. apply Forall_forall. intros g _ v w K. now apply trim_leaf_eq in K as <-. }
  revert c n f. classes.
  1-3: intros n f H; entries H; cbn [fd_spec]; try apply G.
  - apply lf_list; [|apply G]. split; [constructor|now left].
  - apply lf_model. split; [constructor|now left].
  - apply lf_union; [split; [constructor|now left]|]. intros m Hm. entries Hm; unfold member_of; eauto.
  - intros c A B n f H. unfold fields_of in H. rewrite A in H. destruct H.
Qed.
Lemma later_adds : adds Esample Elater.
Proof.
  constructor.
  - apply ex_names, later_extends.
  - apply (ex_plain _ _ later_extends).
  - exact later_kept.
  - apply (ex_separate _ _ later_extends).
  - exact later_lenient.
  - intros c. destruct (ex_checks _ _ later_extends c) as (R1 & R2 & H & _). split; [exact R1|]. split; [exact R2|].
    intros n f Hf. split; [apply (H n f Hf)|]. revert c n f Hf R1 R2 H. classes.
    + intros n f H _ _ _ vf; entries H; cbn; discriminate.
    + intros n f H _ _ _ vf; entries H; cbn; discriminate.
    + intros n f H _ _ _ vf; entries H; cbn; try discriminate. intros [= <-]. exact same_pin_back.
    + intros c A B n f H. unfold fields_of in H. rewrite A in H. destruct H.
  - reflexivity.
Qed.

Lemma later_tidy : tidy_env Elater.
Proof.
  constructor.
  - intros c. apply nodupb_ok. destruct c as [|[[]|[]|]]; reflexivity.
  - intros c. apply plainb_ok. destruct c as [|[[]|[]|]]; reflexivity.
  - intros c n vf. destruct c as [|[[]|[]|]]; cbn; intros H; try contradiction. destruct H as [[= <- <-]|[]]. reflexivity.
Qed.
Lemma later_clear c : clear_names (fields_of Elater c).
Proof.
  split.
  - destruct c as [|[[]|[]|]]; cbn; repeat constructor; cbn; intuition discriminate.
  - intros n f n' f'. destruct c as [|[[]|[]|]]; cbn; try tauto; intros H1 H2;
      repeat (destruct H1 as [H1|H1]; [injection H1 as <- <-|]); try contradiction;
      repeat (destruct H2 as [H2|H2]; [injection H2 as <- <-|]); try contradiction; cbn; intuition (discriminate || congruence).
Qed.
Lemma later_restoring : restoring_env Elater xprim.
Proof.
  constructor.
  - exact later_tidy.
  - exact later_clear.
  - intros c n f filt v _ H (g & -> & _). inversion H as [| | |R K]; try discriminate. destruct c as [|[[]|[]|]]; discriminate K.
  - intros c n f Hi lvl L. apply level_spec in L. subst lvl.
    destruct c as [|[[]|[]|]]; cbn in Hi; repeat (destruct Hi as [[= <- <-]|Hi]; [reflexivity|]); destruct Hi.
  - intros c n f Hi. destruct c as [|[[]|[]|]]; cbn in Hi; repeat (destruct Hi as [[= <- <-]|Hi]; [auto; right; (apply cn_other; exact I) || (apply cn_list; intros ? [])|]); destruct Hi.
  - intros c n f Hi. destruct c as [|[[]|[]|]]; cbn in Hi;
      repeat (destruct Hi as [[= <- <-]|Hi]; [cbn; auto using any_restoring, int_restoring, union_restoring|]); try (now destruct Hi).
    + intros c'. now rewrite N.eqb_eq.
    + split; [|split; [|exact int_restoring]].
      * split; [reflexivity|]. right. exists int_leaf. split; reflexivity.
      * intros lvl L. apply level_spec in L. subst lvl. reflexivity.
    + split; [|split; [|exact any_restoring]].
      * split; [reflexivity|]. right. exists any_leaf. split; reflexivity.
      * intros lvl L. apply level_spec in L. subst lvl. reflexivity.
Qed.

(** Data under names the later version has no new use for. *)
Fixpoint oldb (ks : list key) (v : pyval) : bool :=
  match v with
  | VModel _ _ | VUndef => false
  | VList l | VTuple l => forallb (oldb ks) l
  | VDict d => forallb (fun p => andb (negb (kmem (fst p) ks)) (oldb ks (snd p))) d
  | _ => true
  end.
Definition new_names : list key := [k "country"; k "visits"; k "friends"; k "note"].
Lemma later_new_keys y : new_key Esample Elater y -> In y new_names.
Proof.
  intros (c & n & f & H & Hy). apply later_new in H as [[-> [= -> ->]]|[[-> [= -> ->]]|[[-> [= -> ->]]|[-> [= -> ->]]]]];
    cbn in Hy; unfold new_names; cbn; intuition.
Qed.
Lemma oldb_ok v : oldb new_names v = true -> given Esample Elater false v.
Proof.
  revert v. fix IH 1. intros v. destruct v; try (intros _; apply gv_atom; exact I); try discriminate; intros H.
  - apply gv_list. cbn [oldb] in H. revert H. induction l as [|a l IHl]; intros H; constructor; cbn [forallb] in H; apply andb_true_iff in H as [H1 H2]; auto.
  - apply gv_tuple. cbn [oldb] in H. revert H. induction l as [|a l IHl]; intros H; constructor; cbn [forallb] in H; apply andb_true_iff in H as [H1 H2]; auto.
  - assert (F : Forall (fun p => given Esample Elater false (snd p) /\ ~ new_key Esample Elater (fst p)) d).
    { cbn [oldb] in H. revert H. induction d as [|[z a] d IHd]; intros H; constructor; cbn [forallb snd fst] in H |- *; apply andb_true_iff in H as [H1 H2]; [|auto].
      apply andb_true_iff in H1 as [H0 H1]. split; [exact (IH a H1)|]. intros Nk. apply later_new_keys, kmem_In in Nk. rewrite Nk in H0. discriminate. }
    apply gv_dict. rewrite Forall_forall in F. intros y v Hy. destruct (F _ Hy) as [A B]. split; [exact A|now right].
Qed.

(** Model(..., strict=False). *)
Definition kw_lax : kwargs := KW no_mapping true false true true true false false.
Definition alice_data : list (key * pyval) :=
  [(k "name", VStr (u "Alice")); (k "age", VInt 18); (k "tags", VList [VInt 1; VInt 1]);
   (k "home", VDict [(k "street", VStr (u "Main")); (k "ZIP", VInt 123)])].

(** What the new fields hold does not survive the way through the earlier version. *)
Lemma new_values_lost : exists E E2 c m w x d m2 d2 m3, extends E E2 /\ adds E E2 /\ ordinary w /\ kw_validate w = false /\
  restorable_instance E2 x (kw_partial w) c m /\ model_export_top E2 (export_at E2 9) c m x = Ok d /\ sent E E2 (kw_strict w) (VDict d) /\
  model_init E (conv_at E 9) c (VDict d) (VDict []) w = Ok m2 /\ model_export_top E (export_at E 9) c m2 x = Ok d2 /\
  given E E2 (kw_strict w) (VDict d2) /\ model_init E2 (conv_at E2 9) c (VDict d2) (VDict []) w = Ok m3 /\
  chain_get m (k "country") = Some (VStr (u "NL")) /\ chain_get m3 (k "country") = Some (VStr (u "??")).
Proof.
  pose (d0 := [(k "street", VStr (u "Main")); (k "zip", VInt 7); (k "country", VStr (u "NL"))]).
  destruct (model_init Elater (conv_at Elater 9) 0 (VDict d0) (VDict []) kw_lax) as [m|e] eqn:Hm; [|vm_compute in Hm; discriminate].
  exists Esample, Elater, 0%N, m, kw_lax, xprim. do 4 eexists.
  split; [exact later_extends|]. split; [exact later_adds|]. split; [split; reflexivity|]. split; [reflexivity|]. split.
  { refine (init_restorable Elater xprim 9 0 d0 kw_lax m later_restoring eq_refl eq_refl eq_refl eq_refl _ Hm).
    intros y v [[= <- <-]|[[= <- <-]|[[= <- <-]|[]]]]; apply cn_other; exact I. }
  vm_compute in Hm. injection Hm as <-.
  split; [vm_compute; reflexivity|]. split; [apply sentb_ok; reflexivity|]. split; [vm_compute; reflexivity|].
  split; [vm_compute; reflexivity|]. split; [apply oldb_ok; reflexivity|]. split; [vm_compute; reflexivity|]. split; reflexivity.
Qed.
