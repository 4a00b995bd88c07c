(** A later version of the sample program, for the statements about versions. *)
From Verif.Model Require Import Py Core Export Api.
From Verif.Spec Require Import ImportSpec ValidateSpec PrimitiveSpec OrderSpec EvolveSpec.
From Verif.Proofs Require Import DictLemmas ImportLemmas ApiLemmas Decide EvolveFacts.
From Verif.Conformance Require Import Sample.
Open Scope string_scope.
Open Scope list_scope.

(** Address has got a country, Person a number of visits and a list of friends (and declares home first), Signup a note. *)
Definition Address2 : mclass :=
  MC (fld "country" (o_def (VStr (u "??")) (o0 0)) (TLeaf any_leaf) :: mc_fields Address) [] [] DEFAULT None.
Definition Person2 : mclass :=
  MC (rev (fld "visits" (o_val [non_negative] (o_def (VInt 0) (o0 1))) (TLeaf int_leaf) ::
           fld "friends" (o_def (VList []) (o0 1)) (TList (FS (o_inner (o0 1)) (TLeaf any_leaf))) :: mc_fields Person))
     [] (mc_roles Person) DEFAULT None.
Definition Signup2 : mclass :=
  MC (mc_fields Signup ++ [fld "note" (o0 2) (TLeaf any_leaf)]) (mc_validators Signup) [] DEFAULT None.
Definition Elater : env :=
  Env (fun c => match c with 0%N => Address2 | 1%N => Person2 | 2%N => Signup2 | _ => Nothing end) N.eqb (fun _ => []).

Lemma class_cases (P : cid -> Prop) : P 0%N -> P 1%N -> P 2%N ->
  (forall c, e_class Esample c = Nothing -> e_class Elater c = Nothing -> P c) -> forall c, P c.
Proof.
  intros H0 H1 H2 H [|[p|[p|p|]|]]; try assumption; apply H; reflexivity.
Qed.
Ltac entries H := cbn in H; repeat (destruct H as [H|H]); try contradiction; try (injection H as <- <-).
Ltac classes := match goal with |- forall c : cid, @?P c => apply (class_cases P) end; cbv beta.
Ltac member := cbn; solve [repeat (first [left; reflexivity | right])].

Lemma later_kept c n f : In (n, f) (fields_of Esample c) -> In (n, f) (fields_of Elater c).
Proof.
  revert c n f. classes.
  1-3: intros n f H; entries H; member.
  intros c A B n f. unfold fields_of. now rewrite A, B.
Qed.
Lemma later_new c n f : new_field Esample Elater c n f ->
  (c = 0%N /\ (n, f) = fld "country" (o_def (VStr (u "??")) (o0 0)) (TLeaf any_leaf)) \/
  (c = 1%N /\ (n, f) = fld "visits" (o_val [non_negative] (o_def (VInt 0) (o0 1))) (TLeaf int_leaf)) \/
  (c = 1%N /\ (n, f) = fld "friends" (o_def (VList []) (o0 1)) (TList (FS (o_inner (o0 1)) (TLeaf any_leaf)))) \/
  (c = 2%N /\ (n, f) = fld "note" (o0 2) (TLeaf any_leaf)).
Proof.
  revert c n f. classes.
  1-3: intros n f [H N]; entries H; try (exfalso; apply N; member); [>..]; repeat first [left; split; reflexivity | right]; split; reflexivity.
  intros c A B n f [H _]. unfold fields_of in H. rewrite B in H. destruct H.
Qed.
Lemma same_pin_tolerant : tolerant_model Esample Elater 2%N (FS (o0 2) (TLeaf int_leaf)) same_pin.
Proof.
  intros m n d e v w K (_ & _ & _ & _ & L & _) Kv. apply kin_leaf_eq in Kv as <-. unfold same_pin. cbn [snd].
  specialize (L (k "pin") _ (or_intror (or_introl eq_refl))). destruct L as [|a b Kab]; [auto|].
  apply kin_leaf_eq in Kab as <-. auto.
Qed.
Lemma later_fields c n f : In (n, f) (fields_of Esample c) -> tolerant_field Esample Elater (fd_spec f).
Proof.
  assert (G : forall o l, tolerant_field Esample Elater (FS o (TLeaf l))).
  { intros o l. apply tf_leaf. split; [|right; apply kin_leaf]. apply Forall_forall. intros g _ v w K. now apply kin_leaf_eq in K as <-. }
  revert c n f. classes.
  1-3: intros n f H; entries H; cbn [fd_spec]; try apply G.
  - apply tf_list; [|apply G]. split; [constructor|now left].
  - apply tf_model. split; [constructor|now left].
  - apply tf_union; [split; [constructor|now left]|]. intros m Hm. entries Hm; unfold member_of; eauto.
  - intros c A B n f H. unfold fields_of in H. rewrite A in H. destruct H.
Qed.

Lemma later_extends : extends Esample Elater.
Proof.
  constructor.
  - classes; [split; apply nodupb_ok; reflexivity..|]. intros c A B. unfold fields_of. rewrite A, B. split; constructor.
  - classes; [apply plainb_ok; reflexivity..|]. intros c A B. unfold fields_of. rewrite B. intros n f [].
  - exact later_kept.
  - intros c n f H. apply later_new in H as [[-> [= -> ->]]|[[-> [= -> ->]]|[[-> [= -> ->]]|[-> [= -> ->]]]]]; (split; [reflexivity|]); cbn [fs_opts fd_spec o0 o_def o_val fo_default].
    + right. right. split; [discriminate|]. split; [constructor|reflexivity].
    + right. right. split; [discriminate|]. split; [repeat constructor|reflexivity].
    + right. right. split; [discriminate|]. split; [constructor|reflexivity].
    + now left.
  - intros c n f y H Hy A. apply all_input_keys_acceptable, kmem_In in A.
    apply later_new in H as [[-> [= -> ->]]|[[-> [= -> ->]]|[[-> [= -> ->]]|[-> [= -> ->]]]]]; cbn in Hy; destruct Hy as [<-|[]]; vm_compute in A; discriminate.
  - classes; [apply separate_ok; reflexivity..|]. intros c A B. unfold fields_of. rewrite B. intros n f n' f' [].
  - exact later_fields.
  - classes.
    + split; [intros ? ? []|]. split; [intros ? ? []|]. split; [intros n f H; split; [reflexivity|discriminate]|reflexivity].
    + split; [intros ? ? []|]. split; [intros ? ? []|]. split; [intros n f H; split; [reflexivity|discriminate]|reflexivity].
    + assert (R : readonly_validators (mc_validators Signup)) by (intros n vf [[= <- <-]|[]] mut data v; reflexivity).
      split; [exact R|]. split; [exact R|]. split.
      * intros n f H. split; [reflexivity|]. intros vf. entries H; cbn; try discriminate. intros [= <-]. exact same_pin_tolerant.
      * intros n f H. apply later_new in H as [[? _]|[[? _]|[[? _]|[_ [= -> ->]]]]]; try discriminate. reflexivity.
    + intros c A B. unfold fields_of. rewrite A, B. split; [intros ? ? []|]. split; [intros ? ? []|]. split; [intros ? ? []|]. reflexivity.
  - reflexivity.
Qed.

(** Data without instances. *)
Fixpoint givenb (v : pyval) : bool :=
  match v with
  | VModel _ _ | VUndef => false
  | VList l | VTuple l => forallb givenb l
  | VDict d => forallb (fun p => givenb (snd p)) d
  | _ => true
  end.
Lemma givenb_ok E E2 v : givenb v = true -> given E E2 true v.
Proof.
  revert v. fix IH 1. intros v. destruct v; try (intros _; apply gv_atom; exact I); try discriminate; intros H.
  - apply gv_list. cbn [givenb] in H. revert H. induction l as [|a l IHl]; intros H; constructor; cbn [forallb] in H; apply andb_true_iff in H as [H1 H2]; auto.
  - apply gv_tuple. cbn [givenb] in H. revert H. induction l as [|a l IHl]; intros H; constructor; cbn [forallb] in H; apply andb_true_iff in H as [H1 H2]; auto.
  - assert (F : Forall (fun p => given E E2 true (snd p)) d).
    { cbn [givenb] in H. revert H. induction d as [|[z a] d IHd]; intros H; constructor; cbn [forallb snd] in H; apply andb_true_iff in H as [H1 H2]; [exact (IH a H1)|auto]. }
    apply gv_dict. rewrite Forall_forall in F. intros y v Hy. split; [exact (F _ Hy)|now left].
Qed.

(** Data that happen to use the key of a new field. *)
Lemma used_key_witness : exists E E2 c d w m, extends E E2 /\ ordinary w /\ kw_strict w = false /\ given E E2 true (VDict d) /\
  model_init E (conv_at E 9) c (VDict d) (VDict []) w = Ok m /\
  forall j m2, model_init E2 (conv_at E2 (3 + j)) c (VDict d) (VDict []) w <> Ok m2.
Proof.
  exists Esample, Elater, 1%N, [(k "name", VStr (u "Al")); (k "visits", VStr (u "many"))], (KW no_mapping true false true true true false false).
  eexists. split; [exact later_extends|]. split; [split; reflexivity|]. split; [reflexivity|]. split; [apply givenb_ok; reflexivity|].
  split; [vm_compute; reflexivity|]. intros j m2 H. unfold model_init, model__convert in H.
  cbn -[conv_at] in H. unfold import_loop in H. cbn -[conv_at import_fields] in H. cbn in H. discriminate.
Qed.
(** validate(partial=True) of an instance with nothing to validate does nothing; with something to validate it looks at
    everything. *)
Lemma idle_witness : exists E E2 c m n w m1, extends E E2 /\ ordinary w /\ kin_data E E2 c m n /\
  model_validate E (conv_at E 9) c m w = (m1, None) /\
  forall j n1, model_validate E2 (conv_at E2 (3 + j)) c n w <> (n1, None).
Proof.
  exists Esample, Elater, 1%N, (MD [] [] [(k "age", VInt (-1))] None), (MD [] [(k "visits", VInt 0)] [(k "age", VInt (-1))] None),
    (KW no_mapping true false false false true true false).
  eexists. split; [exact later_extends|]. split; [split; reflexivity|]. split.
  - split; [reflexivity|]. split; [reflexivity|]. cbn [md_converted md_valid].
    assert (Lk : forall (d : list (key * pyval)) y, ~ In y (dkeys (fields_of Elater 1%N)) -> (forall z, In z (dkeys d) -> In z (dkeys (fields_of Elater 1%N))) -> dget y d = None).
    { intros d y Hy Hd. apply dget_None_keys. auto. }
    split.
    + split; [constructor|]. split; [apply nodupb_ok; reflexivity|]. split; [intros y; discriminate|]. split; [apply definedb_ok; reflexivity|].
      split; [intros n f H; entries H; constructor|]. split.
      * intros n f H. split; [reflexivity|]. intros v. apply later_new in H as [[? _]|[[_ [= -> ->]]|[[_ [= -> ->]]|[? _]]]]; try discriminate.
        intros [= <-]. right. split; [discriminate|]. split; [repeat constructor|reflexivity].
      * intros y Hy. split; [reflexivity|]. apply Lk; [exact Hy|]. intros z [<-|[]]. apply kmem_In. reflexivity.
    + split; [apply nodupb_ok; reflexivity|]. split; [apply nodupb_ok; reflexivity|]. split; [apply definedb_ok; reflexivity|]. split; [apply definedb_ok; reflexivity|].
      split; [intros n f H; entries H; cbn; constructor; apply kin_leaf|]. split.
      * intros n f H. apply later_new in H as [[? _]|[[_ [= -> ->]]|[[_ [= -> ->]]|[? _]]]]; try discriminate; (split; [reflexivity|discriminate]).
      * intros y Hy. split; (apply Lk; [exact Hy|]; intros z [<-|[]]; apply kmem_In; reflexivity).
  - split; [reflexivity|]. intros j n1 H. cbn in H. discriminate.
Qed.
