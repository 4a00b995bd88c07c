(** A later version of the sample program with required new fields, for the statements about versions. *)
From Verif.Model Require Import Py Core Export Api.
From Verif.Spec Require Import ImportSpec ValidateSpec PrimitiveSpec OrderSpec EvolveSpec ForwardSpec.
From Verif.Proofs Require Import DictLemmas ImportLemmas ApiLemmas Decide EvolveFacts ForwardFacts.
From Verif.Conformance Require Import Sample.
Open Scope string_scope.
Open Scope list_scope.

(** Address has got a required country, Person required contacts (a list of addresses) and declares home first, Signup a
    note with a validator. *)
Definition short_note : mvalidator := fun _ data v =>
  (data, match v with VStr s => if Nat.ltb 9 (length s) then Some (XValid false [u "long note"]) else None | _ => None end).
Definition Address3 : mclass :=
  MC (fld "country" (o_req (o0 0)) (TLeaf any_leaf) :: mc_fields Address) [] [] DEFAULT None.
Definition Person3 : mclass :=
  MC (rev (fld "contacts" (o_req (o0 1)) (TList (FS (o_inner (o0 1)) (TModel 0))) :: mc_fields Person)) [] (mc_roles Person) DEFAULT None.
Definition Signup3 : mclass :=
  MC (mc_fields Signup ++ [fld "note" (o0 2) (TLeaf any_leaf)]) (mc_validators Signup ++ [(k "note", short_note)]) [] DEFAULT None.
Definition Enext : env :=
  Env (fun c => match c with 0%N => Address3 | 1%N => Person3 | 2%N => Signup3 | _ => Nothing end) N.eqb (fun _ => []).

Lemma next_cases (P : cid -> Prop) : P 0%N -> P 1%N -> P 2%N ->
  (forall c, e_class Esample c = Nothing -> e_class Enext c = Nothing -> P c) -> forall c, P c.
Proof.
  intros H0 H1 H2 H [|[p|[p|p|]|]]; try assumption; apply H; reflexivity.
Qed.
Ltac entries H := cbn in H; repeat (destruct H as [H|H]); try contradiction; try (injection H as <- <-).
Ltac classes := match goal with |- forall c : cid, @?P c => apply (next_cases P) end; cbv beta.
Ltac member := cbn; solve [repeat (first [left; reflexivity | right])].

Lemma next_kept c n f : In (n, f) (fields_of Esample c) -> In (n, f) (fields_of Enext c).
Proof.
  revert c n f. classes.
  1-3: intros n f H; entries H; member.
  intros c A B n f. unfold fields_of. now rewrite A, B.
Qed.
Lemma same_pin_lenient : lenient_model Esample Enext 2%N (FS (o0 2) (TLeaf int_leaf)) same_pin.
Proof.
  intros m n d e v w K (_ & _ & _ & _ & L & _) Kv. apply trim_leaf_eq in Kv as <-. unfold same_pin. cbn [snd].
  specialize (L (k "pin") _ (or_intror (or_introl eq_refl))). destruct L as [|a b Kab]; [auto|].
  apply trim_leaf_eq in Kab as <-. auto.
Qed.
Lemma next_fields c n f : In (n, f) (fields_of Esample c) -> lenient_field Esample Enext (fd_spec f).
Proof.
  assert (G : forall o l, lenient_field Esample Enext (FS o (TLeaf l))).
  { intros o l. apply lf_leaf. split; [|right; apply tr_leaf]. apply Forall_forall. intros g _ v w K. now apply trim_leaf_eq in K as <-. }
  revert c n f. classes.
  1-3: intros n f H; entries H; cbn [fd_spec]; try apply G.
  - apply lf_list; [|apply G]. split; [constructor|now left].
  - apply lf_model. split; [constructor|now left].
  - apply lf_union; [split; [constructor|now left]|]. intros m Hm. entries Hm; unfold member_of; eauto.
  - intros c A B n f H. unfold fields_of in H. rewrite A in H. destruct H.
Qed.
Lemma next_adds : adds Esample Enext.
Proof.
  constructor.
  - classes; [split; apply nodupb_ok; reflexivity..|]. intros c A B. unfold fields_of. rewrite A, B. split; constructor.
  - classes; [apply plainb_ok; reflexivity..|]. intros c A B. unfold fields_of. rewrite B. intros n f [].
  - exact next_kept.
  - classes; [apply separate_ok; reflexivity..|]. intros c A B. unfold fields_of. rewrite B. intros n f n' f' [].
  - exact next_fields.
  - classes.
    + split; [intros ? ? []|]. split; [intros ? ? []|]. intros n f H; split; [reflexivity|discriminate].
    + split; [intros ? ? []|]. split; [intros ? ? []|]. intros n f H; split; [reflexivity|discriminate].
    + split; [intros n vf [[= <- <-]|[]] mut data v; reflexivity|].
      split; [intros n vf [[= <- <-]|[[= <- <-]|[]]] mut data v; reflexivity|].
      intros n f H. split; [entries H; reflexivity|]. intros vf. entries H; cbn; try discriminate. intros [= <-]. exact same_pin_lenient.
    + intros c A B. unfold fields_of. rewrite A, B. split; [intros ? ? []|]. split; [intros ? ? []|]. intros ? ? [].
  - reflexivity.
Qed.

(** Data without instances. *)
Fixpoint sentb (v : pyval) : bool :=
  match v with
  | VModel _ _ | VUndef => false
  | VList l | VTuple l => forallb sentb l
  | VDict d => forallb (fun p => sentb (snd p)) d
  | _ => true
  end.
Lemma sentb_ok E E2 v : sentb v = true -> sent E E2 false v.
Proof.
  revert v. fix IH 1. intros v. destruct v; try (intros _; apply st_atom; exact I); try discriminate; intros H.
  - apply st_list. cbn [sentb] in H. revert H. induction l as [|a l IHl]; intros H; constructor; cbn [forallb] in H; apply andb_true_iff in H as [H1 H2]; auto.
  - apply st_tuple. cbn [sentb] in H. revert H. induction l as [|a l IHl]; intros H; constructor; cbn [forallb] in H; apply andb_true_iff in H as [H1 H2]; auto.
  - assert (F : Forall (fun p => sent E E2 false (snd p)) d).
    { cbn [sentb] in H. revert H. induction d as [|[z a] d IHd]; intros H; constructor; cbn [forallb snd] in H; apply andb_true_iff in H as [H1 H2]; [exact (IH a H1)|auto]. }
    apply st_dict. rewrite Forall_forall in F. intros y v Hy. split; [exact (F _ Hy)|discriminate].
Qed.

(** Data for the later version, with a country at every address. *)
Definition bob : list (key * pyval) :=
  [(k "name", VStr (u "Bob")); (k "tags", VList [VInt 1; VBool true]);
   (k "contacts", VList [VDict [(k "street", VStr (u "Side")); (k "country", VStr (u "NL"))]]);
   (k "home", VDict [(k "street", VStr (u "Main")); (k "country", VStr (u "NL")); (k "postcode", VInt 123)])].
(** Model(..., strict=False, partial=False, validate=True). *)
Definition kw_open : kwargs := KW no_mapping false false true true true true false.

(** With strict=True the earlier version refuses the new keys. *)
Lemma strict_witness : exists E E2 c d w m, adds E E2 /\ ordinary w /\ kw_strict w = true /\ sent E E2 false (VDict d) /\
  model_init E2 (conv_at E2 9) c (VDict d) (VDict []) w = Ok m /\
  forall j m2, model_init E (conv_at E j) c (VDict d) (VDict []) w <> Ok m2.
Proof.
  exists Esample, Enext, 0%N, [(k "street", VStr (u "Main")); (k "country", VStr (u "NL"))], kw0.
  eexists. split; [exact next_adds|]. split; [split; reflexivity|]. split; [reflexivity|]. split; [apply sentb_ok; reflexivity|].
  split; [vm_compute; reflexivity|]. intros [|[|[|j]]] m2 H; vm_compute in H; discriminate.
Qed.
(** validate(partial=True) of an instance without new data leaves what was valid as it is; with new data it converts it again. *)
Lemma kept_valid_witness : exists E E2 c m n w m1 n1, adds E E2 /\ ordinary w /\ trim_data E E2 c m n /\
  model_validate E2 (conv_at E2 9) c m w = (m1, None) /\ model_validate E (conv_at E 9) c n w = (n1, None) /\
  chain_get m1 (k "pin") = Some (VInt 1) /\ chain_get n1 (k "pin") = Some (VBool true).
Proof.
  exists Esample, Enext, 2%N, (MD [] [(k "note", VStr (u "hi"))] [(k "pin", VBool true)] None), (MD [] [] [(k "pin", VBool true)] None),
    (KW no_mapping true false false false true true false).
  do 2 eexists. split; [exact next_adds|]. split; [split; reflexivity|]. split.
  - split; [reflexivity|]. split; [reflexivity|]. cbn [md_converted md_valid].
    assert (Lk : forall E0 (d : list (key * pyval)) y, ~ In y (dkeys (fields_of E0 2%N)) -> (forall z, In z (dkeys d) -> In z (dkeys (fields_of E0 2%N))) -> dget y d = None).
    { intros E0 d y Hy Hd. apply dget_None_keys. auto. }
    split.
    + split; [apply nodupb_ok; reflexivity|]. split; [constructor|]. split; [apply definedb_ok; reflexivity|]. split; [intros y; discriminate|].
      split; [intros n f H; entries H; constructor|]. split; [|reflexivity].
      intros y Hy. apply (Lk Enext); [exact Hy|]. intros z [<-|[]]. apply kmem_In. reflexivity.
    + split; [apply nodupb_ok; reflexivity|]. split; [apply nodupb_ok; reflexivity|]. split; [apply definedb_ok; reflexivity|]. split; [apply definedb_ok; reflexivity|].
      split; [intros n f H; entries H; cbn; constructor; apply tr_leaf|]. split.
      * intros y Hy. apply (Lk Enext); [exact Hy|]. intros z [<-|[]]. apply kmem_In. reflexivity.
      * intros y Hy. apply (Lk Esample); [exact Hy|]. intros z [<-|[]]. apply kmem_In. reflexivity.
  - split; [vm_compute; reflexivity|]. split; [vm_compute; reflexivity|]. split; reflexivity.
Qed.
