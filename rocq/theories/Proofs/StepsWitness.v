(** Importing data in steps: the sample program, and where the steps differ from one. *)
From Verif.Model Require Import Py Core Export Api.
From Verif.Spec Require Import ImportSpec NestedSpec StepsSpec.
From Verif.Proofs Require Import DictLemmas StepsFacts Decide.
From Verif.Conformance Require Import Sample.
Open Scope string_scope.
Open Scope list_scope.

Lemma sample_steppable c : steppable Esample c.
Proof.
  assert (G : forall n f, In (n, f) (fields_of Esample c) -> (fd_get f = None /\ fd_set f = None) /\ defining (fd_spec f)).
  { assert (I : no_undef int_leaf) by (intros v; destruct v; discriminate).
    assert (A : no_undef any_leaf) by (intros v Hv; cbn; congruence).
    assert (U : forall vs1 vs2 m, In m [member_of int_leaf vs1; member_of any_leaf vs2] -> exists o l, m = FS o (TLeaf l) /\ no_undef l).
    { intros vs1 vs2 m [<-|[<-|[]]]; do 2 eexists; split; try reflexivity; assumption. }
    destruct c as [|[p|[p|p|]|]]; cbn; intros n f H;
      repeat (destruct H as [[= <- <-]|H]; [split; [split; reflexivity|cbn; first [exact I|exact A|exact Logic.I|apply U]]|]); destruct H. }
  constructor.
  - destruct c as [|[p|[p|p|]|]]; now apply nodupb_ok.
  - intros n f H. exact (proj1 (G n f H)).
  - intros n f H. now apply (G n f).
Qed.
(** The settings import_data uses, but recursive=True. *)
Definition kw_deep : kwargs := KW no_mapping false false false false true false true.
Definition home0 : mdata pyval := MD [] [(k "street", VStr (u "Main")); (k "zip", VInt 1)] [] None.
Definition ann0 : mdata pyval := MD [] [(k "name", VStr (u "Ann")); (k "age", VInt 40); (k "home", VModel 0 home0)] [] None.
Definition step1 : list (key * pyval) := [(k "age", VBool true); (k "tags", VList [VInt 4])].
Definition step2 : list (key * pyval) := [(k "home", VDict [(k "street", VStr (u "Oak")); (k "postcode", VInt 7)])].

Lemma ann_complete : complete Esample 1 kw1 ann0.
Proof. intros n f H. cbn in H. repeat (destruct H as [[= <- <-]|H]; [intros R; try discriminate R; right; discriminate|]). destruct H. Qed.
Lemma steps_apart : apart Esample 1 no_mapping step1 step2.
Proof. intros n f H. cbn in H. repeat (destruct H as [[= <- <-]|H]; [vm_compute; auto|]). destruct H. Qed.

Lemma alias_witness : exists E c w m d1 d2 m1 m2 m3 n, steppable E c /\ replacing w /\ settled m /\ input d1 /\ input d2 /\ NoDup (dkeys d2) /\
  model_import_data E (conv_at E 9) c m (VDict d1) w = (m1, None) /\ model_import_data E (conv_at E 9) c m1 (VDict d2) w = (m2, None) /\
  model_import_data E (conv_at E 9) c m (VDict (dupdate d1 d2)) w = (m3, None) /\
  chain_get m2 n = Some (VInt 2) /\ chain_get m3 n = Some (VInt 1).
Proof.
  exists Esample, 0%N, kw1, home0, [(k "zip", VInt 1)], [(k "ZIP", VInt 2)]. do 3 eexists. exists (k "zip").
  split; [apply sample_steppable|]. split; [split; reflexivity|]. split; [split; [reflexivity|now apply defined_data_ok]|].
  split; [split; [intros y; cbn; destruct (key_eqb y _); discriminate|discriminate]|].
  split; [split; [intros y; cbn; destruct (key_eqb y _); discriminate|discriminate]|].
  split; [now apply nodupb_ok|]. do 4 (split; [vm_compute; reflexivity|]). vm_compute. reflexivity.
Qed.
Lemma deep_witness : exists E c w m d1 d2 m1 m2 m3 n h2 h3, steppable E c /\ kw_validate w = false /\ kw_recursive w = true /\
  settled m /\ input d1 /\ input d2 /\ NoDup (dkeys d2) /\ one_key_each E c (kw_mapping w) d1 d2 /\
  model_import_data E (conv_at E 9) c m (VDict d1) w = (m1, None) /\ model_import_data E (conv_at E 9) c m1 (VDict d2) w = (m2, None) /\
  model_import_data E (conv_at E 9) c m (VDict (dupdate d1 d2)) w = (m3, None) /\
  chain_get m2 n = Some (VModel 0 h2) /\ chain_get m3 n = Some (VModel 0 h3) /\
  chain_get h2 (k "zip") = Some (VInt 7) /\ chain_get h3 (k "zip") = Some (VInt 1).
Proof.
  exists Esample, 1%N, kw_deep, ann0, [(k "home", VDict [(k "zip", VInt 7)])], [(k "home", VDict [(k "street", VStr (u "Oak"))])]. do 3 eexists. exists (k "home"). do 2 eexists.
  split; [apply sample_steppable|]. split; [reflexivity|]. split; [reflexivity|]. split; [split; [reflexivity|now apply defined_data_ok]|].
  split; [split; [intros y; cbn; destruct (key_eqb y _); discriminate|discriminate]|].
  split; [split; [intros y; cbn; destruct (key_eqb y _); discriminate|discriminate]|].
  split; [now apply nodupb_ok|]. split; [intros n f y1 y2 _ _ _ [<-|[]] [<-|[]]; reflexivity|]. do 6 (split; [vm_compute; reflexivity|]). vm_compute. reflexivity.
Qed.
