(** Concrete programs that add fields to classes. *)
From Verif.Model Require Import Py Core Export Meta Append.
From Verif.Spec Require Import MetaSpec AppendSpec.
From Verif.Proofs Require Import DictLemmas MetaHeap MetaWitness AppendFacts.
From Verif.Conformance Require Import Sample.
From Coq Require Import Lia.

Definition unused_ok (P : program) (a : addr) : bool :=
  match nth_error (p_heap P) a with Some o => Z.eqb (ob_pos o) (Z.of_nat a) | None => false end
  && negb (existsb (Nat.eqb a) (schema_objs P)) && negb (existsb (Nat.eqb a) (element_objs P)).
Lemma unused_ok_sound P a : unused_ok P a = true -> unused P a.
Proof.
  unfold unused_ok. intros E. apply andb_true_iff in E. destruct E as [E E3]. apply andb_true_iff in E.
  destruct E as [E1 E2]. repeat split.
  - destruct (nth_error (p_heap P) a) as [o|]; [|discriminate]. exists o. split; [reflexivity|now apply Z.eqb_eq].
  - intros S. apply negb_true_iff in E2. apply existsb_nat in E2. apply E2. now apply in_schema_objs.
  - intros S. apply negb_true_iff in E3. apply existsb_nat in E3. apply E3. now apply is_element_objs.
Qed.

Lemma no_inside h a b : match nth_error h a with Some o => inner_of (ob_kind o) | None => None end = None -> ~ inside h a b.
Proof. intros E I. destruct I as [a o i H K|a o i b H K _]; rewrite H in E; congruence. Qed.

Lemma rated_unused : unused rated_program 3.
Proof. apply unused_ok_sound. vm_compute. reflexivity. Qed.
Lemma rated_own_elements : own_elements rated_program 3.
Proof. intros b d I. exfalso. revert I. apply no_inside. reflexivity. Qed.

Lemma rated_fields d : (forall y f, field_of rated_program d y = Some f -> fd_get f = None).
Proof.
  intros y f. unfold field_of, env_of. cbn [e_class]. destruct (class_at rated_program d) as [c|] eqn:K; [|discriminate].
  unfold class_at in K. destruct (N.to_nat d) as [|[|n]].
  - injection K as <-. discriminate.
  - injection K as <-. cbn [class_of mc_fields cl_fields map dget fst snd].
    destruct (key_eqb y (k "title")); [intros E; now injection E as <-|].
    destruct (key_eqb y (k "lines")); [intros E; now injection E as <-|discriminate].
  - destruct n; discriminate.
Qed.
Lemma rated_getters : getters_lack rated_program Note (k "stars").
Proof. intros d y f g m w F Gf. rewrite (rated_fields d y f F) in Gf. discriminate. Qed.

Lemma a_note_lacks : lacks Note (k "stars") a_note.
Proof.
  apply lacks_model; [reflexivity|]. intros y v. unfold chain_get. cbn [md_unsafe md_converted md_valid dget].
  destruct (key_eqb y (k "title")); [intros E; injection E as <-; now apply lacks_atom|].
  destruct (key_eqb y (k "lines")); [|discriminate]. intros E. injection E as <-. apply lacks_list.
  intros w [<-|[<-|[]]]; now apply lacks_atom.
Qed.

(** class A: x; class B(A): pass; A._append_field('y', ...) *)
Definition sub_program : program :=
  run program0 [ SType opt0 (KLeaf any_leaf); SClass [0%N] [(k "x", AField 0)] []; SClass [1%N] [] [];
                 SType opt0 (KLeaf any_leaf) ].
Lemma sub_made : made sub_program.
Proof. apply run_made; [constructor|vm_compute; reflexivity]. Qed.
Theorem subclass_lacks : exists P c x a d, grown P /\ class_at P c <> None /\ unused P a /\
  derived P d c /\ field_of (append_field P c x a) c x <> None /\ field_of (append_field P c x a) d x = None.
Proof.
  exists sub_program, 1%N, (k "y"), 2, 2%N. split; [exact (made_grown _ sub_made)|].
  split; [vm_compute; discriminate|]. split; [apply unused_ok_sound; vm_compute; reflexivity|].
  split; [eapply derived_base; [vm_compute; reflexivity|now left|constructor]|].
  split; [vm_compute; discriminate|vm_compute; reflexivity].
Qed.

(** spare = BaseType(); class A: x; A._append_field('y', spare) *)
Definition spare_program : program :=
  run program0 [ SType opt0 (KLeaf any_leaf); SType opt0 (KLeaf any_leaf); SClass [0%N] [(k "x", AField 1)] [] ].
Lemma spare_made : made spare_program.
Proof. apply run_made; [constructor|vm_compute; reflexivity]. Qed.
Theorem not_by_creation : exists P c x y p q, grown P /\
  created P c x = Some p /\ created P c y = Some q /\ before x y (names_of P c) /\ (q < p)%Z.
Proof.
  exists (append_field spare_program 1%N (k "y") 0), 1%N, (k "x"), (k "y"), 1%Z, 0%Z.
  split; [apply grown_append; [exact (made_grown _ spare_made)|vm_compute; discriminate|vm_compute; reflexivity|
    apply unused_ok_sound; vm_compute; reflexivity]|].
  split; [vm_compute; reflexivity|]. split; [vm_compute; reflexivity|]. split; [|lia].
  exists [], [], []. vm_compute. reflexivity.
Qed.

(** line = BaseType(); class Note: lines = ListType(line); class Brief: serialize_when_none = False;
    Brief._append_field('more', ListType(line)) *)
Definition shared_program : program :=
  run program0 [ SType opt0 (KLeaf any_leaf); SType opt0 (KList 0); SClass [0%N] [(k "lines", AField 1)] [];
                 SClass [0%N] [] brief_own; SType opt0 (KList 0) ].
Lemma shared_made : made shared_program.
Proof. apply run_made; [constructor|vm_compute; reflexivity]. Qed.
Theorem shared_elements : exists P c x a d v w w', grown P /\ class_at P c <> None /\
  unused P a /\ d <> c /\ to_primitive P d v = Ok w /\ to_primitive (append_field P c x a) d v = Ok w' /\ w <> w'.
Proof.
  exists shared_program, 2%N, (k "more"), 2, 1%N, (VModel 1%N (MD [] [(k "lines", VList [VInt 1; VNone])] [] None)).
  do 2 eexists. split; [exact (made_grown _ shared_made)|]. split; [vm_compute; discriminate|].
  split; [apply unused_ok_sound; vm_compute; reflexivity|]. split; [discriminate|].
  split; [vm_compute; reflexivity|]. split; [vm_compute; reflexivity|discriminate].
Qed.
