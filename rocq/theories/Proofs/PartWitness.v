(** Parts of exports: the sample program, and a program in which two fields share a public name. *)
From Verif.Model Require Import Py Core Export Api Role.
From Verif.Spec Require Import ImportSpec ExportSpec RoleSpec PartSpec.
From Verif.Proofs Require Import DictLemmas Decide ExportWitness PartFacts.
From Verif.Conformance Require Import Sample.
Open Scope string_scope.
Open Scope list_scope.

Lemma sample_showing : showing Esample.
Proof.
  constructor.
  - intros c. apply nodupb_ok. destruct c as [|[[]|[]|]]; reflexivity.
  - intros c. apply nodupb_ok. destruct c as [|[[]|[]|]]; reflexivity.
  - intros c n f H. destruct c as [|[[]|[]|]]; cbn in H; repeat (destruct H as [[= <- <-]|H]; [repeat constructor|]); try destruct H.
    intros m [<-|[<-|[]]]; unfold member_of; eauto.
  - intros c n f g v w H G. apply (plainb_ok (fields_of Esample c)) in H as [H _]; [congruence|]. destruct c as [|[[]|[]|]]; reflexivity.
Qed.
Ltac keys := first [apply ky_atom; discriminate | apply ky_list; repeat (constructor; [keys|]); constructor
  | apply ky_dict; [apply nodupb_ok; reflexivity|let H := fresh in intros ? ? H; cbn in H; repeat (destruct H as [[= <- <-]|H]; [keys|]); destruct H]
  | apply ky_model; let H := fresh in intros ? ? H; cbn in H; repeat (destruct H as [[= <- <-]|H]; [keys|]); destruct H ].
Lemma alice_keyed : keyed (VModel 1 alice_model).
Proof. unfold alice_model. keys. Qed.
Lemma sample_known : forall c, ~ unknown_role Esample c (ECtx Primitive (RoleName (k "public")) false None).
Proof. intros c (n & _ & _ & _ & H). discriminate H. Qed.

(** class Both: a = BaseType(serialized_name="x"); b = BaseType(serialized_name="x") *)
Definition Both : mclass :=
  MC [fld "a" (o_sname "x" (o0 0)) (TLeaf any_leaf); fld "b" (o_sname "x" (o0 0)) (TLeaf any_leaf)] [] [] DEFAULT None.
Definition Eboth : env := Env (fun c => match c with 0%N => Both | _ => Nothing end) N.eqb (fun _ => []).
Definition both_data : mdata pyval := MD [] [(k "a", VStr (u "secret")); (k "b", VStr (u "public"))] [] None.
Lemma colliding : exists E x x2 c m d d2, shows_less E x x2 /\ (forall c n f, In (n, f) (fields_of E c) -> simple_unions (fd_spec f) /\ fd_get f = None) /\
  (forall c, NoDup (dkeys (fields_of E c))) /\ keyed (VModel c m) /\
  model_export_top E (export_at E 9) c m x2 = Ok d2 /\ model_export_top E (export_at E 9) c m x = Ok d /\
  d2 = [(k "x", VStr (u "public"))] /\ d = [(k "x", VStr (u "secret"))] /\ ~ part_of (VDict d) (VDict d2).
Proof.
  exists Eboth, (ECtx Primitive (RoleFn (role_call (build (Start Except [k "b"])))) true None), (ECtx Primitive (RoleFn (role_call (build (Start Everything [])))) true None), 0%N, both_data. do 2 eexists.
  split; [apply less_role; intros n _; exact I|].
  split. { intros c n f H. destruct c as [|[[]|[]|]]; cbn in H; repeat (destruct H as [[= <- <-]|H]; [split; [constructor|reflexivity]|]); destruct H. }
  split; [intros c; apply nodupb_ok; destruct c as [|[[]|[]|]]; reflexivity|].
  split; [unfold both_data; keys|]. split; [vm_compute; reflexivity|]. split; [vm_compute; reflexivity|]. split; [reflexivity|]. split; [reflexivity|].
  intros P. destruct (part_entries _ _ _ _ P (or_introl eq_refl)) as (w & [[= <-]|[]] & Q). inversion Q.
Qed.
