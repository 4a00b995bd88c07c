(** Concrete programs for the export properties. *)
From Verif.Model Require Import Py Core Export Api.
From Verif.Spec Require Import ImportSpec ValidateSpec CompoundSpec ExportSpec.
From Verif.Proofs Require Import DictLemmas ExportLemmas RoundTrip Decide.
From Verif.Conformance Require Import Sample.
Open Scope string_scope.
Open Scope list_scope.

(** [m.to_primitive()] and [m.to_native()] without further arguments. *)
Definition xprim : ectx := ECtx Primitive NoRole true None.
Definition xnat : ectx := ECtx Native NoRole true None.
Definition xrole (s : string) : ectx := ECtx Primitive (RoleName (k s)) true None.
Definition xlevel (l : Z) : ectx := ECtx Primitive NoRole true (Some l).

Definition alice_model : mdata pyval :=
  MD [] [(k "name", VStr (u "Alice")); (k "age", VInt 18); (k "tags", VList [VInt 1; VInt 1]);
         (k "home", VModel 0 (MD [] [(k "street", VStr (u "Main")); (k "zip", VInt 123)] [] None))] [] None.

Lemma sample_tidy : tidy_env Esample.
Proof.
  constructor.
  - intros c. apply nodupb_ok. destruct c as [|[[]|[]|]]; reflexivity.
  - intros c. apply plainb_ok. destruct c as [|[[]|[]|]]; reflexivity.
  - intros c n vf. destruct c as [|[[]|[]|]]; cbn; intros H; try contradiction. destruct H as [[= <- <-]|[]]. reflexivity.
Qed.

Lemma sample_clear c : clear_names (fields_of Esample c).
Proof.
  split.
  - destruct c as [|[[]|[]|]]; cbn; repeat constructor; cbn; intuition discriminate.
  - intros n f n' f'. destruct c as [|[[]|[]|]]; cbn; try tauto; intros H1 H2;
      repeat (destruct H1 as [H1|H1]; [injection H1 as <- <-|]); try contradiction;
      repeat (destruct H2 as [H2|H2]; [injection H2 as <- <-|]); try contradiction; cbn; intuition (discriminate || congruence).
Qed.

Lemma any_restoring : restoring_leaf xprim any_leaf.
Proof. intros a v N [= <-]. split; [exact N|]. exists a. cbn. auto. Qed.
Lemma int_restoring : restoring_leaf xprim int_leaf.
Proof. intros a v N H. destruct a; try discriminate; injection H as <-; split; try reflexivity; eexists; cbn; auto. Qed.
Lemma union_restoring : restoring_union xprim [member_of int_leaf [non_negative]; member_of any_leaf []].
Proof.
  split; [intros m [<-|[<-|[]]]; do 2 eexists; reflexivity|]. intros a m v N H. cbn in H.
  destruct a; try discriminate; injection H as <- <-; (split; [reflexivity|]); do 5 eexists; cbn; repeat split; reflexivity.
Qed.

Lemma sample_restoring : restoring_env Esample xprim.
Proof.
  constructor.
  - exact sample_tidy.
  - exact sample_clear.
  - intros c n f filt v _ H (g & -> & _). inversion H as [| | |R K]; try discriminate. destruct c as [|[[]|[]|]]; discriminate K.
  - intros c n f Hi lvl L. apply level_spec in L. subst lvl.
    destruct c as [|[[]|[]|]]; cbn in Hi; repeat (destruct Hi as [[= <- <-]|Hi]; [reflexivity|]); destruct Hi.
  - intros c n f Hi. destruct c as [|[[]|[]|]]; cbn in Hi; repeat (destruct Hi as [[= <- <-]|Hi]; [auto; right; now apply cn_other|]); destruct Hi.
  - intros c n f Hi. destruct c as [|[[]|[]|]]; cbn in Hi;
      repeat (destruct Hi as [[= <- <-]|Hi]; [cbn; auto using any_restoring, int_restoring, union_restoring|]); try (now destruct Hi).
    + split; [|split; [|exact int_restoring]].
      * split; [reflexivity|]. right. exists int_leaf. split; reflexivity.
      * intros lvl L. apply level_spec in L. subst lvl. reflexivity.
    + intros c'. now rewrite N.eqb_eq.
Qed.

Lemma alice_clean : forall y v, In (y, v) alice -> clean v.
Proof.
  cbn. intros y v [[= <- <-]|[[= <- <-]|[[= <- <-]|[]]]].
  - now apply cn_other.
  - apply cn_list. intros v [<-|[<-|[]]]; now apply cn_other.
  - apply cn_dict. intros z w [[= <- <-]|[[= <- <-]|[]]]; now apply cn_other.
Qed.

(** Two people that differ in the age only. *)
Definition alice_older : mdata pyval :=
  MD [] [(k "name", VStr (u "Alice")); (k "age", VInt 81); (k "tags", VList [VInt 1; VInt 1]);
         (k "home", VModel 0 (MD [] [(k "street", VStr (u "Main")); (k "zip", VInt 123)] [] None))] [] None.
Definition xage : ectx := ECtx Primitive (RoleFn (fun n _ => key_eqb n (k "age"))) true None.
Lemma alice_alike : alike_instances Esample xage 1 (VModel 1 alice_model) (VModel 1 alice_older).
Proof.
  constructor. intros filt n f H Hi. inversion H as [g R|? ? R|? R|R]; cbn in R; try discriminate R. injection R as <-. subst filt.
  cbn in Hi. repeat (destruct Hi as [[= <- <-]|Hi]); try contradiction.
  - right. split; [intros (g & [= <-] & K); discriminate|]. split; [intros (g & [= <-] & K); discriminate|]. apply al_same.
  - left. split; eexists; split; reflexivity.
  - right. split; [intros (g & [= <-] & K); discriminate|]. split; [intros (g & [= <-] & K); discriminate|]. apply al_same.
  - right. split; [intros (g & [= <-] & K); discriminate|]. split; [intros (g & [= <-] & K); discriminate|]. apply al_same.
Qed.

(** class Team: members = ListType(ModelType(Address)); boss = ModelType(Address), where class 4 extends class 0. *)
Definition Team : mclass :=
  MC [ fld "members" (o0 3) (TList (FS (o_inner (o0 3)) (TModel 5)));
       fld "boss" (o0 3) (TModel 5) ] [] [] DEFAULT None.
Definition Worker : mclass := MC [ fld "name" (o0 5) (TLeaf any_leaf) ] [] [] DEFAULT None.
Definition Manager : mclass := MC [ fld "name" (o0 4) (TLeaf any_leaf) ] [] [] DEFAULT None.
Definition Eteam : env :=
  Env (fun c => match c with 3%N => Team | 4%N => Manager | 5%N => Worker | _ => Nothing end)
      (fun a b => N.eqb a b || (N.eqb a 4 && N.eqb b 5)) (fun c => if N.eqb c 5 then [4%N] else []).
Definition wname (s : string) : mdata pyval := MD [] [(k "name", VStr (u s))] [] None.
Definition team_none : mdata pyval := MD [] [(k "members", VList [VNone]); (k "boss", VModel 5 (wname "b"))] [] None.
Definition team_sub : mdata pyval := MD [] [(k "members", VList []); (k "boss", VModel 4 (wname "b"))] [] None.
Lemma team_clear : clear_env Eteam.
Proof.
  constructor.
  - intros c. apply plainb_ok. destruct c as [|[[|[]|]|[[]|[]|]|]]; reflexivity.
  - intros c. split.
    + destruct c as [|[[|[]|]|[[]|[]|]|]]; cbn; repeat constructor; cbn; intuition discriminate.
    + intros n f n' f'. destruct c as [|[[|[]|]|[[]|[]|]|]]; cbn; try tauto; intros H1 H2;
        repeat (destruct H1 as [H1|H1]; [injection H1 as <- <-|]); try contradiction;
        repeat (destruct H2 as [H2|H2]; [injection H2 as <- <-|]); try contradiction; cbn; intuition (discriminate || congruence).
Qed.
Lemma none_member_lost : exists E c m d m', clear_env E /\ model_export_top E (export_at E 9) c m xprim = Ok d /\
  model_init E (conv_at E 30) c (VDict d) (VDict []) kw0 = Ok m' /\
  dget (k "members") (md_converted m) = Some (VList [VNone]) /\
  dget (k "members") (md_converted m') = Some (VList [VModel 5 (MD [] [(k "name", VNone)] [] None)]).
Proof.
  exists Eteam, 3%N, team_none. do 2 eexists. split; [exact team_clear|]. split; [vm_compute; reflexivity|].
  split; [vm_compute; reflexivity|]. split; reflexivity.
Qed.
Lemma subclass_lost : exists E c m d m', clear_env E /\ model_export_top E (export_at E 9) c m xprim = Ok d /\
  model_init E (conv_at E 30) c (VDict d) (VDict []) kw0 = Ok m' /\
  dget (k "boss") (md_converted m) = Some (VModel 4 (wname "b")) /\
  dget (k "boss") (md_converted m') = Some (VModel 5 (wname "b")).
Proof.
  exists Eteam, 3%N, team_sub. do 2 eexists. split; [exact team_clear|]. split; [vm_compute; reflexivity|].
  split; [vm_compute; reflexivity|]. split; reflexivity.
Qed.
