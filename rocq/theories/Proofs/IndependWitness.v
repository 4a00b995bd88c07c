(** Cases for the claim that parts of the data do not influence each other. *)
From Verif.Model Require Import Py Core Export Api.
From Verif.Spec Require Import ImportSpec IndependSpec.
From Verif.Proofs Require Import DictLemmas Independ.
From Verif.Conformance Require Import Sample.
Open Scope string_scope.
Open Scope list_scope.

Ltac nodup := repeat constructor; cbn; intros H; repeat (destruct H as [H|H]; [discriminate H|]); exact H.
Lemma sample_names : distinct_names Esample.
Proof.
  intros c. unfold fields_of, Esample. cbn [e_class]. destruct c as [|[p|[p|p|]|]]; split; try nodup; cbn;
    intros n f n' f' H H' Q; repeat (destruct H as [H|H]; [injection H as <- <-|]); try contradiction;
    repeat (destruct H' as [H'|H']; [injection H' as <- <-|]); try contradiction; try reflexivity; discriminate Q.
Qed.

(** The wrong postcode of [alice] with all else right, and with all else wrong. *)
Definition amiss (v : pyval) : list (key * pyval) :=
  [(k "name", VStr (u "Alice")); (k "tags", VList [VInt 1; VNone]); (k "home", VDict [(k "street", VStr (u "Main")); (k "postcode", v)])].
Definition all_amiss (v : pyval) : list (key * pyval) :=
  [(k "home", VDict [(k "postcode", v); (k "mayor", VNone)]); (k "extra", VNone); (k "tags", VStr (u "none")); (k "age", VStr (u "old"))].
Lemma defined_all d : Forall (fun e => snd e <> VUndef) d -> defined_dict d.
Proof. intros F y H. apply dget_In in H. rewrite Forall_forall in F. exact (F _ H eq_refl). Qed.
Lemma amiss_same v : v <> VUndef -> same_at Esample (TModel 1) [SField (k "home"); SField (k "zip")] (VDict (amiss v)) (VDict (all_amiss v)).
Proof.
  intros N. eapply (sa_field Esample 1%N (k "home") (snd (fld "home" (o0 1) (TModel 0)))).
  - unfold fields_of. cbn. do 3 right. left. reflexivity.
  - reflexivity.
  - apply defined_all. repeat constructor; discriminate.
  - apply defined_all. repeat constructor; discriminate.
  - reflexivity.
  - reflexivity.
  - eapply (sa_field Esample 0%N (k "zip") (snd (fld "zip" (o_from ["postcode"] (o_sname "ZIP" (o0 0))) (TLeaf int_leaf)))).
    + unfold fields_of. cbn. right. left. reflexivity.
    + reflexivity.
    + apply defined_all. repeat constructor; cbn; [discriminate|exact N].
    + apply defined_all. repeat constructor; cbn; [exact N|discriminate].
    + reflexivity.
    + reflexivity.
    + constructor.
Qed.
(** Elements of a list. *)
Lemma tags_same v : same_at Esample (TModel 1) [SField (k "tags"); SItem 1] (VDict [(k "name", VNone); (k "tags", VList [VInt 1; v])])
  (VDict [(k "tags", VList [VNone; v; VStr (u "x")])]).
Proof.
  eapply (sa_field Esample 1%N (k "tags") (snd (fld "tags" (o0 1) (TList (FS (o_inner (o0 1)) (TLeaf int_leaf)))))).
  - unfold fields_of. cbn. do 2 right. left. reflexivity.
  - reflexivity.
  - apply defined_all. repeat constructor; discriminate.
  - apply defined_all. repeat constructor; discriminate.
  - reflexivity.
  - reflexivity.
  - eapply sa_item; [reflexivity|reflexivity|constructor].
Qed.

(** class Twins: left = Int(serialized_name="n"), right = Int(serialized_name="n");
    class Table: cells = Dict(Int) *)
Definition Twins : mclass :=
  MC [ fld "left" (o_sname "n" (o0 0)) (TLeaf int_leaf); fld "right" (o_sname "n" (o0 0)) (TLeaf int_leaf) ] [] [] DEFAULT None.
Definition Etwins : env := Env (fun c => match c with 0%N => Twins | _ => Nothing end) N.eqb (fun _ => []).
Lemma shared_public_name : exists d e, same_at Etwins (TModel 0) [SField (k "left")] (VDict d) (VDict e) /\
  settled (model_init Etwins (conv_at Etwins 5) 0 (VDict d) (VDict []) kw0) /\ settled (model_init Etwins (conv_at Etwins 5) 0 (VDict e) (VDict []) kw0) /\
  error_at Etwins (TModel 0) [SField (k "left")] (model_init Etwins (conv_at Etwins 5) 0 (VDict d) (VDict []) kw0) <>
  error_at Etwins (TModel 0) [SField (k "left")] (model_init Etwins (conv_at Etwins 5) 0 (VDict e) (VDict []) kw0).
Proof.
  exists [(k "left", VInt 1); (k "right", VInt 2)], [(k "left", VInt 1); (k "right", VStr (u "x"))]. split.
  - eapply (sa_field Etwins 0%N (k "left") (snd (fld "left" (o_sname "n" (o0 0)) (TLeaf int_leaf)))).
    + unfold fields_of. cbn. left. reflexivity.
    + reflexivity.
    + apply defined_all. repeat constructor; discriminate.
    + apply defined_all. repeat constructor; discriminate.
    + reflexivity.
    + reflexivity.
    + constructor.
  - split; [|split]; [| |vm_compute; discriminate]; intros ex Q; vm_compute in Q; [discriminate|injection Q as <-; reflexivity].
Qed.
Lemma list_value_lost : exists d e a b, same_at Esample (TModel 1) [SField (k "tags"); SItem 1] (VDict d) (VDict e) /\
  kept 1 (model_init Esample (lib 5) 1 (VDict d) (VDict []) kw0) = Some a /\ kept 1 (model_init Esample (lib 5) 1 (VDict e) (VDict []) kw0) = Some b /\
  value_at Esample (TModel 1) [SField (k "tags"); SItem 1] a = Some (VInt 2) /\ value_at Esample (TModel 1) [SField (k "tags"); SItem 1] b = None.
Proof.
  exists [(k "name", VNone); (k "tags", VList [VInt 1; VInt 2])], [(k "tags", VList [VNone; VInt 2; VStr (u "x")])]. do 2 eexists.
  split; [apply tags_same|]. split; [vm_compute; reflexivity|]. split; [vm_compute; reflexivity|]. split; vm_compute; reflexivity.
Qed.
Lemma validator_sees_all : exists d e, same_at Esample (TModel 2) [SField (k "pin2")] (VDict d) (VDict e) /\
  (exists m, model_init Esample (lib 5) 2 (VDict d) (VDict []) kwv = Ok m) /\ settled (model_init Esample (lib 5) 2 (VDict e) (VDict []) kwv) /\
  error_at Esample (TModel 2) [SField (k "pin2")] (model_init Esample (lib 5) 2 (VDict e) (VDict []) kwv) = Some (NMsgs [u "pins differ"]).
Proof.
  exists [(k "pin", VInt 1); (k "pin2", VInt 1)], [(k "pin", VInt 2); (k "pin2", VInt 1)]. split.
  - eapply (sa_field Esample 2%N (k "pin2") (snd (fld "pin2" (o0 2) (TLeaf int_leaf)))).
    + unfold fields_of. cbn. do 2 right. left. reflexivity.
    + reflexivity.
    + apply defined_all. repeat constructor; discriminate.
    + apply defined_all. repeat constructor; discriminate.
    + reflexivity.
    + reflexivity.
    + constructor.
  - split; [eexists; vm_compute; reflexivity|]. split; [|vm_compute; reflexivity]. intros ex Q; vm_compute in Q; injection Q as <-; reflexivity.
Qed.
