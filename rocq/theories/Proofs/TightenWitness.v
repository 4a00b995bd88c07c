(** Stricter versions of the sample program. *)
From Verif.Model Require Import Py Core Export Api.
From Verif.Spec Require Import ImportSpec TightenSpec.
From Verif.Proofs Require Import TightenFacts.
From Verif.Conformance Require Import Sample.
Open Scope string_scope.
Open Scope list_scope.

(** Integers, but not booleans. *)
Definition strict_int : leaf :=
  Leaf (fun v => match v with VInt _ => Ok v | _ => Raise (XConv [u "number_coerce"]) end) (fun v => Ok v).
Definition up_to (b : Z) : vldr := fun v =>
  match v with VInt z => if (b <? z)%Z then Some (XValid false [u "too many"]) else None | _ => None end.
Definition texts_only : vldr := fun v => match v with VStr _ => None | _ => Some (XValid true [u "no text"]) end.
Definition some_login : mvalidator := fun _ data v => (data, match v with VStr [] => Some (XValid false [u "no login"]) | _ => None end).

(** Every field is required and has further validators; integers are integers. *)
Definition Address4 : mclass :=
  MC [ fld "street" (o_val [texts_only] (o_req (o0 0))) (TLeaf any_leaf);
       fld "zip" (o_req (o_from ["postcode"] (o_sname "ZIP" (o0 0)))) (TLeaf strict_int) ]
     [] [] DEFAULT None.
Definition Person4 : mclass :=
  MC [ fld "name" (o_val [texts_only] (o_req (o0 1))) (TLeaf any_leaf);
       fld "age" (o_val [up_to 150; non_negative] (o_def (VInt 18) (o0 1))) (TLeaf strict_int);
       fld "tags" (o0 1) (TList (FS (o_val [non_negative] (o_inner (o0 1))) (TLeaf strict_int)));
       fld "home" (o_req (o0 1)) (TModel 0) ]
     [] [(k "public", fun n _ => key_eqb n (k "age"))] DEFAULT None.
Definition Signup4 : mclass :=
  MC [ fld "name" (o_sname "login" (o_req (o0 2))) (TLeaf any_leaf);
       fld "pin" (o_val [non_negative; up_to 9999] (o0 2)) (TLeaf int_leaf);
       fld "pin2" (o0 2) (TLeaf int_leaf);
       fld "code" (o0 2) (TUnion [member_of int_leaf [non_negative]; member_of any_leaf [texts_only]]) ]
     [(k "name", some_login); (k "pin2", same_pin)] [] DEFAULT None.
Definition Estrict : env :=
  Env (fun c => match c with 0%N => Address4 | 1%N => Person4 | 2%N => Signup4 | _ => Nothing end) N.eqb (fun _ => []).

Lemma strict_refines : refines int_leaf strict_int.
Proof. split; [|auto]. intros v w. destruct v; cbn; try discriminate; auto. Qed.
Lemma any_refines l : refines l l.
Proof. split; auto. Qed.
Ltac opts := constructor; cbn; try reflexivity; try discriminate; try (intros _; reflexivity); try (intros v H g []; fail);
  try (intros v H g Hg; apply H; cbn in *; intuition).
Lemma strict_tightens : tightens Esample Estrict.
Proof.
  constructor; [|reflexivity|reflexivity].
  assert (Sig : tighter_class Signup Signup4).
  { constructor; try reflexivity.
    - unfold Signup, Signup4. cbn [mc_fields]. repeat constructor; cbn [fst snd fld fd_spec fd_get fd_set]; try reflexivity; try (intros v0 w0 H0; exact H0).
      all: try (intros v H g Hg; cbn in *; intuition; fail).
      all: try (cbn; discriminate).
      + do 3 eexists. split; [reflexivity|]. split; [reflexivity|]. opts.
      + do 3 eexists. split; [reflexivity|]. split; [reflexivity|]. opts.
    - intros n mut data v. unfold checked, Signup, Signup4. cbn [mc_validators dget].
      destruct (key_eqb n (k "name")) eqn:K; [|reflexivity]. apply DictLemmas.key_eqb_eq in K as ->. cbn. destruct v; try reflexivity. destruct s; [discriminate|reflexivity]. }
  assert (Add : tighter_class Address Address4).
  { constructor; try reflexivity. repeat constructor; cbn; try reflexivity; try discriminate; try apply strict_refines; try (intros v0 w0 H0; exact H0); intros v H g []. }
  assert (Per : tighter_class Person Person4).
  { constructor; try reflexivity. repeat constructor; cbn; try reflexivity; try discriminate; try apply strict_refines; try (intros v0 w0 H0; exact H0);
      intros v H g Hg; cbn in *; intuition. }
  assert (No : tighter_class Nothing Nothing).
  { constructor; try reflexivity. constructor. }
  intros [|[p|[p|p|]|]]; assumption.
Qed.

(** The sample program with further validators and nothing else. *)
Definition Echecked : env :=
  Env (fun c => match c with
                | 0%N => MC [ fld "street" (o_val [texts_only] (o_req (o0 0))) (TLeaf any_leaf);
                              fld "zip" (o_val [up_to 99; up_to 9] (o_from ["postcode"] (o_sname "ZIP" (o0 0)))) (TLeaf int_leaf) ]
                            [] [] DEFAULT None
                | 1%N => MC [ fld "name" (o_req (o0 1)) (TLeaf any_leaf);
                              fld "age" (o_def (VInt 18) (o0 1)) (TLeaf int_leaf);
                              fld "tags" (o_val [texts_only] (o0 1)) (TList (FS (o_val [up_to 0] (o_inner (o0 1))) (TLeaf int_leaf)));
                              fld "home" (o0 1) (TModel 0) ]
                            [(k "name", some_login)] [(k "public", fun n _ => key_eqb n (k "age"))] DEFAULT None
                | 2%N => Signup | _ => Nothing end) N.eqb (fun _ => []).
Lemma checked_same : same_checks Esample Echecked.
Proof.
  constructor; [|reflexivity|reflexivity].
  assert (R : forall c, Forall2 (fun p q => fst p = fst q /\ same_but (fd_spec (snd p)) (fd_spec (snd q)) /\
    fd_get (snd p) = fd_get (snd q) /\ fd_set (snd p) = fd_set (snd q)) (mc_fields (e_class Esample c)) (mc_fields (e_class Echecked c))).
  { intros [|[p|[p|p|]|]]; cbn; repeat constructor; reflexivity. }
  intros c. constructor; [exact (R c)|..]; destruct c as [|[p|[p|p|]|]]; reflexivity.
Qed.

(** A union prefers the first type that accepts: if that one refuses more, another may take the value, and differently. *)
Definition Ecode (l : leaf) : env :=
  Env (fun _ => MC [fld "code" (o0 0) (TUnion [member_of l []; member_of any_leaf []])] [] [] DEFAULT None) N.eqb (fun _ => []).
Lemma union_tight_witness : exists l l2, refines l l2 /\ exists c d w m m2,
  model_init (Ecode l2) (conv_at (Ecode l2) 9) c (VDict d) (VDict []) w = Ok m2 /\
  model_init (Ecode l) (conv_at (Ecode l) 9) c (VDict d) (VDict []) w = Ok m /\
  chain_get m (k "code") = Some (VInt 1) /\ chain_get m2 (k "code") = Some (VBool true).
Proof.
  exists int_leaf, strict_int. split; [exact strict_refines|]. exists 0%N, [(k "code", VBool true)], kw0. do 2 eexists.
  split; [vm_compute; reflexivity|]. split; [vm_compute; reflexivity|]. split; reflexivity.
Qed.
