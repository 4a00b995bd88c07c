(** Sample classes and witnesses for C73. *)
From Verif.Model Require Import Py Core Export Api Compound Equality Build.
From Verif.Spec Require Import BuildSpec.
From Verif.Proofs Require Import DictLemmas.
From Verif.Conformance Require Import Sample.

(** IntType, with its limits. *)
Definition max_check (z : Z) : vldr := fun v =>
  match v with VInt n => if (z <? n)%Z then Some (XValid false [u "number_max"]) else None | _ => None end.
Definition int_class : leafclass :=
  LC (k "IntType") [k "min_value"; k "max_value"; k "strict"] [k "min_value"; k "max_value"; k "strict"] []
     (fun kw => Ok (int_leaf, match dget (k "max_value") kw with Some (VInt z) => [max_check z] | _ => [] end)).
Definition not_seven : vldr := fun v => match v with VInt 7 => Some (XValid false [u "seven"]) | _ => None end.
Definition plain_int : fspec := FS (o_inner (o0 1)) (TLeaf int_leaf).
Definition ctx_partial : ictx := kw_ctx kw1 (VDict []).
Definition ctx_valid : ictx := kw_ctx kwv (VDict []).
Definition xprim0 : ectx := ECtx Primitive NoRole true None.

Lemma int_own : own_params (CLeaf int_class).
Proof. intros x [<-|[<-|[<-|[]]]]; apply kmem_nIn; reflexivity. Qed.

Lemma choices_witness :
  exists E d str n f, new_type E d str n CList [(k "field", AClass (CLeaf int_class)); (k "choices", AVal (VList [VInt 1; VInt 2]))] = Ok f /\
    cv_validate (conv_at E 9) (set_up_field true 1 f) (VList [VInt 1; VInt 2]) ctx_valid = Raise (XValid false [u "choices"]).
Proof. exists Esample, 5%nat, Ok, 3%nat. eexists. split; reflexivity. Qed.

Lemma union_validators_witness :
  exists E d str n f, new_type E d str n (CUnion (k "UnionType") None)
      [(k "types", ATypes [AField (k "IntType") plain_int]); (k "validators", AFuns [not_seven])] = Ok f /\
    not_seven (VInt 7) <> None /\ cv_validate (conv_at E 9) (set_up_field true 1 f) (VInt 7) ctx_valid = Ok (VInt 7).
Proof. exists Esample, 5%nat, Ok, 3%nat. eexists. split; [reflexivity|]. split; [discriminate|reflexivity]. Qed.

Lemma serializable_validators_witness :
  exists E d str n f g, new_type E d str n (CLeaf int_class) [(k "choices", AVal (VList [VInt 1]))] = Ok f /\
    cv_validate (conv_at E 9) (set_up_field true 1 f) (VInt 7) ctx_valid = Raise (XValid false [u "choices"]) /\
    serializable_type E d str n (AField (k "IntType") f) [(k "validators", AFuns [])] = Ok g /\
    cv_validate (conv_at E 9) (set_up_field true 1 g) (VInt 7) ctx_valid = Ok (VInt 7).
Proof. exists Esample, 5%nat, Ok, 3%nat. do 2 eexists. split; [reflexivity|]. split; [reflexivity|]. split; reflexivity. Qed.
Lemma serializable_names_witness :
  exists E d str n kw f g h, new_type E d str n (CLeaf int_class) [] = Ok f /\
    serializable_type E d str n (AField (k "IntType") f) kw = Ok g /\ serializable_type E d str n (AClass (CLeaf int_class)) kw = Ok h /\
    fo_dfrom (fs_opts g) = [k "n"; k "o"] /\ fo_dfrom (fs_opts h) = [k "no"].
Proof. exists Esample, 5%nat, Ok, 3%nat, [(k "deserialize_from", AVal (VStr (u "no")))]. do 3 eexists. repeat (split; [reflexivity|]). reflexivity. Qed.
Lemma serializable_level_witness :
  exists E d str n f g, new_type E d str n (CLeaf int_class) [(k "serialize_when_none", AVal (VBool false))] = Ok f /\
    fo_level (fs_opts f) = Some NONEMPTY /\
    serializable_type E d str n (AField (k "IntType") f) [(k "serialized_name", AVal (VStr (u "n")))] = Ok g /\
    fo_level (fs_opts g) = None.
Proof. exists Esample, 5%nat, Ok, 3%nat. do 2 eexists. split; [reflexivity|]. split; [reflexivity|]. split; reflexivity. Qed.
