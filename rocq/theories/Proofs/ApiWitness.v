(** Concrete instances refuting what does not hold for the API (C19, C20, C47-C50). *)
From Verif.Model Require Import Py Core Export Api.
From Verif.Spec Require Import ImportSpec ValidateSpec ApiSpec.
From Verif.Proofs Require Import DictLemmas ImportLemmas Decide.
From Verif.Conformance Require Import Sample.
Open Scope string_scope.
Open Scope list_scope.

(** class Square: side = Int(); area = serializable(side * side); twice = settable, reading side * 2. *)
Definition side_of (m : pyval) : res pyval :=
  match m with
  | VModel _ d => match chain_get d (k "side") with
                  | Some (VInt z) => Ok (VInt z)
                  | _ => Raise (XPy EUndefinedValueError)
                  end
  | _ => Raise (XPy ETypeError)
  end.
Definition on_side (g : Z -> Z) (m : pyval) : res pyval :=
  rbind (side_of m) (fun v => match v with VInt z => Ok (VInt (g z)) | _ => Ok v end).
Definition set_twice (m v : pyval) : pyval * option exn :=
  match m, v with
  | VModel c d, VInt z => (VModel c (md_set_converted d (dset (k "side") (VInt (z / 2)) (md_converted d))), None)
  | _, _ => (m, Some (XPy ETypeError))
  end.
Definition Square : mclass :=
  MC [ fld "side" (o0 0) (TLeaf int_leaf);
       (k "area", Fld (FS (o0 0) (TLeaf int_leaf)) (Some (on_side (fun z => z * z)%Z)) None);
       (k "twice", Fld (FS (o0 0) (TLeaf int_leaf)) (Some (on_side (fun z => z * 2)%Z)) (Some set_twice)) ]
     [] [] DEFAULT None.
Definition Esq : env := Env (fun _ => Square) N.eqb (fun _ => []).
Definition sq3 : mdata pyval := MD [] [(k "side", VInt 3)] [] None.

Lemma lazy_assignment_lost :
  exists E r c m x v f m', ordinary E c x f /\ model_setitem E r c m x v = (m', None) /\
    model_getitem E c m x = Ok (VInt 1) /\ model_getitem E c m' x = Ok (VInt 1) /\ v = VInt 5.
Proof.
  exists Esample, (lib 5), 1%N, (model_init_lazy [(k "age", VInt 1)] []), (k "age"), (VInt 5).
  do 2 eexists. repeat split; reflexivity.
Qed.

Lemma contains_not_keys :
  exists E c m n, model_contains E c m n = true /\ ~ In n (model_keys E c m).
Proof.
  exists Esq, 0%N, sq3, (k "area"). split; [reflexivity|]. cbn. intros [H|[]]. discriminate.
Qed.

(** len() counts what is stored, not what is iterated. *)
Lemma len_not_keys :
  exists E c m m' w, model_import_data E (conv_at E 5) c m (VDict [(k "side", VInt 3); (k "twice", VInt 8)]) w = (m', None) /\
    model_len m' <> length (model_keys E c m').
Proof.
  exists Esq, 0%N, md_empty. eexists. exists kw1. split; [reflexivity|]. cbn. discriminate.
Qed.

Lemma serialize_changes_state :
  exists E r fe c m x m' d n v, model_serialize E r fe c m x = (m', Ok d) /\
    chain_get m n = None /\ chain_get m' n = Some v.
Proof.
  exists Esample, (lib 8), (export_at Esample 8), 1%N, (MD [] [(k "name", VStr (u "Al"))] [] None).
  exists (ECtx Primitive NoRole true None). do 2 eexists. exists (k "age"). eexists. repeat split; reflexivity.
Qed.
Lemma serialize_drops_data :
  exists E r fe c m x m' e n v, model_serialize E r fe c m x = (m', Raise e) /\
    chain_get m n = Some v /\ chain_get m' n = None.
Proof.
  exists Esample, (lib 8), (export_at Esample 8), 2%N, (MD [] [(k "name", VStr (u "Al")); (k "pin", VInt (-4))] [] None).
  exists (ECtx Primitive (RoleName (k "nope")) true None). do 2 eexists. exists (k "pin"). eexists. repeat split; reflexivity.
Qed.

(** A lazily stored value given under the serialized name is not readable. *)
Lemma lazy_alias_unreadable :
  exists E c raw n f v, ordinary E c n f /\ supplied raw n (fd_spec f) no_mapping = Some v /\
    model_getitem E c (model_init_lazy raw []) n = Raise (XPy EUndefinedValueError).
Proof.
  exists Esample, 0%N, [(k "ZIP", VInt 7)], (k "zip"). do 2 eexists. repeat split; reflexivity.
Qed.
(** An assignment made before validation wins over the lazily stored value, which was the one readable. *)
Lemma lazy_validated_other_value :
  exists E r c raw x f m1 m2, ordinary E c x f /\
    model_setitem E r c (model_init_lazy raw []) x (VInt 5) = (m1, None) /\
    model_getitem E c m1 x = Ok (VInt 1) /\
    model_validate E r c m1 kwv = (m2, None) /\ model_getitem E c m2 x = Ok (VInt 5).
Proof.
  exists Esample, (lib 8), 2%N, [(k "pin", VInt 1)], (k "pin").
  do 3 eexists. repeat split; reflexivity.
Qed.

Lemma delete_keeps_value :
  exists E r c m w m' m'' x f v, model_validate E r c m w = (m', None) /\ ordinary E c x f /\
    model_getitem E c m' x = Ok v /\ model_delitem E c m' x = (m'', Some (XPy EKeyError)) /\
    model_getitem E c m'' x = Ok v.
Proof.
  exists Esample, (lib 8), 2%N, (MD [] [(k "name", VStr (u "Al"))] [] None), kwv.
  do 2 eexists. exists (k "name"). do 2 eexists. repeat split; reflexivity.
Qed.
(** With trusted data the deletion even reports success. *)
Lemma delete_silently_ignored :
  exists E r c m w m' m'' x f v, model_validate E r c m w = (m', None) /\ ordinary E c x f /\
    model_getitem E c m' x = Ok v /\ model_delitem E c m' x = (m'', None) /\
    model_getitem E c m'' x = Ok v.
Proof.
  exists Esample, (lib 8), 2%N, (MD [] [(k "pin", VInt 4)] [(k "name", VStr (u "Al"))] None), kwv.
  do 2 eexists. exists (k "name"). do 2 eexists. repeat split; reflexivity.
Qed.

Lemma import_validate_ignores_input :
  exists E r c m raw w m' n f v, plain_fields (fields_of E c) /\ ordinary E c n f /\ kw_validate w = true /\
    model_import_data E r c m (VDict raw) w = (m', None) /\
    dget n raw = Some v /\ cv_field r (fd_spec f) v (kw_ctx w (VDict [])) = Ok v /\
    model_getitem E c m' n <> Ok v.
Proof.
  exists Esample, (lib 8), 2%N, (MD [] [(k "pin", VInt 4)] [] None), [(k "pin", VInt 9)], kwv.
  eexists. exists (k "pin"). do 2 eexists.
  split; [apply plainb_ok; reflexivity|]. repeat split; try reflexivity. discriminate.
Qed.
