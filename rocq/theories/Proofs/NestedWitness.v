(** Cases of nested models. *)
From Verif.Model Require Import Py Core Export Api.
From Verif.Spec Require Import ImportSpec NestedSpec.
From Verif.Conformance Require Import Sample.

(** The mapping of the outer model is used for a nested model that has none. *)
Theorem mapping_leaks : exists E r c d w m n f c' v,
  model_init E r c (VDict d) (VDict []) w = Ok m /\ kw_validate w = false /\ kw_convert w = true /\
  In (n, f) (fields_of E c) /\ fs_type (fd_spec f) = TModel c' /\ supplied d n (fd_spec f) (kw_mapping w) = Some (VDict v) /\
  dget n (map_models (kw_mapping w)) = None /\
  forall m', model_init E r c' (VDict v) (VDict []) (with_mapping w no_mapping) <> Ok m'.
Proof.
  exists Esample, (lib 10), 1%N,
    [(k "name", VStr (u "A")); (k "home", VDict [(k "street", VStr (u "s")); (k "plz", VInt 5)])],
    (KW (Mapping [(k "zip", [k "plz"])] [(k "other", no_mapping)]) true true true true true false false).
  eexists. exists (k "home"). eexists _, 0%N, _. split; [vm_compute; reflexivity|]. split; [reflexivity|]. split; [reflexivity|].
  split; [right; right; right; left; reflexivity|]. split; [reflexivity|]. split; [vm_compute; reflexivity|]. split; [reflexivity|].
  intros m'. vm_compute. discriminate.
Qed.
(** A nested instance made during a recursive import holds a key that is no field of it. *)
Theorem stray_key : exists E r c m d w m' n c' m1,
  kw_recursive w = true /\ model_import_data E r c m (VDict d) w = (m', None) /\ chain_get m' n = Some (VModel c' m1) /\
  exists y, In y (dkeys (md_converted m1)) /\ ~ In y (dkeys (fields_of E c')).
Proof.
  exists Esample, (lib 10), 1%N, (MD [] [(k "name", VStr (u "A")); (k "home", VNone)] [] None),
    [(k "home", VDict [(k "street", VStr (u "s"))])], (KW no_mapping true false false true true false true).
  eexists. exists (k "home"), 0%N. eexists. split; [reflexivity|]. split; [vm_compute; reflexivity|]. split; [vm_compute; reflexivity|].
  exists (k "home"). split; [vm_compute; auto|]. vm_compute. intros [H|[H|[]]]; discriminate H.
Qed.
