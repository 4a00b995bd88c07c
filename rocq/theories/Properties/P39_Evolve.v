(** C92: what a version of a program accepts, a later version with further optional fields accepts as well. *)
From Verif.Model Require Import Py Core Export Api.
From Verif.Spec Require Import ImportSpec OrderSpec EvolveSpec.
From Verif.Proofs Require Import EvolveFacts EvolveWitness.
From Verif.Conformance Require Import Sample.
Open Scope string_scope.
Open Scope list_scope.

(** [extends E E2]: the classes of [E2] have the fields and validators of those of [E], in any order, and possibly further
    optional ones under names not in use, at any depth of nesting.  [given strict d]: data without instances; if unknown keys are allowed, it does
    not use those of new fields.  [kin_data c m m2]: the two instances hold the same data at every depth, except that [m2] may
    hold defaults for the new fields. *)
Theorem C92_construction : forall E E2, extends E E2 -> forall j c d w m, ordinary w -> given E E2 (kw_strict w) (VDict d) ->
  (kw_validate w = true -> kw_partial w = true -> exists y u, chain_get m y = Some u) ->
  model_init E (conv_at E j) c (VDict d) (VDict []) w = Ok m ->
  exists m2, model_init E2 (conv_at E2 (3 + j)) c (VDict d) (VDict []) w = Ok m2 /\ kin_data E E2 c m m2.
Proof. exact init_tolerant. Qed.
Print Assumptions C92_construction.
(** The same for an instance made from an instance, *)
Theorem C92_copy : forall E E2, extends E E2 -> forall j c p q w m, ordinary w -> kin_data E E2 c p q ->
  (kw_validate w = true -> kw_partial w = true -> exists y u, chain_get m y = Some u) ->
  model_init E (conv_at E j) c (VModel c p) (VDict []) w = Ok m ->
  exists m2, model_init E2 (conv_at E2 (3 + j)) c (VModel c q) (VDict []) w = Ok m2 /\ kin_data E E2 c m m2.
Proof. exact copy_tolerant. Qed.
Print Assumptions C92_copy.
(** and for validate(). *)
Theorem C92_validate : forall E E2, extends E E2 -> forall j c m n w m1, ordinary w -> kin_data E E2 c m n ->
  md_converted n = [] \/ md_converted m <> [] \/ kw_partial w = false ->
  model_validate E (conv_at E j) c m w = (m1, None) ->
  exists n1, model_validate E2 (conv_at E2 (3 + j)) c n w = (n1, None) /\ kin_data E E2 c m1 n1.
Proof. exact validate_tolerant. Qed.
Print Assumptions C92_validate.
(** What the instances show: the fields both versions have read the same, literally so for types without parts and unions. *)
Theorem C92_reads : forall E E2 c m m2 y f, kin_data E E2 c m m2 -> In (y, f) (fields_of E c) ->
  both (kin E E2 false (fd_spec f)) (chain_get m y) (chain_get m2 y).
Proof. exact kin_reads. Qed.
Print Assumptions C92_reads.
Theorem C92_reads_same : forall E E2 c m m2 y f, kin_data E E2 c m m2 -> In (y, f) (fields_of E c) ->
  match fs_type (fd_spec f) with TLeaf _ | TUnion _ => chain_get m2 y = chain_get m y | _ => True end.
Proof. exact kin_reads_same. Qed.
Print Assumptions C92_reads_same.
(** A new field holds nothing, None, or a value it takes as it is. *)
Theorem C92_new_fields : forall E E2 c m m2 y f v, kin_data E E2 c m m2 -> new_field E E2 c y f ->
  chain_get m2 y = Some v -> takes_as_is (fd_spec f) v.
Proof. exact kin_new. Qed.
Print Assumptions C92_new_fields.

(** Data that use the key of a new field while unknown keys are allowed are not covered: the later version reads them. *)
Theorem C92_used_key_refuted : exists E E2 c d w m, extends E E2 /\ ordinary w /\ kw_strict w = false /\ given E E2 true (VDict d) /\
  model_init E (conv_at E 9) c (VDict d) (VDict []) w = Ok m /\
  forall j m2, model_init E2 (conv_at E2 (3 + j)) c (VDict d) (VDict []) w <> Ok m2.
Proof. exact used_key_witness. Qed.
Print Assumptions C92_used_key_refuted.
(** validate(partial=True) passes over an instance without new data; a default of a new field is new data. *)
Theorem C92_nothing_to_validate_refuted : exists E E2 c m n w m1, extends E E2 /\ ordinary w /\ kin_data E E2 c m n /\
  model_validate E (conv_at E 9) c m w = (m1, None) /\
  forall j n1, model_validate E2 (conv_at E2 (3 + j)) c n w <> (n1, None).
Proof. exact idle_witness. Qed.
Print Assumptions C92_nothing_to_validate_refuted.

(** The sample program and a later version of it: Address has a country, Person visits and friends, declared in another order. *)
Example C92_case : extends Esample Elater /\ ordinary kw0 /\ given Esample Elater (kw_strict kw0) (VDict alice) /\
  exists m, model_init Esample (conv_at Esample 10) 1 (VDict alice) (VDict []) kw0 = Ok m.
Proof. split; [exact later_extends|]. split; [split; reflexivity|]. split; [apply givenb_ok; reflexivity|]. eexists. vm_compute. reflexivity. Qed.
Example C92_case_result : exists m, model_init Elater (conv_at Elater 13) 1 (VDict alice) (VDict []) kw0 = Ok m /\
  chain_get m (k "name") = Some (VStr (u "Alice")) /\ chain_get m (k "visits") = Some (VInt 0) /\
  exists a, chain_get m (k "home") = Some (VModel 0 a) /\ chain_get a (k "street") = Some (VStr (u "Main")) /\
    chain_get a (k "country") = Some (VStr (u "??")).
Proof. eexists. split; [vm_compute; reflexivity|]. split; [reflexivity|]. split; [reflexivity|]. eexists. repeat split. Qed.
Example C92_case_validate : exists m m1, model_init Esample (conv_at Esample 10) 1 (VDict alice) (VDict []) kw0 = Ok m /\ md_converted m <> [] /\
  model_validate Esample (conv_at Esample 10) 1 m kwv = (m1, None) /\ ordinary kwv.
Proof. eexists. eexists. split; [vm_compute; reflexivity|]. split; [discriminate|]. split; [vm_compute; reflexivity|split; reflexivity]. Qed.
(** A model level validator that compares two fields. *)
Example C92_case_model_validator : exists m, model_init Esample (conv_at Esample 10) 2
  (VDict [(k "login", VStr (u "al")); (k "pin", VInt 7); (k "pin2", VInt 7); (k "code", VStr (u "x"))]) (VDict [])
  (KW no_mapping true true true true true true false) = Ok m /\ chain_get m (k "pin2") = Some (VInt 7).
Proof. eexists. split; vm_compute; reflexivity. Qed.
