(** C93: what a later version of a program accepts, an earlier version with fewer fields accepts as well. *)
From Verif.Model Require Import Py Core Export Api.
From Verif.Spec Require Import ImportSpec OrderSpec EvolveSpec ForwardSpec.
From Verif.Proofs Require Import ForwardFacts ForwardWitness.
From Verif.Conformance Require Import Sample.
Open Scope string_scope.
Open Scope list_scope.

(** [adds E E2]: the classes of [E2] have the fields and validators of those of [E], in any order, and any further ones -
    required or not, with validators or not - at any depth of nesting.  [sent strict d]: data without instances; if unknown
    keys are refused, it does not use keys only [E2] knows.  [trim_data c m m2]: [m2] holds what [m] does at every depth,
    except for the new fields. *)
Theorem C93_construction : forall E E2, adds E E2 -> forall j c d w m, ordinary w -> sent E E2 (kw_strict w) (VDict d) ->
  model_init E2 (conv_at E2 j) c (VDict d) (VDict []) w = Ok m ->
  exists m2, model_init E (conv_at E j) c (VDict d) (VDict []) w = Ok m2 /\
    ((kw_validate w = true -> kw_partial w = true -> exists y u, chain_get m2 y = Some u) -> trim_data E E2 c m m2).
Proof. exact init_lenient. Qed.
Print Assumptions C93_construction.
(** The same for an instance made from an instance, *)
Theorem C93_copy : forall E E2, adds E E2 -> forall j c p q w m, ordinary w -> trim_data E E2 c p q ->
  model_init E2 (conv_at E2 j) c (VModel c p) (VDict []) w = Ok m ->
  exists m2, model_init E (conv_at E j) c (VModel c q) (VDict []) w = Ok m2 /\
    ((kw_validate w = true -> kw_partial w = true -> exists y u, chain_get m2 y = Some u) -> trim_data E E2 c m m2).
Proof. exact copy_lenient. Qed.
Print Assumptions C93_copy.
(** and for validate(). *)
Theorem C93_validate : forall E E2, adds E E2 -> forall j c m n w m1, ordinary w -> trim_data E E2 c m n ->
  model_validate E2 (conv_at E2 j) c m w = (m1, None) ->
  exists n1, model_validate E (conv_at E j) c n w = (n1, None) /\
    (md_converted n <> [] \/ md_converted m = [] \/ kw_partial w = false -> trim_data E E2 c m1 n1).
Proof. exact validate_lenient. Qed.
Print Assumptions C93_validate.
(** What the instances show: the fields both versions have read the same, literally so for types without parts and unions, *)
Theorem C93_reads : forall E E2 c m m2 y f, trim_data E E2 c m m2 -> In (y, f) (fields_of E c) ->
  both (trim E E2 true (fd_spec f)) (chain_get m y) (chain_get m2 y).
Proof. exact trim_reads. Qed.
Print Assumptions C93_reads.
Theorem C93_reads_same : forall E E2 c m m2 y f, trim_data E E2 c m m2 -> In (y, f) (fields_of E c) ->
  match fs_type (fd_spec f) with TLeaf _ | TUnion _ => chain_get m2 y = chain_get m y | _ => True end.
Proof. exact trim_reads_same. Qed.
Print Assumptions C93_reads_same.
(** and nothing is left of the others. *)
Theorem C93_drops_the_rest : forall E E2 c m m2 y, trim_data E E2 c m m2 -> ~ In y (dkeys (fields_of E c)) -> chain_get m2 y = None.
Proof. exact trim_other. Qed.
Print Assumptions C93_drops_the_rest.

(** With strict=True data that use a new key are refused by the earlier version. *)
Theorem C93_strict_refuted : exists E E2 c d w m, adds E E2 /\ ordinary w /\ kw_strict w = true /\ sent E E2 false (VDict d) /\
  model_init E2 (conv_at E2 9) c (VDict d) (VDict []) w = Ok m /\
  forall j m2, model_init E (conv_at E j) c (VDict d) (VDict []) w <> Ok m2.
Proof. exact strict_witness. Qed.
Print Assumptions C93_strict_refuted.
(** validate(partial=True) passes over an instance without new data; where only new fields have new data, the later version
    converts the other values again and the earlier one does not. *)
Theorem C93_nothing_to_validate_refuted : exists E E2 c m n w m1 n1, adds E E2 /\ ordinary w /\ trim_data E E2 c m n /\
  model_validate E2 (conv_at E2 9) c m w = (m1, None) /\ model_validate E (conv_at E 9) c n w = (n1, None) /\
  chain_get m1 (k "pin") = Some (VInt 1) /\ chain_get n1 (k "pin") = Some (VBool true).
Proof. exact kept_valid_witness. Qed.
Print Assumptions C93_nothing_to_validate_refuted.

(** The sample program and a later version of it, in which an address has a required country and a person required
    contacts; data for the later version. *)
Example C93_case : adds Esample Enext /\ ordinary kw_open /\ sent Esample Enext (kw_strict kw_open) (VDict bob) /\
  exists m, model_init Enext (conv_at Enext 10) 1 (VDict bob) (VDict []) kw_open = Ok m.
Proof. split; [exact next_adds|]. split; [split; reflexivity|]. split; [apply sentb_ok; reflexivity|]. eexists. vm_compute. reflexivity. Qed.
Example C93_case_result : exists m, model_init Esample (conv_at Esample 10) 1 (VDict bob) (VDict []) kw_open = Ok m /\
  chain_get m (k "name") = Some (VStr (u "Bob")) /\ chain_get m (k "contacts") = None /\
  exists a, chain_get m (k "home") = Some (VModel 0 a) /\ chain_get a (k "street") = Some (VStr (u "Main")) /\
    chain_get a (k "zip") = Some (VInt 123) /\ chain_get a (k "country") = None.
Proof. eexists. split; [vm_compute; reflexivity|]. split; [reflexivity|]. split; [reflexivity|]. eexists. repeat split. Qed.
(** A model level validator on a new field. *)
Example C93_case_model_validator : exists m m2, let d := VDict [(k "login", VStr (u "al")); (k "pin", VInt 7); (k "pin2", VInt 7); (k "note", VStr (u "hi"))] in
  model_init Enext (conv_at Enext 10) 2 d (VDict []) kw_open = Ok m /\ chain_get m (k "note") = Some (VStr (u "hi")) /\
  model_init Esample (conv_at Esample 10) 2 d (VDict []) kw_open = Ok m2 /\ chain_get m2 (k "pin2") = Some (VInt 7) /\
  chain_get m2 (k "note") = None.
Proof. do 2 eexists. split; [vm_compute; reflexivity|]. split; [reflexivity|]. split; [vm_compute; reflexivity|]. split; reflexivity. Qed.
