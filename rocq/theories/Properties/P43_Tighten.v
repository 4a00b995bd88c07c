(** C96: a stricter version of a program accepts nothing else and nothing differently. *)
From Verif.Model Require Import Py Core Export Api.
From Verif.Spec Require Import ImportSpec TightenSpec.
From Verif.Proofs Require Import TightenFacts TightenWitness.
From Verif.Conformance Require Import Sample.
Open Scope string_scope.
Open Scope list_scope.

(** What the stricter version accepts, the other one accepts as well and with the same outcome: on construction, *)
Theorem C96_construction : forall E E2, tightens E E2 -> forall j c raw td w m,
  model_init E2 (conv_at E2 j) c raw td w = Ok m -> model_init E (conv_at E j) c raw td w = Ok m.
Proof. exact init_tight. Qed.
Print Assumptions C96_construction.
(** on validation, *)
Theorem C96_validate : forall E E2, tightens E E2 -> forall j c m w m1,
  model_validate E2 (conv_at E2 j) c m w = (m1, None) -> model_validate E (conv_at E j) c m w = (m1, None).
Proof. exact validate_tight. Qed.
Print Assumptions C96_validate.
(** when importing into an instance, *)
Theorem C96_import_data : forall E E2, tightens E E2 -> forall j c m raw w m1,
  model_import_data E2 (conv_at E2 j) c m raw w = (m1, None) -> model_import_data E (conv_at E j) c m raw w = (m1, None).
Proof. exact import_tight. Qed.
Print Assumptions C96_import_data.
(** on assignment *)
Theorem C96_assignment : forall E E2, tightens E E2 -> forall j c m n v m1,
  model_setitem E2 (conv_at E2 j) c m n v = (m1, None) -> model_setitem E (conv_at E j) c m n v = (m1, None).
Proof. exact setitem_tight. Qed.
Print Assumptions C96_assignment.
(** and on export. *)
Theorem C96_export : forall E E2, tightens E E2 -> forall n c m x d,
  model_export_top E2 (export_at E2 n) c m x = Ok d -> model_export_top E (export_at E n) c m x = Ok d.
Proof. exact export_tight. Qed.
Print Assumptions C96_export.

(** Validators alone matter for nothing but validation: without it two versions that differ in them do the same, errors included. *)
Theorem C96_validators_on_construction : forall E E2, same_checks E E2 -> forall j c raw td w, kw_validate w = false ->
  model_init E (conv_at E j) c raw td w = model_init E2 (conv_at E2 j) c raw td w.
Proof. exact init_same. Qed.
Print Assumptions C96_validators_on_construction.
Theorem C96_validators_on_import : forall E E2, same_checks E E2 -> forall j c m raw w, kw_validate w = false ->
  model_import_data E (conv_at E j) c m raw w = model_import_data E2 (conv_at E2 j) c m raw w.
Proof. exact import_same. Qed.
Print Assumptions C96_validators_on_import.
Theorem C96_validators_on_assignment : forall E E2, same_checks E E2 -> forall j c m n v,
  model_setitem E (conv_at E j) c m n v = model_setitem E2 (conv_at E2 j) c m n v.
Proof. exact setitem_same. Qed.
Print Assumptions C96_validators_on_assignment.
Theorem C96_validators_on_export : forall E E2, same_checks E E2 -> forall n c m x,
  model_export_top E (export_at E n) c m x = model_export_top E2 (export_at E2 n) c m x.
Proof. exact export_same. Qed.
Print Assumptions C96_validators_on_export.

(** A stricter type inside a union can change what is accepted: another member then takes the value, and differently. *)
Theorem C96_union_member_types_refuted : exists l l2, refines l l2 /\ exists c d w m m2,
  model_init (Ecode l2) (conv_at (Ecode l2) 9) c (VDict d) (VDict []) w = Ok m2 /\
  model_init (Ecode l) (conv_at (Ecode l) 9) c (VDict d) (VDict []) w = Ok m /\
  chain_get m (k "code") = Some (VInt 1) /\ chain_get m2 (k "code") = Some (VBool true).
Proof. exact union_tight_witness. Qed.
Print Assumptions C96_union_member_types_refuted.

(** The sample program, a stricter version and one with further validators. *)
Example C96_case : tightens Esample Estrict /\ same_checks Esample Echecked.
Proof. exact (conj strict_tightens checked_same). Qed.
(** The stricter version takes a complete person; it refuses one with no home or a boolean as age, and an age of 200 on validation. *)
Definition ann (a : pyval) : list (key * pyval) :=
  [(k "name", VStr (u "Ann")); (k "age", a); (k "home", VDict [(k "street", VStr (u "Main")); (k "postcode", VInt 7)])].
Example C96_case_result :
  (exists m, model_init Estrict (conv_at Estrict 9) 1 (VDict (ann (VInt 40))) (VDict []) kwv = Ok m) /\
  (exists e p, model_init Estrict (conv_at Estrict 9) 1 (VDict (ann (VBool true))) (VDict []) kwv = Raise (XData e p)) /\
  (exists m, model_init Esample (conv_at Esample 9) 1 (VDict (ann (VBool true))) (VDict []) kwv = Ok m) /\
  (exists e p, model_init Estrict (conv_at Estrict 9) 1 (VDict (ann (VInt 200))) (VDict []) kwv = Raise (XData e p)) /\
  (exists m, model_init Estrict (conv_at Estrict 9) 1 (VDict (ann (VInt 200))) (VDict []) kw0 = Ok m) /\
  (exists m, model_init Esample (conv_at Esample 9) 1 (VDict (ann (VInt 200))) (VDict []) kwv = Ok m) /\
  (exists e p, model_init Estrict (conv_at Estrict 9) 1 (VDict (firstn 2 (ann (VInt 40)))) (VDict []) kwv = Raise (XData e p)) /\
  (exists m, model_init Echecked (conv_at Echecked 9) 0 (VDict [(k "street", VInt 3)]) (VDict []) kw0 = Ok m) /\
  (exists e p, model_init Echecked (conv_at Echecked 9) 0 (VDict [(k "street", VInt 3)]) (VDict []) kwv = Raise (XData e p)).
Proof. repeat split; do 2 eexists || eexists; vm_compute; reflexivity. Qed.
