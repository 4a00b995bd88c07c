(** C98: the name of a field in the program is private. *)
From Verif.Model Require Import Py Core Export Api.
From Verif.Spec Require Import ImportSpec RenameSpec.
From Verif.Proofs Require Import ExportWitness RenameFacts RenameWitness.
From Verif.Conformance Require Import Sample.
Open Scope string_scope.
Open Scope list_scope.

(** Data from outside give the same instance in both versions of the program, up to the names, or the same exception. *)
Theorem C98_construction : forall E E2 rho used, renames E E2 rho used -> forall j c d w,
  kw_mapping w = no_mapping -> kw_convert w = true -> outside used (VDict d) ->
  kin_res (kin_data E rho used false c) (layer E rho (kin E rho used false) c)
    (model_init E (conv_at E j) c (VDict d) (VDict []) w) (model_init E2 (conv_at E2 j) c (VDict d) (VDict []) w).
Proof. exact init_outside. Qed.
Print Assumptions C98_construction.
(** So does an instance of the class. *)
Theorem C98_copy : forall E E2 rho used, renames E E2 rho used -> forall j raw c m n w,
  kw_mapping w = no_mapping -> kw_convert w = true -> kin_data E rho used raw c m n ->
  kin_res (kin_data E rho used false c) (layer E rho (kin E rho used false) c)
    (model_init E (conv_at E j) c (VModel c m) (VDict []) w) (model_init E2 (conv_at E2 j) c (VModel c n) (VDict []) w).
Proof. exact init_copy. Qed.
Print Assumptions C98_copy.
(** import_data has the same outcome, and leaves the same data behind. *)
Theorem C98_import_data : forall E E2 rho used, renames E E2 rho used -> forall j raw c m n d w,
  kw_mapping w = no_mapping -> kw_convert w = true -> kw_validate w = false -> kw_recursive w = false ->
  kin_data E rho used raw c m n -> outside used (VDict d) ->
  let r := model_import_data E (conv_at E j) c m (VDict d) w in let r2 := model_import_data E2 (conv_at E2 j) c n (VDict d) w in
  kin_data E rho used raw c (fst r) (fst r2) /\ kin_opt (layer E rho (kin E rho used raw) c) (snd r) (snd r2).
Proof. exact import_rel. Qed.
Print Assumptions C98_import_data.
(** validate() has the same outcome; after a successful one nothing is left unconverted. *)
Theorem C98_validate : forall E E2 rho used, renames E E2 rho used -> forall j raw c m n w,
  kw_mapping w = no_mapping -> kw_convert w = true -> kin_data E rho used raw c m n ->
  let r := model_validate E (conv_at E j) c m w in let r2 := model_validate E2 (conv_at E2 j) c n w in
  kin_data E rho used raw c (fst r) (fst r2) /\ kin_opt (layer E rho (kin E rho used false) c) (snd r) (snd r2) /\
  (snd r = None -> kw_partial w = false \/ md_converted m <> [] -> kin_data E rho used false c (fst r) (fst r2)).
Proof. exact validate_rel. Qed.
Print Assumptions C98_validate.
(** Reading a field by its new name gives what the old name gave, *)
Theorem C98_reading : forall E E2 rho used, renames E E2 rho used -> forall raw c m n y f,
  kin_data E rho used raw c m n -> In (y, f) (fields_of E c) ->
  kin_res (kin E rho used raw (fd_spec f)) (fun _ _ => False) (model_getitem E c m y) (model_getitem E2 c n (rho c y)).
Proof. exact get_rel. Qed.
Print Assumptions C98_reading.
(** and assigning to it does the same. *)
Theorem C98_assignment : forall E E2 rho used, renames E E2 rho used -> forall j c m n y f v w,
  kin_data E rho used true c m n -> In (y, f) (fields_of E c) -> kin E rho used true (fd_spec f) v w -> is_undef v = false ->
  let r := model_setitem E (conv_at E j) c m y v in let r2 := model_setitem E2 (conv_at E2 j) c n (rho c y) w in
  kin_data E rho used true c (fst r) (fst r2) /\
  kin_opt (fun d e => kin E rho used false (fd_spec f) (VDict d) (VDict e)) (snd r) (snd r2).
Proof. exact set_rel. Qed.
Print Assumptions C98_assignment.
(** Exports are equal, at every depth. *)
Theorem C98_export : forall E E2 rho used, renames E E2 rho used -> forall x, ren_export E rho used x -> forall n c m m2,
  kin_data E rho used false c m m2 -> model_export_top E2 (export_at E2 n) c m2 x = model_export_top E (export_at E n) c m x.
Proof. exact export_top. Qed.
Print Assumptions C98_export.
(** Together: what goes in and what comes out does not depend on the names in the program. *)
Theorem C98_in_and_out : forall E E2 rho used, renames E E2 rho used -> forall x, ren_export E rho used x -> forall j n c d w,
  kw_mapping w = no_mapping -> kw_convert w = true -> outside used (VDict d) ->
  kin_res eq (fun p q => layer E rho (kin E rho used false) c p q \/ q = p)
    (rbind (model_init E (conv_at E j) c (VDict d) (VDict []) w) (fun m => model_export_top E (export_at E n) c m x))
    (rbind (model_init E2 (conv_at E2 j) c (VDict d) (VDict []) w) (fun m => model_export_top E2 (export_at E2 n) c m x)).
Proof. exact in_and_out. Qed.
Print Assumptions C98_in_and_out.
(** The names in the program do show in data that were assigned to a list of models and have not been validated since: they
    are kept as they are and exported by these names.  The same statements, the same data from outside, and the address is
    lost in the version with other names. *)
Theorem C98_unvalidated_refuted : exists E E2 rho used c m n y f v m1 n1 d d2, renames E E2 rho used /\ kin_data E rho used false c m n /\
  In (y, f) (fields_of E c) /\ outside used v /\
  model_setitem E (conv_at E 9) c m y v = (m1, None) /\ model_setitem E2 (conv_at E2 9) c n (rho c y) v = (n1, None) /\
  model_export_top E (export_at E 9) c m1 xprim = Ok d /\ model_export_top E2 (export_at E2 9) c n1 xprim = Ok d2 /\
  dget y d = Some (VList [VDict [(k "street", VStr (u "Elm"))]]) /\ dget y d2 = Some (VList [VDict []]).
Proof. exact raw_witness. Qed.
Print Assumptions C98_unvalidated_refuted.

(** A program whose classes have a required field, a default, a validator, a validate_<field> method, a role, a nested model
    and a list of models, and the same program with six fields renamed. *)
Example C98_case : renames Ebefore Eafter new_name public_key /\ ren_export Ebefore new_name public_key xprim /\
  outside public_key (VDict bob) /\ kin_data Ebefore new_name public_key false 1 bob1 bob2 /\
  ren_export Ebefore new_name public_key (ECtx Primitive (RoleName (k "public")) false None).
Proof.
  split; [exact rename_ok|]. split; [apply no_role_renamed|]. split; [exact bob_outside|]. split; [exact bob_kin|intros g H; discriminate H].
Qed.
(** The instances hold the data under different names; the exports are the same, also under the role. *)
Example C98_case_result : model_init Ebefore (conv_at Ebefore 9) 1 (VDict bob) (VDict []) kw0 = Ok bob1 /\
  model_init Eafter (conv_at Eafter 9) 1 (VDict bob) (VDict []) kw0 = Ok bob2 /\
  chain_get bob1 (k "age") = Some (VInt 30) /\ chain_get bob2 (k "age") = None /\ chain_get bob2 (k "years") = Some (VInt 30) /\
  exists d d2, model_export_top Ebefore (export_at Ebefore 9) 1 bob1 xprim = Ok d /\ model_export_top Eafter (export_at Eafter 9) 1 bob2 xprim = Ok d /\
    dget (k "age") d = Some (VInt 30) /\ dget (k "home") d = Some (VDict [(k "street", VStr (u "Main")); (k "ZIP", VInt 123)]) /\
    model_export_top Eafter (export_at Eafter 9) 1 bob2 (ECtx Primitive (RoleName (k "public")) false None) = Ok d2 /\ dget (k "age") d2 = None.
Proof.
  split; [exact (proj1 bob_built)|]. split; [exact (proj2 bob_built)|]. repeat (split; [reflexivity|]). do 2 eexists.
  repeat (split; [vm_compute; reflexivity|]). reflexivity.
Qed.
