(** C95: two versions of a program exchange data. *)
From Verif.Model Require Import Py Core Export Api.
From Verif.Spec Require Import ImportSpec ExportSpec OrderSpec EvolveSpec ForwardSpec ExchangeSpec.
From Verif.Proofs Require Import RoundTrip ExportWitness EvolveFacts EvolveWitness ForwardFacts ForwardWitness ExchangeFacts ExchangeWitness.
From Verif.Conformance Require Import Sample.
Open Scope string_scope.
Open Scope list_scope.

(** What the earlier version exports of an instance, the later version reads back with the same data, *)
Theorem C95_upgrade : forall E E2, extends E E2 -> clear_env E -> forall x n c m w d, ordinary w -> kw_validate w = false ->
  restorable_instance E x (kw_partial w) c m -> model_export_top E (export_at E n) c m x = Ok d -> given E E2 (kw_strict w) (VDict d) ->
  exists m2, model_init E2 (conv_at E2 (4 + 2 * n)) c (VDict d) (VDict []) w = Ok m2 /\ kin_data E E2 c m m2.
Proof. exact upgrade. Qed.
Print Assumptions C95_upgrade.
(** what the later version exports the earlier version reads, up to the fields it lacks, *)
Theorem C95_downgrade : forall E E2, adds E E2 -> clear_env E2 -> forall x n c m w d, ordinary w -> kw_validate w = false ->
  restorable_instance E2 x (kw_partial w) c m -> model_export_top E2 (export_at E2 n) c m x = Ok d -> sent E E2 (kw_strict w) (VDict d) ->
  exists m2, model_init E (conv_at E (1 + 2 * n)) c (VDict d) (VDict []) w = Ok m2 /\ trim_data E E2 c m m2.
Proof. exact downgrade. Qed.
Print Assumptions C95_downgrade.
(** and an instance sent to the later version, exported there and read back is as it was, at every depth. *)
Theorem C95_there_and_back : forall E E2, extends E E2 -> adds E E2 -> clear_env E -> forall x x2, restoring_env E2 x2 ->
  forall n c m w d, ordinary w -> kw_validate w = false -> kw_init_values w = true ->
  restorable_instance E x (kw_partial w) c m -> model_export_top E (export_at E n) c m x = Ok d -> given E E2 (kw_strict w) (VDict d) ->
  exists m2, model_init E2 (conv_at E2 (4 + 2 * n)) c (VDict d) (VDict []) w = Ok m2 /\
    forall n2 d2, model_export_top E2 (export_at E2 n2) c m2 x2 = Ok d2 -> sent E E2 (kw_strict w) (VDict d2) ->
    exists m3, model_init E (conv_at E (1 + 2 * n2)) c (VDict d2) (VDict []) w = Ok m3 /\ agree_data E c m m3.
Proof. exact there_and_back. Qed.
Print Assumptions C95_there_and_back.
(** The other way round this is not so: the earlier version drops what the new fields hold. *)
Theorem C95_new_values_survive_refuted : exists E E2 c m w x d m2 d2 m3, extends E E2 /\ adds E E2 /\ ordinary w /\ kw_validate w = false /\
  restorable_instance E2 x (kw_partial w) c m /\ model_export_top E2 (export_at E2 9) c m x = Ok d /\ sent E E2 (kw_strict w) (VDict d) /\
  model_init E (conv_at E 9) c (VDict d) (VDict []) w = Ok m2 /\ model_export_top E (export_at E 9) c m2 x = Ok d2 /\
  given E E2 (kw_strict w) (VDict d2) /\ model_init E2 (conv_at E2 9) c (VDict d2) (VDict []) w = Ok m3 /\
  chain_get m (k "country") = Some (VStr (u "NL")) /\ chain_get m3 (k "country") = Some (VStr (u "??")).
Proof. exact new_values_lost. Qed.
Print Assumptions C95_new_values_survive_refuted.

(** The sample program and a later version of it with further optional fields; the instance of [C18_case]. *)
Example C95_case : extends Esample Elater /\ adds Esample Elater /\ clear_env Esample /\ restoring_env Elater xprim /\
  ordinary kw_lax /\ restorable_instance Esample xprim (kw_partial kw_lax) 1 alice_model /\
  model_export_top Esample (export_at Esample 5) 1 alice_model xprim = Ok alice_data /\
  given Esample Elater (kw_strict kw_lax) (VDict alice_data).
Proof.
  split; [exact later_extends|]. split; [exact later_adds|]. split; [exact (restoring_clear _ _ sample_restoring)|].
  split; [exact later_restoring|]. split; [split; reflexivity|]. split; [|split; [reflexivity|apply oldb_ok; reflexivity]].
  exact (init_restorable Esample xprim 10 1 alice kw0 alice_model sample_restoring eq_refl eq_refl eq_refl eq_refl alice_clean eq_refl).
Qed.
(** The later version adds the defaults of its new fields, at the address as well; these get lost on the way back. *)
Example C95_case_result : exists m2 d2 m3, model_init Elater (conv_at Elater 14) 1 (VDict alice_data) (VDict []) kw_lax = Ok m2 /\
  model_export_top Elater (export_at Elater 5) 1 m2 xprim = Ok d2 /\ sent Esample Elater (kw_strict kw_lax) (VDict d2) /\
  model_init Esample (conv_at Esample 11) 1 (VDict d2) (VDict []) kw_lax = Ok m3 /\
  dget (k "visits") d2 = Some (VInt 0) /\ (exists h, dget (k "home") d2 = Some (VDict h) /\ dget (k "country") h = Some (VStr (u "??"))) /\
  chain_get m3 (k "name") = chain_get alice_model (k "name") /\ chain_get m3 (k "home") = chain_get alice_model (k "home") /\
  chain_get m3 (k "visits") = None.
Proof.
  do 3 eexists. split; [vm_compute; reflexivity|]. split; [vm_compute; reflexivity|]. split; [apply sentb_ok; reflexivity|].
  split; [vm_compute; reflexivity|]. split; [reflexivity|]. split; [eexists; split; reflexivity|]. repeat split.
Qed.
