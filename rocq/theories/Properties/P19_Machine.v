(** C72: the state machine of contrib/machine.py. *)
From Verif.Model Require Import Py Core Export Api Functional Machine.
From Verif.Spec Require Import ImportSpec FunctionalSpec MachineSpec.
From Verif.Proofs Require Import FunctionalExport MachineFacts.
From Verif.Conformance Require Import Sample.

(** However its methods are called, those that succeed are convert, validate, serialize in this order, each at most once,
    and the state tells how many of them there were. *)
Theorem C72_steps_in_order : forall A (cbs : list (key * callback A)) d m ns m' l,
  machine_new machine_table d = Ok m -> calls machine_table cbs m ns m' l ->
  l = firstn (length l) steps /\ nth_error states (length l) = Some (ms_state m').
Proof. exact @standard_order. Qed.
Print Assumptions C72_steps_in_order.

(** A machine starts where the first transition for init leads; without one it cannot be made. *)
Theorem C72_start : forall A table (d : A),
  (forall t, find_transition table (Some (k "init")) None None = Some t -> machine_new table d = Ok (Mach (tr_to t) d)) /\
  ((forall t, In t table -> tr_trigger t <> k "init") -> machine_new table d = Raise (XPy ETypeError)).
Proof. exact @machine_starts. Qed.
Print Assumptions C72_start.
Example C72_start_case :
  find_transition machine_table (Some (k "init")) None None = Some (TR (k "init") None (k "raw")) /\
  forall t, In t [TR (k "convert") (Some (k "raw")) (k "converted")] -> tr_trigger t <> k "init".
Proof. split; [reflexivity|]. intros t [<-|[]]; discriminate. Qed.

(** The data are what the successful steps have made of them, in that order, if callbacks leave their input alone. *)
Theorem C72_data_of_the_steps : forall A table (cbs : list (key * callback A)) m ns m' l,
  tidy cbs -> calls table cbs m ns m' l -> made cbs (ms_data m) l (ms_data m').
Proof. exact @calls_made. Qed.
Print Assumptions C72_data_of_the_steps.

(** The callbacks of the class do, for a schema without settable computed fields. *)
Theorem C72_callbacks_leave_their_input : forall E n c, no_setters (mc_fields (e_class E c)) ->
  forall name cb d, In (name, cb) (machine_callbacks E n c) -> NoDup (dkeys d) -> fst (cb (VDict d)) = VDict d.
Proof. exact callbacks_tidy. Qed.
Print Assumptions C72_callbacks_leave_their_input.

(** The data of a machine that went through all steps: the primitive form of the validated, converted input. *)
Theorem C72_all_steps : forall E n c d m1 m2 m3,
  machine_trigger machine_table (machine_callbacks E n c) (Mach (k "raw") d) (Some (k "convert")) = (m1, None) ->
  machine_trigger machine_table (machine_callbacks E n c) m1 (Some (k "validate")) = (m2, None) ->
  machine_trigger machine_table (machine_callbacks E n c) m2 (Some (k "serialize")) = (m3, None) ->
  exists d1 d2 d3, lo_res (fn_convert E (conv_at E n) c d VNone VNone convert_args) = Ok d1 /\
    lo_res (fn_validate E (conv_at E n) c (VDict d1) VNone VNone validate_args) = Ok d2 /\
    fn_export E (export_at E n) primitive_output c (VDict d2) = Ok d3 /\ m3 = Mach (k "serialized") (VDict d3).
Proof. exact machine_through. Qed.
Print Assumptions C72_all_steps.

(** However its methods are called, the state tells what the data are: the input, the converted input, that validated, or its
    primitive form. *)
Theorem C72_data_in_every_state : forall E n c d m ns m' l,
  no_setters (mc_fields (e_class E c)) -> machine_new machine_table (VDict d) = Ok m ->
  calls machine_table (machine_callbacks E n c) m ns m' l ->
  let converted d1 := lo_res (fn_convert E (conv_at E n) c (VDict d) VNone VNone convert_args) = Ok d1 in
  let validated d1 d2 := lo_res (fn_validate E (conv_at E n) c (VDict d1) VNone VNone validate_args) = Ok d2 in
  m' = Mach (k "raw") (VDict d) \/
  (exists d1, m' = Mach (k "converted") (VDict d1) /\ converted d1) \/
  (exists d1 d2, m' = Mach (k "validated") (VDict d2) /\ converted d1 /\ validated d1 d2) \/
  (exists d1 d2 d3, m' = Mach (k "serialized") (VDict d3) /\ converted d1 /\ validated d1 d2 /\
     fn_export E (export_at E n) primitive_output c (VDict d2) = Ok d3).
Proof. exact data_in_states. Qed.
Print Assumptions C72_data_in_every_state.

(** A step that fails leaves the state, and raises what its callback raised; *)
Theorem C72_failures_keep_the_state : forall A table (cbs : list (key * callback A)) m m' name e,
  machine_trigger table cbs m name = (m', Some e) ->
  ms_state m' = ms_state m /\
  (e = XPy EAttributeError /\ m' = m \/
   exists n cb, name = Some n /\ dget n cbs = Some cb /\ cb (ms_data m) = (ms_data m', Raise e)).
Proof. exact @trigger_fails. Qed.
Print Assumptions C72_failures_keep_the_state.

(** a step that is not possible in the present state is an AttributeError and changes nothing. *)
Theorem C72_impossible_steps : forall A table (cbs : list (key * callback A)) m n,
  (forall t, In t table -> tr_trigger t = n -> tr_from t <> Some (ms_state m)) ->
  machine_trigger table cbs m (Some n) = (m, Some (XPy EAttributeError)).
Proof. exact @trigger_unknown. Qed.
Print Assumptions C72_impossible_steps.

(** A step that succeeds follows a transition of the table, and applies the callback of its name. *)
Theorem C72_possible_steps : forall A table (cbs : list (key * callback A)) m m' name,
  machine_trigger table cbs m name = (m', None) ->
  leads table (ms_state m) (ms_state m') /\
  match name with
  | Some n => match dget n cbs with Some cb => snd (cb (ms_data m)) = Ok (ms_data m') | None => ms_data m' = ms_data m end
  | None => ms_data m' = ms_data m
  end.
Proof. exact @trigger_ok. Qed.
Print Assumptions C72_possible_steps.

(** can(state) tells whether the table leads there from the present state, can(None) whether it leads anywhere. *)
Theorem C72_can : forall A table (m : machine A) b, machine_can table m (Some b) = true <-> leads table (ms_state m) b.
Proof. exact @can_iff. Qed.
Print Assumptions C72_can.
Theorem C72_can_anything : forall A table (m : machine A),
  machine_can table m None = true <-> exists b, leads table (ms_state m) b.
Proof. exact @can_any. Qed.
Print Assumptions C72_can_anything.

Theorem C72_cannot : forall A table (m : machine A) b, machine_cannot table m b = true <-> machine_can table m b <> true.
Proof. exact @cannot_iff. Qed.
Print Assumptions C72_cannot.

Definition callbacks1 := machine_callbacks Esample 10 1.
Example C72_case :
  let m := Mach (k "raw") (VDict alice) in
  let conv := VDict [(k "name", VStr (u "Alice")); (k "tags", VList [VInt 1; VInt 1]);
                     (k "home", VDict [(k "street", VStr (u "Main")); (k "zip", VInt 123)])] in
  let out := VDict [(k "name", VStr (u "Alice")); (k "tags", VList [VInt 1; VInt 1]);
                    (k "home", VDict [(k "street", VStr (u "Main")); (k "ZIP", VInt 123)])] in
  machine_new machine_table (VDict alice) = Ok m /\
  machine_trigger machine_table callbacks1 m (Some (k "validate")) = (m, Some (XPy EAttributeError)) /\
  machine_trigger machine_table callbacks1 m (Some (k "convert")) = (Mach (k "converted") conv, None) /\
  machine_trigger machine_table callbacks1 (Mach (k "converted") conv) (Some (k "validate")) = (Mach (k "validated") conv, None) /\
  machine_trigger machine_table callbacks1 (Mach (k "validated") conv) (Some (k "serialize")) = (Mach (k "serialized") out, None) /\
  calls machine_table callbacks1 m [k "validate"; k "convert"; k "init"; k "validate"; k "serialize"]
        (Mach (k "serialized") out) steps /\
  machine_can machine_table m (Some (k "converted")) = true /\ machine_can machine_table m (Some (k "validated")) = false /\
  machine_can machine_table (Mach (k "serialized") out) None = false /\
  leads machine_table (k "raw") (k "converted") /\
  no_setters (mc_fields (e_class Esample 1)).
Proof.
  cbv zeta. repeat (split; [reflexivity|]). split; [|repeat (split; [reflexivity|])].
  - eapply ca_failed; [reflexivity|]. eapply ca_done; [reflexivity|]. eapply ca_failed; [reflexivity|].
    eapply ca_done; [reflexivity|]. eapply ca_done; [reflexivity|]. constructor.
  - split.
    + eexists. split; [right; left; reflexivity|]. now split.
    + intros n f H. cbn in H. repeat (destruct H as [[= <- <-]|H]; [reflexivity|]). destruct H.
Qed.

(** A step without a name skips the callback: trigger(None) moves on without converting or validating. *)
Theorem C72_every_step_applies_its_callback_refuted :
  exists (E : env) n c v, machine_trigger machine_table (machine_callbacks E n c) (Mach (k "converted") v) None
      = (Mach (k "validated") v, None) /\
    exists errs pd, snd (machine_trigger machine_table (machine_callbacks E n c) (Mach (k "converted") v) (Some (k "validate")))
      = Some (XData errs pd).
Proof.
  exists Esample, 10%nat, 1%N, (VDict [(k "age", VInt (-1))]). split; [reflexivity|]. eexists. eexists. reflexivity.
Qed.
Print Assumptions C72_every_step_applies_its_callback_refuted.
