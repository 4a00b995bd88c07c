(** C99: roles and levels only ever leave things out. *)
From Verif.Model Require Import Py Core Export Api Role.
From Verif.Spec Require Import ImportSpec ExportSpec RoleSpec PartSpec.
From Verif.Proofs Require Import ExportWitness PartFacts PartWitness.
From Verif.Conformance Require Import Sample.
Open Scope string_scope.
Open Scope list_scope.

(** An export whose roles hide more and whose levels are lower succeeds if the other does, and shows a part of it. *)
Theorem C99_shows_less : forall E, showing E -> forall x x2, shows_less E x x2 -> forall n c m d2, keyed (VModel c m) ->
  model_export_top E (export_at E n) c m x2 = Ok d2 ->
  exists d, model_export_top E (export_at E n) c m x = Ok d /\ part_of (VDict d) (VDict d2).
Proof. exact top_less. Qed.
Print Assumptions C99_shows_less.
(** So does the export of any value of a field. *)
Theorem C99_values : forall E, showing E -> forall x x2, shows_less E x x2 -> forall n f v w, simple_unions f -> keyed v ->
  export_at E n f v x2 = Ok w -> exists w', export_at E n f v x = Ok w' /\ part_of w' w.
Proof. exact export_less. Qed.
Print Assumptions C99_values.
(** Every export, whatever its role, shows a part of the one that hides nothing. *)
Theorem C99_any_role : forall E x, showing E -> (forall c, ~ unknown_role E c x) -> forall n c m d2, keyed (VModel c m) ->
  model_export_top E (export_at E n) c m (ECtx (ec_fmt x) (RoleFn (role_call (build (Start Everything [])))) (ec_raise x) (ec_level x)) = Ok d2 ->
  exists d, model_export_top E (export_at E n) c m x = Ok d /\ part_of (VDict d) (VDict d2).
Proof. exact any_role. Qed.
Print Assumptions C99_any_role.
(** A role that admits fewer names shows a part of what the other shows. *)
Theorem C99_roles : forall E, showing E -> forall e e2, (forall n, admits e n -> admits e2 n) -> forall f b l n c m d2, keyed (VModel c m) ->
  model_export_top E (export_at E n) c m (ECtx f (RoleFn (role_call (build e2))) b l) = Ok d2 ->
  exists d, model_export_top E (export_at E n) c m (ECtx f (RoleFn (role_call (build e))) b l) = Ok d /\ part_of (VDict d) (VDict d2).
Proof. exact roles_less. Qed.
Print Assumptions C99_roles.
(** A lower level shows a part of what the higher one shows. *)
Theorem C99_levels : forall E, showing E -> forall f r b l l2, (forall c, ~ unknown_role E c (ECtx f r b (Some l))) -> lower l l2 ->
  forall n c m d2, keyed (VModel c m) -> model_export_top E (export_at E n) c m (ECtx f r b (Some l2)) = Ok d2 ->
  exists d, model_export_top E (export_at E n) c m (ECtx f r b (Some l)) = Ok d /\ part_of (VDict d) (VDict d2).
Proof. exact levels_less. Qed.
Print Assumptions C99_levels.
(** What a part of a dictionary has under a name is a part of what the dictionary has there. *)
Theorem C99_entries_of_a_part : forall d e y v, part_of (VDict d) (VDict e) -> In (y, v) d -> exists w, In (y, w) e /\ part_of v w.
Proof. exact part_entries. Qed.
Print Assumptions C99_entries_of_a_part.
(** If two fields have the same public name, hiding one of them shows the other, which the full export does not show. *)
Theorem C99_shared_name_refuted : exists E x x2 c m d d2, shows_less E x x2 /\
  (forall c n f, In (n, f) (fields_of E c) -> simple_unions (fd_spec f) /\ fd_get f = None) /\
  (forall c, NoDup (dkeys (fields_of E c))) /\ keyed (VModel c m) /\
  model_export_top E (export_at E 9) c m x2 = Ok d2 /\ model_export_top E (export_at E 9) c m x = Ok d /\
  d2 = [(k "x", VStr (u "public"))] /\ d = [(k "x", VStr (u "secret"))] /\ ~ part_of (VDict d) (VDict d2).
Proof. exact colliding. Qed.
Print Assumptions C99_shared_name_refuted.

(** The sample program and the instance of [C18_case]; a role by name, one by set operations, and levels. *)
Definition but_street : rexp := Minus (Start Only [k "name"; k "home"; k "street"; k "zip"]) (Names [k "street"]).
Example C99_case : showing Esample /\ keyed (VModel 1 alice_model) /\
  (forall c, ~ unknown_role Esample c (ECtx Primitive (RoleName (k "public")) false None)) /\
  (forall n, admits but_street n -> admits (Start Only [k "name"; k "home"; k "street"; k "zip"]) n) /\ lower 1 10 /\
  (forall c, ~ unknown_role Esample c (ECtx Primitive NoRole true (Some 1%Z))).
Proof.
  split; [exact sample_showing|]. split; [exact alice_keyed|]. split; [exact sample_known|].
  split; [unfold admits; cbn; tauto|]. split; [right; split; [discriminate|discriminate]|]. intros c (n & H & _). discriminate H.
Qed.
(** The street is left out of the address inside the person. *)
Example C99_case_result : exists d d2,
  model_export_top Esample (export_at Esample 9) 1 alice_model (ECtx Primitive (RoleFn (role_call (build (Start Only [k "name"; k "home"; k "street"; k "zip"])))) true None) = Ok d2 /\
  model_export_top Esample (export_at Esample 9) 1 alice_model (ECtx Primitive (RoleFn (role_call (build but_street))) true None) = Ok d /\
  d2 = [(k "name", VStr (u "Alice")); (k "home", VDict [(k "street", VStr (u "Main")); (k "ZIP", VInt 123)])] /\
  d = [(k "name", VStr (u "Alice")); (k "home", VDict [(k "ZIP", VInt 123)])].
Proof. do 2 eexists. split; [vm_compute; reflexivity|]. split; [vm_compute; reflexivity|]. split; reflexivity. Qed.
