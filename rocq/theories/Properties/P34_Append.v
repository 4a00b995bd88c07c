(** C87: adding a field to an existing class ([Model._append_field]). *)
From Verif.Model Require Import Py Core Export Meta Append.
From Verif.Spec Require Import MetaSpec AppendSpec.
From Verif.Proofs Require Import MetaFacts MetaOrder MetaOthers MetaWitness AppendFacts AppendWitness.
From Verif.Conformance Require Import Sample.

(** The class has the field, with the options and type it was given, belonging to the class; *)
Theorem C87_new_field : forall P c x a, grown P -> class_at P c <> None -> unused P a ->
  field_of (append_field P c x a) c x = Some (rebrand_field c (field_object P a)).
Proof. exact new_field_appended. Qed.
Print Assumptions C87_new_field.

(** it is the last one, unless a field of that name is replaced: that keeps its place. *)
Theorem C87_names : forall P c x a, grown P -> class_at P c <> None ->
  (~ In x (names_of P c) -> names_of (append_field P c x a) c = names_of P c ++ [x]) /\
  (In x (names_of P c) -> names_of (append_field P c x a) c = names_of P c).
Proof. exact names_appended. Qed.
Print Assumptions C87_names.

(** The other fields of the class and all fields of all other classes stay, with their options, getters
    and setters; element types that are shared with the new field may end up owned by the class. *)
Theorem C87_other_fields : forall P c x a d y f, grown P -> class_at P c <> None -> unused P a ->
  (d = c -> y <> x) -> field_of P d y = Some f ->
  exists f', field_of (append_field P c x a) d y = Some f' /\
    elements_owned c (fd_spec f) (fd_spec f') /\ fd_get f' = fd_get f /\ fd_set f' = fd_set f.
Proof. exact (fun P c x a d y f G K => other_fields_appended P c x a G K d y f). Qed.
Print Assumptions C87_other_fields.

(** No other class gets a field, not even a subclass; *)
Theorem C87_other_classes : forall P c x a d, grown P -> class_at P c <> None -> d <> c ->
  names_of (append_field P c x a) d = names_of P d.
Proof. exact (fun P c x a d G K => other_names_appended P c x a G K d). Qed.
Print Assumptions C87_other_classes.

(** other classes are not changed at all if the new field's element types are its own. *)
Theorem C87_other_classes_are_unchanged : forall P c x a d, grown P -> class_at P c <> None -> unused P a ->
  own_elements P a -> d <> c -> e_class (env_of (append_field P c x a)) d = e_class (env_of P) d.
Proof. exact (fun P c x a d G K => other_class_appended P c x a G K d). Qed.
Print Assumptions C87_other_classes_are_unchanged.

(** Validators, roles, export level and hierarchy stay. *)
Theorem C87_everything_else_stays : forall P c x a, grown P -> class_at P c <> None ->
  (forall d, let k := e_class (env_of P) d in let k' := e_class (env_of (append_field P c x a)) d in
     mc_validators k' = mc_validators k /\ mc_roles k' = mc_roles k /\
     mc_level k' = mc_level k /\ mc_claim k' = mc_claim k) /\
  (forall d e, e_issub (env_of (append_field P c x a)) d e = e_issub (env_of P) d e) /\
  (forall d, e_subs (env_of (append_field P c x a)) d = e_subs (env_of P) d).
Proof. exact rest_appended. Qed.
Print Assumptions C87_everything_else_stays.

(** Classes defined later inherit added fields like any others: C44 holds of all programs that add fields, *)
Theorem C87_later_classes : forall P bases attrs own claim x f, grown P ->
  (forall b, In b bases -> class_at P b <> None) -> class_body P attrs ->
  (field_of (define_class P bases attrs own claim) (next_class P) x = Some f <->
   exists g, f = rebrand_field (next_class P) g /\
     (declares P attrs x g \/ ((forall g', ~ declares P attrs x g') /\ inherits P bases x g))).
Proof. exact (fun P bases attrs own claim x f G B CB => define_fields P (grown_wf P G) bases attrs own claim B CB x f). Qed.
Print Assumptions C87_later_classes.

(** and in a new class they come in the order in which they were created. *)
Theorem C87_later_classes_by_creation : forall P bases attrs own claim x y p q, grown P ->
  (forall b, In b bases -> class_at P b <> None) -> class_body P attrs ->
  let P' := define_class P bases attrs own claim in
  created P' (next_class P) x = Some p -> created P' (next_class P) y = Some q ->
  (before x y (names_of P' (next_class P)) <-> (p < q)%Z).
Proof. exact (fun P bases attrs own claim x y p q G B CB => new_class_by_creation P bases attrs own claim x y p q (grown_wf P G) B CB). Qed.
Print Assumptions C87_later_classes_by_creation.

(** Class statements leave other classes, with their added fields, as in C45. *)
Theorem C87_class_statements_leave_other_classes : forall P bases attrs own claim c, grown P ->
  (forall b, In b bases -> class_at P b <> None) -> class_body P attrs -> class_at P c <> None ->
  let P' := define_class P bases attrs own claim in
  names_of P' c = names_of P c /\
  (forall x f, field_of P c x = Some f -> exists f', field_of P' c x = Some f' /\
     elements_owned (next_class P) (fd_spec f) (fd_spec f') /\ fd_get f' = fd_get f /\ fd_set f' = fd_set f) /\
  mc_validators (e_class (env_of P') c) = mc_validators (e_class (env_of P) c) /\
  mc_roles (e_class (env_of P') c) = mc_roles (e_class (env_of P) c) /\
  mc_level (e_class (env_of P') c) = mc_level (e_class (env_of P) c) /\
  mc_claim (e_class (env_of P') c) = mc_claim (e_class (env_of P) c).
Proof. exact (fun P bases attrs own claim c G => other_classes_wf P bases attrs own claim c (grown_wf P G)). Qed.
Print Assumptions C87_class_statements_leave_other_classes.

(** Every field of every class is named and belongs to that class. *)
Theorem C87_fields_are_set_up : forall P c x f, grown P -> field_of P c x = Some f ->
  fo_named (fs_opts (fd_spec f)) = true /\ fo_owner (fs_opts (fd_spec f)) = Some c.
Proof. exact (fun P c x f G => set_up_everywhere_wf P c x f (grown_wf P G)). Qed.
Print Assumptions C87_fields_are_set_up.

(** Values that existed before are exported as before: their instances have no value for the new field.  The
    export level must not ask for missing values (level ALL does). *)
Theorem C87_existing_values_are_exported_as_before : forall P c x a cx n f v,
  grown P -> class_at P c <> None -> field_of P c x = None -> unused P a -> own_elements P a ->
  getters_lack P c x ->
  (get_export_level (env_of P) (fd_spec (rebrand_field c (field_object P a))) cx <= DEFAULT)%Z ->
  lacks c x v ->
  export_at (env_of (append_field P c x a)) n f v cx = export_at (env_of P) n f v cx.
Proof. exact (fun P c x a cx n f v G K => export_appended P c x a G K cx n f v). Qed.
Print Assumptions C87_existing_values_are_exported_as_before.

(** Note._append_field('stars', IntType()), with an old note; a subclass defined afterwards. *)
Example C87_case :
  grown rated_program /\ class_at rated_program Note <> None /\ field_of rated_program Note (k "stars") = None /\
  unused rated_program 3 /\ own_elements rated_program 3 /\ getters_lack rated_program Note (k "stars") /\
  lacks Note (k "stars") a_note /\
  let P' := append_field rated_program Note (k "stars") 3 in
  names_of P' Note = [k "title"; k "lines"; k "stars"] /\
  option_map (fun f => fs_type (fd_spec f)) (field_of P' Note (k "stars")) = Some (TLeaf int_leaf) /\
  to_primitive P' Note a_note = to_primitive rated_program Note a_note /\
  export_at (env_of P') 10 (FS opt0 (TModel Note)) a_note (ECtx Primitive NoRole true (Some ALL))
    = Ok (VDict [(k "title", VStr (u "t")); (k "lines", VList [VInt 1; VNone]); (k "stars", VNone)]) /\
  names_of (define_class P' [Note] [] [] None) (next_class P') = [k "title"; k "lines"; k "stars"].
Proof.
  split; [exact (made_grown _ rated_made)|]. split; [vm_compute; discriminate|]. split; [vm_compute; reflexivity|].
  split; [exact rated_unused|]. split; [exact rated_own_elements|]. split; [exact rated_getters|].
  split; [exact a_note_lacks|]. vm_compute. repeat split.
Qed.

(** Subclasses that exist already do not get the field. *)
Theorem C87_subclasses_get_the_field_refuted : exists P c x a d, grown P /\ class_at P c <> None /\ unused P a /\
  derived P d c /\ field_of (append_field P c x a) c x <> None /\ field_of (append_field P c x a) d x = None.
Proof. exact subclass_lacks. Qed.
Print Assumptions C87_subclasses_get_the_field_refuted.

(** The order of creation (C44) is lost: the type was called before those of the class, the field is last. *)
Theorem C87_fields_by_creation_refuted : exists P c x y p q, grown P /\
  created P c x = Some p /\ created P c y = Some q /\ before x y (names_of P c) /\ (q < p)%Z.
Proof. exact not_by_creation. Qed.
Print Assumptions C87_fields_by_creation_refuted.

(** A field object whose element type is shared with another class changes that class's export:
    C45's observation holds for added fields as well.
    lines = BaseType(); class Brief: class Options: serialize_when_none = False;
    class Note: lines = ListType(lines); Brief._append_field('more', ListType(lines)) *)
Theorem C87_other_classes_export_as_before_refuted : exists P c x a d v w w', grown P /\ class_at P c <> None /\
  unused P a /\ d <> c /\ to_primitive P d v = Ok w /\ to_primitive (append_field P c x a) d v = Ok w' /\ w <> w'.
Proof. exact shared_elements. Qed.
Print Assumptions C87_other_classes_export_as_before_refuted.
