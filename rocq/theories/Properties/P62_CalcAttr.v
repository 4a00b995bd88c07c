(** C115: attributes of computed fields.  Programs are lists of actions, the latest first: making types and computed fields, assigning
    attributes of them, deriving classes.  [cls] are the attributes of the class of the types. *)
From Coq Require Import Lia.
From Verif.Model Require Import Py Core Types FieldCopy CalcAttr.
From Verif.Spec Require Import CalcAttrSpec.
From Verif.Proofs Require Import CalcAttrFacts.
Open Scope string_scope.
Open Scope list_scope.

(** An attribute of a computed field is the value assigned to the field last; without assignment it is the present one of its type. *)
Theorem C115_reads : forall cls depth h f x, program h -> f < calcs_made h -> ~ In x calc_methods ->
  calc_read cls depth (cs_types (calc_run h)) (calc_at (calc_run h) f) x =
  match assigned h f x with Some v => Got v | None => of_type cls h (type_for h f) x end.
Proof. exact reads. Qed.
Print Assumptions C115_reads.
(** An assignment changes no other attribute and no other computed field, even if they share the type, and no type. *)
Theorem C115_assignment : forall cls depth h f x v g y, program h -> f < calcs_made h -> g < calcs_made h -> ~ In y calc_methods -> (g, y) <> (f, x) ->
  calc_read cls depth (cs_types (calc_run (QSet f x v :: h))) (calc_at (calc_run (QSet f x v :: h)) g) y =
  calc_read cls depth (cs_types (calc_run h)) (calc_at (calc_run h) g) y.
Proof. exact assign_own. Qed.
Print Assumptions C115_assignment.
(** Fields that derived classes take over have lost the values assigned to the field in the base class, and have those of its type. *)
Theorem C115_derived_fields_keep_attributes_refuted : forall cls depth h f x, program h -> f < calcs_made h -> ~ In x calc_methods ->
  calc_read cls depth (cs_types (calc_run (QDerive f :: h))) (calc_at (calc_run (QDerive f :: h)) (calcs_made h)) x = of_type cls h (type_for h f) x.
Proof. exact derived. Qed.
Print Assumptions C115_derived_fields_keep_attributes_refuted.
(** Exports use the [serialized_name] assigned to the field, *)
Theorem C115_serialized_name : forall cls depth h f name, program h -> f < calcs_made h ->
  export_key cls depth (calc_run h) f name =
  match assigned h f (k "serialized_name") with
  | Some v => Got (if truthy v then v else name)
  | None => match of_type cls h (type_for h f) (k "serialized_name") with Got v => Got (if truthy v then v else name) | r => r end
  end.
Proof. exact export_keys. Qed.
Print Assumptions C115_serialized_name.
(** but the level of the type: *)
Theorem C115_export_level : forall cls h f model given, program h -> f < calcs_made h -> assigned h f (k "get_export_level") = None ->
  export_level_of cls (calc_run h) f model given =
  match of_type cls h (type_for h f) (k "export_level") with
  | Got v => Got (if is_nil given then if is_nil v then model else v else given)
  | r => r
  end.
Proof. exact export_levels. Qed.
Print Assumptions C115_export_level.
(** that the level assigned to the field decides is refuted. *)
Theorem C115_assigned_level_is_used_refuted : forall cls h f x v model given, program h -> f < calcs_made h -> x <> k "get_export_level" ->
  assigned h f (k "get_export_level") = None ->
  export_level_of cls (calc_run (QSet f x v :: h)) f model given = export_level_of cls (calc_run h) f model given.
Proof. exact level_ignores. Qed.
Print Assumptions C115_assigned_level_is_used_refuted.
(** [copy.copy] and unpickling of a computed field fail with RecursionError, however many calls are possible. *)
Theorem C115_copies_work_refuted : forall cls depth T f, calc_copy cls depth T f = None.
Proof. exact no_copy. Qed.
Print Assumptions C115_copies_work_refuted.

(** Two computed fields share a type; one gets another name and level; a class is derived; then the type of the base gets another level. *)
Definition calc_sample : list calc_op :=
  [QTypeSet 0 (k "export_level") (VInt 2); QDerive 0; QSet 0 (k "export_level") (VInt 0); QSet 0 (k "serialized_name") (VStr (u "other"));
   QCalc 0; QCalc 0; QType [(k "serialized_name", VNone); (k "export_level", VNone)]].
Example C115_case :
  let cls := fun _ : key => @None pyval in let s := calc_run calc_sample in
  let name f := export_key cls 9 s f (VStr (u "x")) in let level f := export_level_of cls s f (VInt 10) VNone in
  program calc_sample /\ calcs_made calc_sample = 3 /\
  name 0 = Got (VStr (u "other")) /\ name 1 = Got (VStr (u "x")) /\ name 2 = Got (VStr (u "x")) /\
  level 0 = Got (VInt 2) /\ level 1 = Got (VInt 2) /\ level 2 = Got (VInt 10) /\
  calc_read cls 9 (cs_types s) (calc_at s 0) (k "export_level") = Got (VInt 0) /\ ~ In (k "export_level") calc_methods /\
  assigned calc_sample 0 (k "get_export_level") = None /\ k "export_level" <> k "get_export_level".
Proof.
  cbn zeta. split; [repeat constructor; cbn; lia|]. repeat split; try (vm_compute; reflexivity); try discriminate.
  cbn. intuition discriminate.
Qed.
