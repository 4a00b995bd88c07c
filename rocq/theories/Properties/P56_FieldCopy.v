(** C109: fields that a class inherits. *)
From Verif.Model Require Import Py Core Types FieldCopy.
From Verif.Spec Require Import FieldCopySpec.
From Verif.Proofs Require Import FieldCopyFacts.
Open Scope string_scope.
Open Scope list_scope.

(** Class A has a text field of at most 3 characters, B is derived from A and C from B; then limits are assigned to the fields of B and A,
    and a validator refusing the text no is appended to the field of C.  The last event comes first. *)
Definition refuses_no : vldr := fun v => match v with VStr s => if list_eq_dec N.eq_dec s (u "no") then Some (XValid false [u "no"]) else None | _ => None end.
Definition three : list fevent := [FCopy 1; FCopy 0; FNew [(k "max_length", VInt 3); (k "required", VBool false)] []].
Definition limits : list fevent := FAppend 2 refuses_no :: FSet 0 (k "max_length") (VInt 5) :: FSet 1 (k "max_length") (VInt 1) :: FSet 1 (k "required") (VBool true) :: three.

(** A field converts values, and demands them, by its own attributes: those of the field it was copied from when the class was derived, and what was
    assigned to it since. *)
Theorem C109_converts : forall own native h a v, proper h -> a < made_by h -> field_convert native (after own h) a v = native (attrs_of h a) v.
Proof. exact converts_with. Qed.
Print Assumptions C109_converts.
Theorem C109_requires : forall own h a named partial v, proper h -> a < made_by h ->
  field_missing (after own h) a named partial v = true <->
  (exists x, dget (k "required") (attrs_of h a) = Some x /\ truthy x = true) /\ (v = VNone \/ v = VUndef) /\ (named = false \/ partial = false).
Proof. exact requires_by. Qed.
Print Assumptions C109_requires.
(** Its validators and its export go by the present attributes of the field that the first class declared, and every validator
    appended to one of the copies applies to all. *)
Theorem C109_validates : forall own native check h a v, proper h -> a < made_by h ->
  field_validate native check (after own h) a v =
  rbind (native (attrs_of h a) v)
    (validators_result (map (fun m => check m (attrs_of h (origin h a))) own ++ given_to h (origin h a))).
Proof. exact validates_with. Qed.
Print Assumptions C109_validates.
Theorem C109_exports : forall own prim h a v, proper h -> a < made_by h ->
  field_export prim (after own h) a v = prim (attrs_of h (origin h a)) v.
Proof. exact exports_with. Qed.
Print Assumptions C109_exports.

Example C109_case :
  proper limits /\ made_by limits = 3 /\ origin limits 2 = 0 /\
  dget (k "max_length") (attrs_of limits 0) = Some (VInt 5) /\ dget (k "max_length") (attrs_of limits 1) = Some (VInt 1) /\
  dget (k "max_length") (attrs_of limits 2) = Some (VInt 3) /\
  map (fun a => field_missing (after text_own limits) a true false VNone) [0; 1; 2] = [false; true; false] /\
  map (fun a => field_validate text_native text_check (after text_own limits) a (VStr (u "four"))) [0; 1; 2] =
    [Ok (VStr (u "four")); Ok (VStr (u "four")); Ok (VStr (u "four"))] /\
  map (fun a => field_validate text_native text_check (after text_own limits) a (VStr (u "no"))) [0; 1; 2] =
    [Raise (XValid false [u "no"]); Raise (XValid false [u "no"]); Raise (XValid false [u "no"])].
Proof. repeat (split; [vm_compute; auto 10 with arith; try (repeat split; auto with arith)|]). vm_compute. reflexivity. Qed.

(** So an assignment to a field changes conversion of that field only, and validation and export of no field but it and its copies. *)
Theorem C109_assignment : forall own native prim check h b x y a v, proper h -> b < made_by h -> a < made_by h ->
  let h' := FSet b x y :: h in
  (a <> b -> field_convert native (after own h') a v = field_convert native (after own h) a v /\
             forall nm p, field_missing (after own h') a nm p v = field_missing (after own h) a nm p v) /\
  (a <> b -> origin h a <> b -> field_validate native check (after own h') a v = field_validate native check (after own h) a v) /\
  (origin h a <> b -> field_export prim (after own h') a v = field_export prim (after own h) a v).
Proof. exact assign_frame. Qed.
Print Assumptions C109_assignment.
(** A validator appended to a field is in force for every field of its family and for no other. *)
Theorem C109_appended : forall own native prim check h b f a v, proper h -> b < made_by h -> a < made_by h ->
  let h' := FAppend b f :: h in
  field_convert native (after own h') a v = field_convert native (after own h) a v /\
  field_export prim (after own h') a v = field_export prim (after own h) a v /\
  (origin h a <> origin h b -> field_validate native check (after own h') a v = field_validate native check (after own h) a v) /\
  (origin h a = origin h b -> forall w, field_validate native check (after own h') a v = Ok w -> f w = None).
Proof. exact append_reaches. Qed.
Print Assumptions C109_appended.
(** An assignment to an inherited field that leaves its conversion alone changes neither its validation nor its export. *)
Theorem C109_inherited : forall own native prim check h b x y v, proper h -> b < made_by h -> origin h b <> b ->
  let h' := FSet b x y :: h in
  native (dset x y (attrs_of h b)) v = native (attrs_of h b) v ->
  field_validate native check (after own h') b v = field_validate native check (after own h) b v /\
  field_export prim (after own h') b v = field_export prim (after own h) b v.
Proof. exact copy_deaf. Qed.
Print Assumptions C109_inherited.

Example C109_inherited_case :
  proper three /\ 1 < made_by three /\ origin three 1 <> 1 /\
  text_native (dset (k "max_length") (VInt 1) (attrs_of three 1)) (VStr (u "yes")) = text_native (attrs_of three 1) (VStr (u "yes")) /\
  origin (FNew [] [] :: three) 3 <> origin (FNew [] [] :: three) 1 /\
  field_validate text_native text_check (after text_own three) 1 (VStr (u "yes")) = Ok (VStr (u "yes")).
Proof. split; [vm_compute; auto 10 with arith|]. split; [vm_compute; auto 10 with arith|]. split; [vm_compute; discriminate|]. split; [reflexivity|]. split; [vm_compute; discriminate|]. vm_compute. reflexivity. Qed.

(** That a field obeys the limits it shows is therefore refuted for inherited fields, *)
Theorem C109_limits_refuted : exists h a hi s,
  proper h /\ a < made_by h /\ dget (k "max_length") (attrs_of h a) = Some (VInt hi) /\ (hi < Z.of_nat (length s))%Z /\
  field_validate text_native text_check (after text_own h) a (VStr s) = Ok (VStr s).
Proof. exact limits_ignored. Qed.
Print Assumptions C109_limits_refuted.
(** and that classes derived before keep their limits when the field of the base class is changed. *)
Theorem C109_base_change_refuted : exists h b x y a v w e,
  proper h /\ a < made_by h /\ b < made_by h /\ a <> b /\
  field_validate text_native text_check (after text_own h) a v = Ok w /\
  field_validate text_native text_check (after text_own (FSet b x y :: h)) a v = Raise e.
Proof. exact base_reaches. Qed.
Print Assumptions C109_base_change_refuted.
