(** C112: adding computed fields to an existing class.  [append_any s c n a] is [cls._append_field(n, field)] for class number [c] and the
    field object at address [a]; [instance_fields s c] are the fields as instances of class [c] use them. *)
From Coq Require Import Lia.
From Verif.Model Require Import Py Core Build Export Api SetterObj AppendCalc.
From Verif.Spec Require Import SetterObjSpec AppendCalcSpec.
From Verif.Proofs Require Import AppendCalcFacts.
From Verif.Conformance Require Import Sample.
Open Scope string_scope.
Open Scope list_scope.

(** The hypotheses on states in the theorems below hold after every program. *)
Theorem C112_programs : forall es, sensible (AS (SS [] []) []) es -> let s := arun (AS (SS [] []) []) es in
  well_placed (as_base s) /\ added_to_classes s /\ forall c, NoDup (dkeys (addresses (as_base s) c)).
Proof. exact all_programs. Qed.
Print Assumptions C112_programs.
(** The added field has type and options of the object and is owned by the class, but instances use it as a plain field: where it has a setter, what is assigned when
    data is imported or validated goes to the data of the instance. *)
Theorem C112_added_field : forall s c n a, can_append s c a -> let f := sf_at (ss_objs (as_base s)) a in let s' := append_any s c n a in
  exists g st, dget n (instance_fields s' c) = Some (Fld (fd_spec g) None (option_map (fun _ => st) (fd_set f))) /\ owned_by c f g /\
    forall d m v, st (VModel d m) v = (VModel d (MD (md_unsafe m) (dset n v (md_converted m)) (md_valid m) (md_hidden m)), None).
Proof. exact appended_full. Qed.
Print Assumptions C112_added_field.
(** All other fields of all classes stay as they are. *)
Theorem C112_other_fields : forall s c n a d x, can_append s c a -> fresh s a -> (d, x) <> (c, n) ->
  dget x (instance_fields (append_any s c n a) d) = dget x (instance_fields s d).
Proof. exact others. Qed.
Print Assumptions C112_other_fields.
(** Values are read from and written to the data of the instance; neither getter nor setter of the object is called. *)
Theorem C112_values : forall s c n a E r m, can_append s c a -> let f := sf_at (ss_objs (as_base s)) a in let s' := append_any s c n a in
  mc_fields (e_class E (N.of_nat c)) = instance_fields s' c ->
  model_getitem E (N.of_nat c) m n =
    match chain_get m n with
    | Some v => if is_undef v then Raise (XPy EUndefinedValueError) else Ok v
    | None => Raise (XPy EUndefinedValueError)
    end /\
  exists g, owned_by c f g /\ forall v w, cv_pre r (fd_spec g) v = Ok w ->
    model_setitem E r (N.of_nat c) m n v = (MD (md_unsafe m) (dset n w (md_converted m)) (md_valid m) (md_hidden m), None).
Proof. exact behaves. Qed.
Print Assumptions C112_values.
(** That what is [in] an instance can be read is refuted: an added computed field always is, also when there is no value to read. *)
Theorem C112_members_can_be_read_refuted : forall s c n a E m, can_append s c a -> let f := sf_at (ss_objs (as_base s)) a in let s' := append_any s c n a in
  mc_fields (e_class E (N.of_nat c)) = instance_fields s' c ->
  contains s' c E m n =
    match fd_get f with
    | Some _ => true
    | None => match chain_get m n with Some v => negb (is_undef v) | None => false end
    end.
Proof. exact member. Qed.
Print Assumptions C112_members_can_be_read_refuted.
(** A class derived afterwards has the object's getter and setter. *)
Theorem C112_derived_class : forall s c n a, can_append s c a -> well_placed (as_base s) -> added_to_classes s -> NoDup (dkeys (addresses (as_base s) c)) ->
  let s' := append_any s c n a in let d := length (ss_classes (as_base s)) in let s2 := astep s' (AStep (SClass [c] [])) in
  exists g, dget n (instance_fields s2 d) = Some g /\ owned_by d (sf_at (ss_objs (as_base s)) a) g.
Proof. exact derived_later. Qed.
Print Assumptions C112_derived_class.
(** So that a derived class treats an inherited field as its base does is refuted for computed fields that were added. *)
Theorem C112_base_and_derived_class_agree_refuted : forall s c n a g,
  can_append s c a -> well_placed (as_base s) -> added_to_classes s -> NoDup (dkeys (addresses (as_base s) c)) ->
  fd_get (sf_at (ss_objs (as_base s)) a) = Some g ->
  let d := length (ss_classes (as_base s)) in let s2 := arun s [AAppend c n a; AStep (SClass [c] [])] in
  (exists f, dget n (instance_fields s2 c) = Some f /\ fd_get f = None) /\
  (exists f, dget n (instance_fields s2 d) = Some f /\ fd_get f = Some g).
Proof. exact late_getter. Qed.
Print Assumptions C112_base_and_derived_class_agree_refuted.

(** A class with a plain field; a computed field with a setter is added, then a class derived. *)
Example C112_case :
  let calc := Fld (FS (o0 0%N) (TLeaf any_leaf)) (Some (fun _ => Ok (VInt 4))) (Some (fun i _ => (i, Some (XPy EValueError)))) in
  let es := [AStep (SNew (Fld (FS (o0 0%N) (TLeaf any_leaf)) None None)); AStep (SClass [] [(k "side", 0)]); AStep (SNew calc)] in
  let s := arun (AS (SS [] []) []) es in
  let s2 := arun s [AAppend 0 (k "area") 1; AStep (SClass [0] [])] in
  let E c := Env (fun _ => MC (instance_fields s2 c) [] [] DEFAULT None) (fun _ _ => false) (fun _ => []) in
  let m := MD [] [(k "area", VInt 9)] [] None in
  sensible (AS (SS [] []) []) es /\ can_append s 0 1 /\ fresh s 1 /\
  dkeys (instance_fields s2 0) = [k "side"; k "area"] /\
  model_getitem (E 0) 0 m (k "area") = Ok (VInt 9) /\ model_getitem (E 1) 1 m (k "area") = Ok (VInt 4) /\
  contains s2 0 (E 0) (MD [] [] [] None) (k "area") = true /\ model_getitem (E 0) 0 (MD [] [] [] None) (k "area") = Raise (XPy EUndefinedValueError) /\
  snd (model_setitem (E 0) (conv_at (E 0) 9) 0 m (k "area") (VInt 5)) = None /\
  snd (model_setitem (E 1) (conv_at (E 1) 9) 1 m (k "area") (VInt 5)) = Some (XPy EValueError).
Proof.
  cbn zeta.
  split; [cbn; repeat split; intros n a [H|[]]; inversion H; lia|].
  split; [split; vm_compute; lia|].
  split; [intros [|[|c]]; [|intros []|destruct c; intros []]; vm_compute; intros [H|[]]; discriminate H|].
  repeat (split; [vm_compute; reflexivity|]). vm_compute. reflexivity.
Qed.
