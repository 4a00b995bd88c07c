(** C111: setters of computed fields.  [fields_of s c] are the fields of class number [c]; [SSetter a g] stands for [.setter(g)] on
    the computed field at address [a]. *)
From Coq Require Import Lia.
From Verif.Model Require Import Py Core Build Export Api SetterObj.
From Verif.Spec Require Import SetterObjSpec.
From Verif.Proofs Require Import SetterObjFacts.
From Verif.Conformance Require Import Sample.
Open Scope string_scope.
Open Scope list_scope.

(** A class has the fields it declares; for the others, those of the first base to have them, with the getter, the setter and the options they have
    at that moment.  All are owned by the class. *)
Theorem C111_fields_of_a_class : forall s bases own n,
  well_placed s -> (forall b, In b bases -> NoDup (dkeys (addresses s b))) ->
  (forall x a, In (x, a) own -> a < length (ss_objs s)) -> NoDup (dkeys own) ->
  let s' := class_statement s bases own in let c := length (ss_classes s) in
  match match dget n own with Some a => Some (sf_at (ss_objs s) a) | None => first_having n (map (fields_of s) bases) end, dget n (fields_of s' c) with
  | Some f, Some g => owned_by c f g
  | None, None => True
  | _, _ => False
  end.
Proof. exact new_class_fields. Qed.
Print Assumptions C111_fields_of_a_class.
(** Giving a computed field a setter changes the setter of this object in all classes that have it, and nothing else. *)
Theorem C111_setter : forall s c n a g, a < length (ss_objs s) ->
  dget n (fields_of (sstep s (SSetter a g)) c) =
  match dget n (addresses s c), dget n (fields_of s c) with
  | Some b, Some f => Some (if Nat.eqb b a then Fld (fd_spec f) (fd_get f) (Some g) else f)
  | _, _ => None
  end.
Proof. exact setter_effect. Qed.
Print Assumptions C111_setter.
(** The fields of a class stay what they are as long as its own objects are neither given a setter nor used in another class statement. *)
Theorem C111_stays : forall es s c, well_placed s -> all_possible s es -> c < length (ss_classes s) ->
  (forall a, has_object s c a -> Forall (fun e => ~ touches a e) es) -> fields_of (srun s es) c = fields_of s c.
Proof. exact untouched. Qed.
Print Assumptions C111_stays.
(** In particular setters given to inherited fields later do not pass from a base to a class derived before, nor from the derived class to
    the classes that were there. *)
Theorem C111_base_and_derived_class : forall s bases own, well_placed s -> (forall n a, In (n, a) own -> a < length (ss_objs s)) ->
  let s' := class_statement s bases own in let c := length (ss_classes s) in
  forall es, all_possible s' es ->
  (Forall (fun e => forall a, touches a e -> a < length (ss_objs s) /\ ~ In a (map snd own)) es -> fields_of (srun s' es) c = fields_of s' c) /\
  (Forall (fun e => forall a, touches a e -> has_object s' c a /\ ~ In a (map snd own)) es ->
     forall b, b < c -> fields_of (srun s' es) b = fields_of s' b).
Proof. exact apart. Qed.
Print Assumptions C111_base_and_derived_class.
(** That a class statement leaves its bases alone is refuted for [@Base.name.setter] in the body of a class derived from it: the base's field has the
    setter as well and is owned by the derived class, *)
Theorem C111_setter_in_a_class_body_refuted : forall s b n a g,
  well_placed s -> NoDup (dkeys (addresses s b)) -> b < length (ss_classes s) -> dget n (addresses s b) = Some a ->
  let d := length (ss_classes s) in let s' := srun s [SSetter a g; SClass [b] [(n, a)]] in
  dget n (fields_of s' b) = option_map (fun f => Fld (set_up_field true (N.of_nat d) (fd_spec f)) (fd_get f) (Some g)) (dget n (fields_of s b)) /\
  dget n (fields_of s' d) = dget n (fields_of s' b).
Proof. exact leaks. Qed.
Print Assumptions C111_setter_in_a_class_body_refuted.
(** so instances of the base can be assigned to, and the field takes the derived class's export level when it has none of its own. *)
Theorem C111_instances_of_the_base_refuted : forall s b n a g f, well_placed s -> NoDup (dkeys (addresses s b)) -> b < length (ss_classes s) ->
  dget n (addresses s b) = Some a -> dget n (fields_of s b) = Some f -> fd_get f <> None ->
  let d := length (ss_classes s) in let s' := srun s [SSetter a g; SClass [b] [(n, a)]] in
  exists f', dget n (fields_of s' b) = Some f' /\
  (forall E x, fo_level (fs_opts (fd_spec f)) = None -> ec_level x = None ->
     get_export_level E (fd_spec f') x = mc_level (e_class E (N.of_nat d))) /\
  (forall E r m v w, mc_fields (e_class E (N.of_nat b)) = fields_of s' b -> cv_pre r (fd_spec f') v = Ok w ->
     snd (model_setitem E r (N.of_nat b) m n v) = snd (g (VModel (N.of_nat b) m) w)).
Proof. exact leaks_out. Qed.
Print Assumptions C111_instances_of_the_base_refuted.

(** A computed field area without setter in class 0; class 1 is derived, then the area of class 0 gets a setter, then class 2 is derived from class
    0, then class 3 is derived with a setter of its own in the body. *)
Definition area : field := Fld (FS (o0 0%N) (TLeaf any_leaf)) (Some (fun _ => Ok (VInt 4))) None.
Definition set1 : setfun := fun i _ => (i, None).
Definition set2 : setfun := fun i _ => (i, Some (XPy EValueError)).
Definition nothing : sstate := SS [] [].
Example C111_case :
  let s := srun nothing [SNew area; SNew (Fld (FS (o0 0%N) (TLeaf any_leaf)) None None); SClass [] [(k "area", 0); (k "side", 1)]] in
  let es := [SClass [0] []; SSetter 0 set1; SClass [0] []; SSetter 0 set2; SClass [0] [(k "area", 0)]] in
  let s' := srun s es in
  let view t c := option_map (fun f => (fo_owner (fs_opts (fd_spec f)), option_map (fun g : setfun => snd (g VNone VNone)) (fd_set f))) (dget (k "area") (fields_of t c)) in
  well_placed s /\ NoDup (dkeys (addresses s 0)) /\ all_possible s es /\ dget (k "area") (addresses s 0) = Some 0 /\
  view s 0 = Some (Some 0%N, None) /\
  map (view (srun s (firstn 3 es))) [0; 1; 2] = [Some (Some 0%N, Some None); Some (Some 1%N, None); Some (Some 2%N, Some None)] /\
  map (view s') [0; 1; 2; 3] =
    [Some (Some 3%N, Some (Some (XPy EValueError))); Some (Some 1%N, None); Some (Some 2%N, Some None); Some (Some 3%N, Some (Some (XPy EValueError)))].
Proof.
  cbn zeta.
  split; [intros [|[|c]] n a; [|intros []|destruct c; intros []]; intros H; repeat (destruct H as [H|H]; [inversion H; vm_compute; auto|]); contradiction|].
  split; [vm_compute; repeat constructor; simpl; intros H; repeat (destruct H as [H|H]; [discriminate H|]); contradiction|].
  split; [cbn; repeat split; try lia; intros n a H; repeat (destruct H as [H|H]; [inversion H; lia|]); contradiction|].
  split; [vm_compute; reflexivity|]. split; [vm_compute; reflexivity|]. split; vm_compute; reflexivity.
Qed.
