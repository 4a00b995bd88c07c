(** C113: copies of instances made with the copy module.  A history lists events, the latest first; instances are numbered in the order in which they
    are made. *)
From Coq Require Import Lia.
From Verif.Model Require Import Py Core Export Api InstanceCopy.
From Verif.Spec Require Import InstanceCopySpec.
From Verif.Proofs Require Import InstanceCopyFacts.
From Verif.Conformance Require Import Sample.
Open Scope string_scope.
Open Scope list_scope.

(** A copy made with [copy.copy] and its original have the same data for ever, whatever is done to either of them or to others: *)
Theorem C113_copy_and_original : forall E r g h i, feasible (g ++ CCopy i :: h) ->
  instance_at (after E r (g ++ CCopy i :: h)) (instances h) = instance_at (after E r (g ++ CCopy i :: h)) i.
Proof. exact one_instance. Qed.
Print Assumptions C113_copy_and_original.
(** assignment, deletion, import_data and validate take place for all copies of the same original, and for no other instance. *)
Theorem C113_operations : forall E r h i o k, feasible (COp i o :: h) -> k < instances h ->
  exists c m m', instance_at (after E r h) k = Some (c, m) /\ instance_at (after E r (COp i o :: h)) k = Some (c, m') /\
    if Nat.eqb (first_original h k) (first_original h i) then does E r c m m' o else m' = m.
Proof. exact reaches_all. Qed.
Print Assumptions C113_operations.
(** Making instances, with a call of the class or by copying, changes none of those there are. *)
Theorem C113_new_instances : forall E r h e k, feasible (e :: h) -> k < instances h -> match e with COp _ _ => False | _ => True end ->
  instance_at (after E r (e :: h)) k = instance_at (after E r h) k.
Proof. exact keeps. Qed.
Print Assumptions C113_new_instances.
(** An instance made with a call has the data made for it. *)
Theorem C113_new_instance : forall E r h c m, feasible h -> instance_at (after E r (CNew c m :: h)) (instances h) = Some (c, m).
Proof. exact made_new. Qed.
Print Assumptions C113_new_instance.
(** That there are independent copies is refuted also for [copy.deepcopy]: it fails for every instance, and for every value that contains one;
    other values are copied. *)
Theorem C113_deepcopy_of_instances_refuted : forall v,
  (holds_instance v -> deepcopy v = Raise (XPy ETypeError)) /\ (~ holds_instance v -> deepcopy v = Ok v).
Proof. exact deep. Qed.
Print Assumptions C113_deepcopy_of_instances_refuted.

(** Two instances; the first is copied, then the copy assigned to, and the original validated. *)
Example C113_case :
  let m := MD [] [(k "name", VStr (u "Ann"))] [] None in
  let h := [CCopy 0; CNew 1%N m; CNew 1%N m] in
  let g := [COp 2 (ODel (k "name")); COp 0 (OValidate kw0); COp 2 (OSet (k "name") (VStr (u "Bob")))] in
  let r := conv_at Esample 9 in
  feasible (g ++ h) /\ instances h = 3 /\ map (first_original h) [0; 1; 2] = [0; 1; 0] /\
  map (fun i => option_map (fun p => chain_get (snd p) (k "name")) (instance_at (after Esample r (skipn 2 g ++ h)) i)) [0; 1; 2] =
    [Some (Some (VStr (u "Bob"))); Some (Some (VStr (u "Ann"))); Some (Some (VStr (u "Bob")))] /\
  instance_at (after Esample r (g ++ h)) 0 = instance_at (after Esample r (g ++ h)) 2 /\
  instance_at (after Esample r (g ++ h)) 1 = Some (1%N, m) /\
  holds_instance (VList [VDict [(k "a", VModel 1%N m)]]) /\ ~ holds_instance (VList [VInt 1; VDict [(k "a", VNone)]]).
Proof.
  cbn zeta. split; [cbn; repeat split; lia|]. split; [reflexivity|]. split; [reflexivity|].
  split; [vm_compute; reflexivity|]. split; [vm_compute; reflexivity|]. split; [vm_compute; reflexivity|]. split.
  - eapply HoldsList; [now left|]. eapply HoldsDict; [now left|constructor].
  - intros H. inversion H as [|l x I J| |]; subst. destruct I as [<-|[<-|[]]]; [inversion J|]. inversion J as [| | |d n x I K]; subst.
    destruct I as [I|[]]. inversion I; subst. inversion K.
Qed.
