(** C110: when the names of a field take effect. *)
From Coq Require Import Lia.
From Verif.Model Require Import Py Core KeyCache.
From Verif.Spec Require Import KeyCacheSpec.
From Verif.Proofs Require Import KeyCacheFacts.
From Verif.Conformance Require Import Sample.
Open Scope string_scope.
Open Scope list_scope.

(** A program: a field with a serialized name and one without, class 0 with both. *)
Definition person : list kevent :=
  [KNew (FS (o_sname "n" (o0 0%N)) (TLeaf any_leaf)); KNew (FS (o0 0%N) (TLeaf any_leaf)); KClass [] [(k "name", 0); (k "age", 1)]].
Definition empty : kstate := KS [] [].

(** Immediately after a class statement, imports and the strict check go by the names its fields have then. *)
Theorem C110_new_class : forall s bases own,
  (forall n a, In (n, a) own -> a < length (ks_objs s)) -> NoDup (map snd own) -> as_declared (declare s bases own) (length (ks_classes s)).
Proof. exact new_class. Qed.
Print Assumptions C110_new_class.
(** Those are the names of the fields it declares, and for the others the names that the field of the first base to have it has at that moment,
    whatever they were when the base was made. *)
Theorem C110_names_of_a_class : forall s bases own n,
  sound s -> (forall b, In b bases -> NoDup (dkeys (class_at s b))) -> (forall x a, In (x, a) own -> a < length (ks_objs s)) -> NoDup (dkeys own) ->
  let s' := declare s bases own in let c := length (ks_classes s) in
  dget n (plain_fields s' c) =
  match dget n own with
  | Some a => Some (Fld (kf_spec (kf_at (ks_objs s) a)) None None)
  | None => first_with n (map (plain_fields s) bases)
  end.
Proof. exact derived. Qed.
Print Assumptions C110_names_of_a_class.
(** An assignment sets that name of that field and no other. *)
Theorem C110_assignment : forall s a b, a < length (ks_objs s) ->
  (forall x, names (kf_spec (kf_at (ks_objs (kstep s (KSname a x))) b)) =
     if Nat.eqb b a then (x, snd (names (kf_spec (kf_at (ks_objs s) b)))) else names (kf_spec (kf_at (ks_objs s) b))) /\
  (forall l, names (kf_spec (kf_at (ks_objs (kstep s (KFrom a l))) b)) =
     if Nat.eqb b a then (fst (names (kf_spec (kf_at (ks_objs s) b))), l) else names (kf_spec (kf_at (ks_objs s) b))).
Proof. exact assigned. Qed.
Print Assumptions C110_assignment.
(** Nothing changes for a class as long as nobody assigns names to its fields or uses the same field objects in another class
    statement; deriving classes, in particular, changes nothing. *)
Theorem C110_stays : forall es s c, sound s -> all_in_range s es -> c < length (ks_classes s) ->
  (forall a, In a (objects s c) -> Forall (fun e => ~ redeclares a e /\ ~ renames a e) es) ->
  plain_fields (krun s es) c = plain_fields s c /\
  (forall m raw n, class_value (krun s es) c m raw n = class_value s c m raw n) /\
  (forall m raw, class_rogues (krun s es) c m raw = class_rogues s c m raw) /\
  (forall n, class_output (krun s es) c n = class_output s c n).
Proof. exact stays. Qed.
Print Assumptions C110_stays.
(** Names assigned later are ignored by imports without a mapping and by the strict check, *)
Theorem C110_assigned_names : forall es s c, sound s -> all_in_range s es -> c < length (ks_classes s) ->
  (forall a, In a (objects s c) -> Forall (fun e => ~ redeclares a e) es) ->
  (forall raw n, class_value (krun s es) c no_mapping raw n = class_value s c no_mapping raw n) /\
  (forall m raw, class_rogues (krun s es) c m raw = class_rogues s c m raw).
Proof. exact names_late. Qed.
Print Assumptions C110_assigned_names.
(** but imports with a mapping look for the present names, whatever the mapping says, *)
Theorem C110_assigned_names_with_mapping : forall es s bases own c, let s1 := declare s bases own in
  sound s -> (forall n a, In (n, a) own -> a < length (ks_objs s)) -> NoDup (map snd own) -> c = length (ks_classes s) ->
  all_in_range s1 es -> (forall a, In a (objects s1 c) -> Forall (fun e => ~ redeclares a e) es) ->
  forall E m raw n f, any_mapping m = true -> dget n (plain_fields (krun s1 es) c) = Some f ->
    (if is_undef (atom_value E (VDict raw) n) then find_alt E (VDict raw) n (input_keys n (fd_spec f) m) else Ok (atom_value E (VDict raw) n))
    = Ok (class_value (krun s1 es) c m raw n).
Proof. exact names_mapped. Qed.
Print Assumptions C110_assigned_names_with_mapping.
(** and exports use an assigned serialized name at once. *)
Theorem C110_exports : forall s c n a x, dget n (class_at s c) = Some a -> a < length (ks_objs s) -> key_true x = true ->
  class_output (kstep s (KSname a (Some x))) c n = Some x.
Proof. exact output_follows. Qed.
Print Assumptions C110_exports.
(** So that what is exported can be imported again is refuted once a serialized name has been assigned: the value is not found under its new
    name, and a strict import refuses that name. *)
Theorem C110_round_trip_refuted : forall s0 bases own n a x v,
  sound s0 -> (forall y b, In (y, b) own -> b < length (ks_objs s0)) -> NoDup (map snd own) ->
  let s := declare s0 bases own in let c := length (ks_classes s0) in
  dget n (class_at s c) = Some a -> key_true x = true -> ~ In x (valid_input_keys (plain_fields s c)) ->
  let s' := kstep s (KSname a (Some x)) in
  class_output s' c n = Some x /\ class_value s' c no_mapping [(x, v)] n = VUndef /\ class_rogues s' c no_mapping [(x, v)] = [x].
Proof. exact lost. Qed.
Print Assumptions C110_round_trip_refuted.

(** Class 1 is derived from class 0 before, class 2 after the field name of class 0 is given the serialized name m. *)
Example C110_case :
  let s0 := krun empty (firstn 2 person) in
  let s := krun empty person in
  let es := [KClass [0] []; KSname 0 (Some (k "m")); KClass [0] []] in
  let s' := krun s es in
  sound s0 /\ sound s /\ all_in_range s es /\ (forall a, In a (objects s 0) -> Forall (fun e => ~ redeclares a e) es) /\
  ~ In (k "m") (valid_input_keys (plain_fields s 0)) /\
  map (fun c => class_output s' c (k "name")) [0; 1; 2] = [Some (k "m"); Some (k "n"); Some (k "m")] /\
  map (fun c => class_value s' c no_mapping [(k "m", VInt 1)] (k "name")) [0; 1; 2] = [VUndef; VUndef; VInt 1] /\
  map (fun c => class_value s' c no_mapping [(k "n", VInt 1)] (k "name")) [0; 1; 2] = [VInt 1; VInt 1; VUndef] /\
  map (fun c => class_rogues s' c no_mapping [(k "m", VInt 1); (k "n", VInt 1)]) [0; 1; 2] = [[k "m"]; [k "m"]; [k "n"]] /\
  class_value s' 0 (Mapping [(k "age", [k "a"])] []) [(k "m", VInt 1)] (k "name") = VInt 1 /\
  class_rogues s' 0 (Mapping [(k "age", [k "a"])] []) [(k "m", VInt 1)] = [k "m"].
Proof.
  cbn zeta.
  split; [intros c n a; destruct c as [|[|c]]; intros []|].
  split; [intros [|[|c]] n a; [|intros []|destruct c; intros []]; intros H; repeat (destruct H as [H|H]; [inversion H; vm_compute; auto|]); contradiction|].
  split; [vm_compute; repeat split; try lia; try (intros; contradiction); auto|].
  split; [intros a _; repeat constructor; try (intros [n []]); intros []|].
  split; [vm_compute; intros H; repeat (destruct H as [H|H]; [discriminate H|]); contradiction|].
  repeat (split; [vm_compute; reflexivity|]). vm_compute. reflexivity.
Qed.

(** That a class accepts its own field names is refuted when a field object is used again in another class under another name. *)
Theorem C110_own_name_refuted : exists es n v, all_in_range empty es /\ In n (dkeys (class_at (krun empty es) 0)) /\
  class_rogues (krun empty es) 0 no_mapping [(n, v)] = [n].
Proof. exact reused. Qed.
Print Assumptions C110_own_name_refuted.
