(** C104: an export is made of the exports of the parts. *)
From Verif.Model Require Import Py Core Export Api.
From Verif.Spec Require Import ImportSpec ExportSpec IndependSpec ComposeSpec.
From Verif.Proofs Require Import ComposeFacts ExportWitness IndependWitness ComposeWitness.
From Verif.Conformance Require Import Sample.
Open Scope string_scope.
Open Scope list_scope.

(** What stands in to_primitive() or to_native() for a part of the instance, at any depth, is what exporting that part
    on its own gives, with the same role and level. *)
Theorem C104_parts : forall E, distinct_names E -> forall x j c m d p g u w,
  model_export_top E (export_at E j) c m x = Ok d -> part_at E x (holder c) p (VModel c m) g u ->
  out_at E p (VModel c m) (VDict d) = Some w -> own_form E x g u w.
Proof. exact top_part. Qed.
Print Assumptions C104_parts.
(** An export that leaves nothing out has something for every part. *)
Theorem C104_every_part : forall E, distinct_names E -> forall x j c m d p g u,
  open_export E x -> model_export_top E (export_at E j) c m x = Ok d -> part_at E x (holder c) p (VModel c m) g u ->
  exists w, out_at E p (VModel c m) (VDict d) = Some w.
Proof. exact top_shown. Qed.
Print Assumptions C104_every_part.
(** Two instances that are the same at a place: so are their exports, or both have nothing there, whatever the rest is. *)
Theorem C104_no_influence : forall E, distinct_names E -> forall x j c m m' d d' p,
  name_roles E x -> same_part E x (holder c) p (VModel c m) (VModel c m') ->
  model_export_top E (export_at E j) c m x = Ok d -> model_export_top E (export_at E j) c m' x = Ok d' ->
  out_at E p (VModel c m) (VDict d) = out_at E p (VModel c m') (VDict d').
Proof. exact top_same. Qed.
Print Assumptions C104_no_influence.
(** Both for the value of any field. *)
Theorem C104_parts_of_values : forall E, distinct_names E -> forall x f p v g u, part_at E x f p v g u ->
  forall j w w', export_at E j f v x = Ok w -> out_at E p v w = Some w' ->
  exists w0, (is_nil u = true /\ w0 = u \/ exists i, i <= j /\ export_at E i g u x = Ok w0) /\ (w' = w0 \/ w0 = VUndef /\ w' = VNone).
Proof. exact part_form. Qed.
Print Assumptions C104_parts_of_values.
Theorem C104_no_influence_on_values : forall E, distinct_names E -> forall x f p v v', name_roles E x -> same_part E x f p v v' ->
  forall j w w', export_at E j f v x = Ok w -> export_at E j f v' x = Ok w' -> out_at E p v w = out_at E p v' w'.
Proof. exact part_same. Qed.
Print Assumptions C104_no_influence_on_values.

(** Not so for elements of lists when some are left out: the others move. *)
Theorem C104_positions_refuted : exists m m' d d', nth_error [VNone; VInt 1] 1 = nth_error [VInt 7; VInt 1] 1 /\
  reading Esample (VModel 1 m) (k "tags") = VList [VNone; VInt 1] /\ reading Esample (VModel 1 m') (k "tags") = VList [VInt 7; VInt 1] /\
  model_export_top Esample (export_at Esample 5) 1 m (xlevel 2) = Ok d /\ model_export_top Esample (export_at Esample 5) 1 m' (xlevel 2) = Ok d' /\
  out_at Esample [SField (k "tags"); SItem 1] (VModel 1 m) (VDict d) = None /\
  out_at Esample [SField (k "tags"); SItem 1] (VModel 1 m') (VDict d') = Some (VInt 1).
Proof. exact gaps_move. Qed.
Print Assumptions C104_positions_refuted.
(** Nor with roles that look at values. *)
Theorem C104_value_roles_refuted : exists x d d',
  same_part Esample x (holder 1) [SField (k "home"); SField (k "zip")] (VModel 1 alice_model) (VModel 1 bob_model) /\
  model_export_top Esample (export_at Esample 5) 1 alice_model x = Ok d /\ model_export_top Esample (export_at Esample 5) 1 bob_model x = Ok d' /\
  out_at Esample [SField (k "home"); SField (k "zip")] (VModel 1 alice_model) (VDict d) = Some (VInt 123) /\
  out_at Esample [SField (k "home"); SField (k "zip")] (VModel 1 bob_model) (VDict d') = None.
Proof. exact value_roles. Qed.
Print Assumptions C104_value_roles_refuted.

(** Two instances with one postcode and one tag in common. *)
Example C104_case : distinct_names Esample /\ name_roles Esample xprim /\
  part_at Esample xprim (holder 1) [SField (k "home"); SField (k "zip")] (VModel 1 bob_model)
    (FS (o_from ["postcode"] (o_sname "ZIP" (o0 0))) (TLeaf int_leaf)) (VInt 123) /\
  same_part Esample xprim (holder 1) [SField (k "home"); SField (k "zip")] (VModel 1 alice_model) (VModel 1 bob_model) /\
  same_part Esample xprim (holder 1) [SField (k "tags"); SItem 1] (VModel 1 alice_model) (VModel 1 bob_model).
Proof.
  split; [exact sample_names|]. split; [apply sample_name_roles; discriminate|]. split; [apply zip_part; reflexivity|].
  split; [exact zip_same|apply tag_same, plain_levels].
Qed.
Example C104_case_exports : exists d d',
  model_export_top Esample (export_at Esample 5) 1 alice_model xprim = Ok d /\ model_export_top Esample (export_at Esample 5) 1 bob_model xprim = Ok d' /\
  out_at Esample [SField (k "home"); SField (k "zip")] (VModel 1 alice_model) (VDict d) = Some (VInt 123) /\
  out_at Esample [SField (k "home"); SField (k "zip")] (VModel 1 bob_model) (VDict d') = Some (VInt 123) /\
  out_at Esample [SField (k "tags"); SItem 1] (VModel 1 bob_model) (VDict d') = Some (VInt 1) /\ d <> d'.
Proof.
  do 2 eexists. split; [vm_compute; reflexivity|]. split; [vm_compute; reflexivity|]. split; [vm_compute; reflexivity|].
  split; [vm_compute; reflexivity|]. split; [vm_compute; reflexivity|discriminate].
Qed.
(** An export that leaves nothing out. *)
Example C104_case_open : open_export Esample (ECtx Native NoRole true (Some ALL)).
Proof.
  split; [|exists ALL; split; reflexivity]. intros c filt n v R (g & -> & H). inversion R as [| | |_ D]; try discriminate.
  destruct c as [|[p|[p|p|]|]]; discriminate D.
Qed.
