(** Cases for the claim that an export is made of the exports of the parts. *)
From Verif.Model Require Import Py Core Export Api.
From Verif.Spec Require Import ImportSpec ExportSpec IndependSpec ComposeSpec.
From Verif.Proofs Require Import DictLemmas ExportLemmas ExportWitness IndependWitness ComposeFacts.
From Verif.Conformance Require Import Sample.
Open Scope string_scope.
Open Scope list_scope.

Lemma sample_name_roles x : (forall g, ec_role x <> RoleFn g) -> name_roles Esample x.
Proof.
  intros NF c filt n v v' R (g & -> & H). exists g. split; [reflexivity|].
  assert (exists y, dget y (mc_roles (e_class Esample c)) = Some g) as [y D].
  { inversion R; subst; eauto. now destruct (NF g). }
  destruct c as [|[p|[p|p|]|]]; cbn in D; try discriminate D. destruct (key_eqb y (k "public")); [|discriminate D]. injection D as <-. exact H.
Qed.

(** Another instance with the same postcode and second tag, and nothing else in common. *)
Definition bob_model : mdata pyval :=
  MD [] [(k "name", VNone); (k "age", VInt 3); (k "tags", VList [VInt 7; VInt 1; VInt 8]);
         (k "home", VModel 0 (MD [] [(k "street", VNone); (k "zip", VInt 123)] [] None))] [] None.
Lemma zip_part m : reading Esample (VModel 1 m) (k "home") = VModel 0 (MD [] [(k "street", VNone); (k "zip", VInt 123)] [] None) ->
  part_at Esample xprim (holder 1) [SField (k "home"); SField (k "zip")] (VModel 1 m)
    (FS (o_from ["postcode"] (o_sname "ZIP" (o0 0))) (TLeaf int_leaf)) (VInt 123).
Proof.
  intros Q. eapply (pa_field Esample xprim _ (k "home") (snd (fld "home" (o0 1) (TModel 0)))).
  - exact Logic.I.
  - unfold fields_of. cbn. do 3 right. left. reflexivity.
  - rewrite Q. eapply (pa_field Esample xprim _ (k "zip") (snd (fld "zip" (o_from ["postcode"] (o_sname "ZIP" (o0 0))) (TLeaf int_leaf)))).
    + exact Logic.I.
    + unfold fields_of. cbn. right. left. reflexivity.
    + constructor.
Qed.
Lemma zip_same : same_part Esample xprim (holder 1) [SField (k "home"); SField (k "zip")] (VModel 1 alice_model) (VModel 1 bob_model).
Proof.
  eapply (sp_field Esample xprim _ (k "home") (snd (fld "home" (o0 1) (TModel 0)))).
  - exact Logic.I.
  - unfold fields_of. cbn. do 3 right. left. reflexivity.
  - eapply (sp_field Esample xprim _ (k "zip") (snd (fld "zip" (o_from ["postcode"] (o_sname "ZIP" (o0 0))) (TLeaf int_leaf)))).
    + exact Logic.I.
    + unfold fields_of. cbn. right. left. reflexivity.
    + constructor.
Qed.
Lemma tag_same x : writes_none Esample (FS (o_inner (o0 1)) (TLeaf int_leaf)) x ->
  same_part Esample x (holder 1) [SField (k "tags"); SItem 1] (VModel 1 alice_model) (VModel 1 bob_model).
Proof.
  intros Wn. eapply (sp_field Esample x _ (k "tags") (snd (fld "tags" (o0 1) (TList (FS (o_inner (o0 1)) (TLeaf int_leaf)))))).
  - exact Logic.I.
  - unfold fields_of. cbn. do 2 right. left. reflexivity.
  - eapply sp_item; [exact Wn|reflexivity|reflexivity|constructor].
Qed.
Lemma plain_levels : writes_none Esample (FS (o_inner (o0 1)) (TLeaf int_leaf)) xprim.
Proof. intros lvl L. apply level_spec in L. subst lvl. reflexivity. Qed.

(** Elements that are left out move the others. *)
Definition gap_model (v : pyval) : mdata pyval := MD [] [(k "tags", VList [v; VInt 1])] [] None.
Lemma gaps_move : exists m m' d d', nth_error [VNone; VInt 1] 1 = nth_error [VInt 7; VInt 1] 1 /\
  reading Esample (VModel 1 m) (k "tags") = VList [VNone; VInt 1] /\ reading Esample (VModel 1 m') (k "tags") = VList [VInt 7; VInt 1] /\
  model_export_top Esample (export_at Esample 5) 1 m (xlevel 2) = Ok d /\ model_export_top Esample (export_at Esample 5) 1 m' (xlevel 2) = Ok d' /\
  out_at Esample [SField (k "tags"); SItem 1] (VModel 1 m) (VDict d) = None /\
  out_at Esample [SField (k "tags"); SItem 1] (VModel 1 m') (VDict d') = Some (VInt 1).
Proof.
  exists (gap_model VNone), (gap_model (VInt 7)). do 2 eexists. do 3 (split; [reflexivity|]).
  split; [vm_compute; reflexivity|]. split; [vm_compute; reflexivity|]. split; vm_compute; reflexivity.
Qed.
(** A role that hides an address without a street. *)
Definition no_street : rolefn := fun n v =>
  match v with VModel _ m => match chain_get m (k "street") with Some VNone => true | _ => false end | _ => false end.
Lemma value_roles : exists x d d',
  same_part Esample x (holder 1) [SField (k "home"); SField (k "zip")] (VModel 1 alice_model) (VModel 1 bob_model) /\
  model_export_top Esample (export_at Esample 5) 1 alice_model x = Ok d /\ model_export_top Esample (export_at Esample 5) 1 bob_model x = Ok d' /\
  out_at Esample [SField (k "home"); SField (k "zip")] (VModel 1 alice_model) (VDict d) = Some (VInt 123) /\
  out_at Esample [SField (k "home"); SField (k "zip")] (VModel 1 bob_model) (VDict d') = None.
Proof.
  exists (ECtx Primitive (RoleFn no_street) true None). do 2 eexists. split.
  - eapply (sp_field Esample _ _ (k "home") (snd (fld "home" (o0 1) (TModel 0)))).
    + exact Logic.I.
    + unfold fields_of. cbn. do 3 right. left. reflexivity.
    + eapply (sp_field Esample _ _ (k "zip") (snd (fld "zip" (o_from ["postcode"] (o_sname "ZIP" (o0 0))) (TLeaf int_leaf)))).
      * exact Logic.I.
      * unfold fields_of. cbn. right. left. reflexivity.
      * constructor.
  - split; [vm_compute; reflexivity|]. split; [vm_compute; reflexivity|]. split; vm_compute; reflexivity.
Qed.
