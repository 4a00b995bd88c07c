(** A program [E] and a stricter version [E2] of it: the same classes with the same fields in the same order, where some
    fields are required that were not, types and validators refuse more, and nothing else changes. *)
From Verif.Model Require Import Py Core Export Api.

Record tighter_opts (o o2 : fopts) : Prop := {
  to_named : fo_named o2 = fo_named o;
  to_required : fo_required o = true -> fo_required o2 = true;
  to_default : fo_default o2 = fo_default o;
  to_sname : fo_sname o2 = fo_sname o;
  to_dfrom : fo_dfrom o2 = fo_dfrom o;
  to_level : fo_level o2 = fo_level o;
  to_owner : fo_owner o2 = fo_owner o;
  to_validators : forall v, (forall g, In g (fo_validators o2) -> g v = None) -> forall g, In g (fo_validators o) -> g v = None }.
(** What the stricter type converts or exports, the other one does as well, with the same result. *)
Definition refines (l l2 : leaf) : Prop :=
  (forall v w, lf_native l2 v = Ok w -> lf_native l v = Ok w) /\ (forall v w, lf_prim l2 v = Ok w -> lf_prim l v = Ok w).
(** The members of unions have types without parts, the same in both versions; their options may differ. *)
Inductive tighter : fspec -> fspec -> Prop :=
| ti_leaf o o2 l l2 : tighter_opts o o2 -> refines l l2 -> tighter (FS o (TLeaf l)) (FS o2 (TLeaf l2))
| ti_union o o2 ms ms2 : tighter_opts o o2 ->
    Forall2 (fun m m2 => exists p p2 l, m = FS p (TLeaf l) /\ m2 = FS p2 (TLeaf l) /\ tighter_opts p p2) ms ms2 ->
    tighter (FS o (TUnion ms)) (FS o2 (TUnion ms2))
| ti_model o o2 c : tighter_opts o o2 -> tighter (FS o (TModel c)) (FS o2 (TModel c))
| ti_poly o o2 p : tighter_opts o o2 -> tighter (FS o (TPoly p)) (FS o2 (TPoly p))
| ti_list o o2 g g2 : tighter_opts o o2 -> tighter g g2 -> tighter (FS o (TList g)) (FS o2 (TList g2))
| ti_dict o o2 g g2 ck : tighter_opts o o2 -> tighter g g2 -> tighter (FS o (TDict g ck)) (FS o2 (TDict g2 ck)).

(** What the model level validator of a field does, if there is one. *)
Definition checked (vfs : list (key * mvalidator)) (n : key) (mut : pyval) (data : list (key * pyval)) (v : pyval)
  : list (key * pyval) * option exn :=
  match dget n vfs with Some vf => vf mut data v | None => (data, None) end.
(** Computed fields have the same getters; there are no setters. *)
Record tighter_class (a b : mclass) : Prop := {
  tc_fields : Forall2 (fun p q => fst p = fst q /\ tighter (fd_spec (snd p)) (fd_spec (snd q)) /\
    fd_get (snd p) = fd_get (snd q) /\ fd_set (snd p) = None /\ fd_set (snd q) = None) (mc_fields a) (mc_fields b);
  tc_validators : forall n mut data v, snd (checked (mc_validators b) n mut data v) = None ->
    checked (mc_validators a) n mut data v = checked (mc_validators b) n mut data v;
  tc_roles : mc_roles b = mc_roles a;
  tc_level : mc_level b = mc_level a;
  tc_claim : mc_claim b = mc_claim a }.
Record tightens (E E2 : env) : Prop := {
  tn_class : forall c, tighter_class (e_class E c) (e_class E2 c);
  tn_issub : forall c d, e_issub E2 c d = e_issub E c d;
  tn_subs : forall c, e_subs E2 c = e_subs E c }.

(** Versions that differ in their validators only. *)
Record same_opts (o o2 : fopts) : Prop := {
  so_named : fo_named o2 = fo_named o;
  so_required : fo_required o2 = fo_required o;
  so_default : fo_default o2 = fo_default o;
  so_sname : fo_sname o2 = fo_sname o;
  so_dfrom : fo_dfrom o2 = fo_dfrom o;
  so_level : fo_level o2 = fo_level o;
  so_owner : fo_owner o2 = fo_owner o }.
Inductive same_but : fspec -> fspec -> Prop :=
| sb_leaf o o2 l : same_opts o o2 -> same_but (FS o (TLeaf l)) (FS o2 (TLeaf l))
| sb_union o o2 ms ms2 : same_opts o o2 -> Forall2 same_but ms ms2 -> same_but (FS o (TUnion ms)) (FS o2 (TUnion ms2))
| sb_model o o2 c : same_opts o o2 -> same_but (FS o (TModel c)) (FS o2 (TModel c))
| sb_poly o o2 p : same_opts o o2 -> same_but (FS o (TPoly p)) (FS o2 (TPoly p))
| sb_list o o2 g g2 : same_opts o o2 -> same_but g g2 -> same_but (FS o (TList g)) (FS o2 (TList g2))
| sb_dict o o2 g g2 ck : same_opts o o2 -> same_but g g2 -> same_but (FS o (TDict g ck)) (FS o2 (TDict g2 ck)).
Record same_class (a b : mclass) : Prop := {
  sc_fields : Forall2 (fun p q => fst p = fst q /\ same_but (fd_spec (snd p)) (fd_spec (snd q)) /\
    fd_get (snd p) = fd_get (snd q) /\ fd_set (snd p) = fd_set (snd q)) (mc_fields a) (mc_fields b);
  sc_roles : mc_roles b = mc_roles a;
  sc_level : mc_level b = mc_level a;
  sc_claim : mc_claim b = mc_claim a }.
Record same_checks (E E2 : env) : Prop := {
  sm_class : forall c, same_class (e_class E c) (e_class E2 c);
  sm_issub : forall c d, e_issub E2 c d = e_issub E c d;
  sm_subs : forall c, e_subs E2 c = e_subs E c }.
