(** Importing data in steps. *)
From Verif.Model Require Import Py Core Export Api.
From Verif.Spec Require Import ImportSpec NestedSpec.

(** A class whose instances can be filled in steps: distinct plain fields, unions of types without parts only, and no
    type makes the library's own [Undefined] of a value. *)
Definition no_undef (l : leaf) : Prop := forall v, v <> VUndef -> lf_native l v <> Ok VUndef.
Definition defining (f : fspec) : Prop :=
  match fs_type f with
  | TLeaf l => no_undef l
  | TUnion ms => forall m, In m ms -> exists o l, m = FS o (TLeaf l) /\ no_undef l
  | _ => True
  end.
Record steppable (E : env) (c : cid) : Prop := {
  sp_distinct : NoDup (dkeys (fields_of E c));
  sp_plain : plain_fields (fields_of E c);
  sp_defining : forall n f, In (n, f) (fields_of E c) -> defining (fd_spec f) }.
(** Settings: no validation, and nested instances are replaced rather than updated. *)
Definition replacing (w : kwargs) : Prop := kw_validate w = false /\ kw_recursive w = false.

(** Input: a dictionary with some entry and without the sentinel. *)
Definition input (d : list (key * pyval)) : Prop := defined_dict d /\ d <> [].
(** An instance: without raw values waiting for conversion, and without the sentinel. *)
Definition settled (m : mdata pyval) : Prop := md_unsafe m = [] /\ defined_data m.

(** [d] supplies for every field what [d2] supplies, or else what [d1] supplies, and has no undeclared key neither has. *)
Definition merged (E : env) (c : cid) (mp : mapping) (d1 d2 d : list (key * pyval)) : Prop :=
  (forall n f, In (n, f) (fields_of E c) -> supplied d n (fd_spec f) mp =
     match supplied d2 n (fd_spec f) mp with Some v => Some v | None => supplied d1 n (fd_spec f) mp end) /\
  (forall y, rogue_key (fields_of E c) mp d y -> rogue_key (fields_of E c) mp d1 y \/ rogue_key (fields_of E c) mp d2 y).
(** No field is supplied by both. *)
Definition apart (E : env) (c : cid) (mp : mapping) (d1 d2 : list (key * pyval)) : Prop :=
  forall n f, In (n, f) (fields_of E c) -> supplied d1 n (fd_spec f) mp = None \/ supplied d2 n (fd_spec f) mp = None.
(** Both use the same key for a field both supply. *)
Definition one_key_each (E : env) (c : cid) (mp : mapping) (d1 d2 : list (key * pyval)) : Prop :=
  forall n f y1 y2, In (n, f) (fields_of E c) -> In y1 (accepted_names n (fd_spec f) mp) -> In y2 (accepted_names n (fd_spec f) mp) ->
    In y1 (dkeys d1) -> In y2 (dkeys d2) -> y1 = y2.

(** Two instances read the same. *)
Definition read_alike (m m' : mdata pyval) : Prop := forall y, chain_get m y = chain_get m' y.

(** Fields the steps leave out do not fail: with partial=True, or because the instance has values for the required ones. *)
Definition complete (E : env) (c : cid) (w : kwargs) (m : mdata pyval) : Prop :=
  forall n f, In (n, f) (fields_of E c) -> fo_required (fs_opts (fd_spec f)) = true ->
    (kw_partial w = true /\ fo_named (fs_opts (fd_spec f)) = true) \/ chain_get m n <> None.
