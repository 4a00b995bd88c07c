(** Model instances seen from outside: attribute access and the mapping view. *)
From Verif.Model Require Import Py Core Export Api.
From Verif.Spec Require Import ImportSpec.

(** [l] is [L] with some elements left out, in the same order. *)
Inductive subseq {A} : list A -> list A -> Prop :=
| sub_nil : subseq [] []
| sub_take x l L : subseq l L -> subseq (x :: l) (x :: L)
| sub_drop x l L : subseq l L -> subseq l (x :: L).

(** A declared field that is not computed. *)
Definition ordinary (E : env) (c : cid) (n : key) (f : field) : Prop :=
  dget n (fields_of E c) = Some f /\ fd_get f = None.

(** The layers of an instance are dictionaries: no key occurs twice. *)
Definition proper (m : mdata pyval) : Prop :=
  NoDup (dkeys (md_unsafe m)) /\ NoDup (dkeys (md_converted m)) /\ NoDup (dkeys (md_valid m)).

(** The instance has never been validated. *)
Definition unvalidated (m : mdata pyval) : Prop := md_hidden m = None.

(** The instance stores nothing under names that are not declared. *)
Definition declared_only (E : env) (c : cid) (m : mdata pyval) : Prop :=
  forall y, chain_get m y <> None -> In y (dkeys (fields_of E c)).

(** What an assignment stores.  Model fields turn a dictionary into an instance, as constructing one
    from the dictionary does; other fields store what they are given. *)
Inductive stored_form (E : env) (r : conv) : ftype -> pyval -> pyval -> Prop :=
| st_plain t v : (forall c, t <> TModel c) -> stored_form E r t v v
| st_none c : stored_form E r (TModel c) VNone VNone
| st_inst c c' m : stored_form E r (TModel c) (VModel c' m) (VModel c' m)
| st_dict c d m : model_init E r c (VDict d) (VDict []) (KW no_mapping true true true true true false false) = Ok m ->
    stored_form E r (TModel c) (VDict d) (VModel c m).

(** The settings serialize() validates with. *)
Definition kw_serialize : kwargs := KW no_mapping false false false true true true false.
