(** When two instances of a program hold the same data. *)
From Verif.Model Require Import Py Core Export Api.
From Verif.Spec Require Import ImportSpec OrderSpec.

Section Same.
  Context (E : env).
  (** Values of a field: the same value; or lists, dictionaries and instances of the same class with such values, an instance
      being known by what its fields read and having no others. *)
  Inductive agree : fspec -> pyval -> pyval -> Prop :=
  | ag_same f v : agree f v v
  | ag_list o g l m : Forall2 (agree g) l m -> agree (FS o (TList g)) (VList l) (VList m)
  | ag_dict o g ck d e : Forall2 (fun p q => fst p = fst q /\ agree g (snd p) (snd q)) d e ->
      agree (FS o (TDict g ck)) (VDict d) (VDict e)
  | ag_model o c b m n : (forall y f, In (y, f) (fields_of E b) -> both (agree (fd_spec f)) (chain_get m y) (chain_get n y)) ->
      (forall y, ~ In y (dkeys (fields_of E b)) -> chain_get m y = None /\ chain_get n y = None) ->
      agree (FS o (TModel c)) (VModel b m) (VModel b n).
  Definition agree_data (c : cid) (m n : mdata pyval) : Prop :=
    (forall y f, In (y, f) (fields_of E c) -> both (agree (fd_spec f)) (chain_get m y) (chain_get n y)) /\
    forall y, ~ In y (dkeys (fields_of E c)) -> chain_get m y = None /\ chain_get n y = None.
End Same.
