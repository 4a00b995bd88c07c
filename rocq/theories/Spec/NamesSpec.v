(** The ways to write names and mappings. *)
From Verif.Model Require Import Py Core.
From Verif.Spec Require Import ImportSpec.

(** Texts and integers as values. *)
Definition name_value (y : key) : pyval := match y with KStr s => VStr s | KInt z => VInt z end.

(** [spelled v l]: [v] is a way to write the names [l]. *)
Inductive spelled : pyval -> list key -> Prop :=
| sp_one y : spelled (name_value y) [y]
| sp_none : spelled VNone []
| sp_list l : spelled (VList (map name_value l)) l
| sp_tuple l : spelled (VTuple (map name_value l)) l.

(** [spelled_map d m]: the dictionary [d] is a way to write the mapping [m]. *)
Inductive spelled_map : list (key * pyval) -> mapping -> Prop :=
| sm_dict d keys models :
    Forall2 (fun p q => fst p = fst q /\ spelled (snd p) (snd q)) (filter (fun p => negb (key_eqb (fst p) (k "model_mapping"))) d) keys ->
    (models = [] /\ (dget (k "model_mapping") d = None \/ dget (k "model_mapping") d = Some VNone \/ dget (k "model_mapping") d = Some (VDict [])) \/
     exists l, dget (k "model_mapping") d = Some (VDict l) /\
       Forall2 (fun p q => fst p = fst q /\ exists r, snd p = VDict r /\ spelled_map r (snd q)) l models) ->
    spelled_map d (Mapping keys models).
