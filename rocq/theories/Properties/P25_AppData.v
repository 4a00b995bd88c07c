(** C78: application data given to a call reach all converters and validators that run in it. *)
From Verif.Model Require Import Py Core AppData.
From Verif.Spec Require Import AppDataSpec.
From Verif.Proofs Require Import AppDataFacts AppDataWitness.

(** ** C78 *)
(** Everything that constructing, validating, importing without validation and exporting call, at any depth, sees the data given
    to that call, or the same empty container. *)
Theorem C78_app_data_everywhere :
  forall A (empty : A) answer model n c app,
    (forall raw partial validate, all_saw (effective empty app) (new_instance empty answer model n c raw partial validate app)) /\
    (forall d partial convert, all_saw (effective empty app) (validate_instance empty answer model n c d partial convert app)) /\
    (forall d raw, all_saw (effective empty app) (import_instance empty answer model n c d raw false app)) /\
    (forall d prim, all_saw (effective empty app) (export_instance empty answer model n c prim d app)).
Proof. exact @app_data_everywhere. Qed.
Print Assumptions C78_app_data_everywhere.

(** So their results do not depend on what the user's code does with other data. *)
Theorem C78_results_depend_on_the_data_given :
  forall A (empty : A) model f g n c app, agree_on (effective empty app) f g ->
    (forall raw partial validate,
       new_instance empty f model n c raw partial validate app = new_instance empty g model n c raw partial validate app) /\
    (forall d partial convert,
       validate_instance empty f model n c d partial convert app = validate_instance empty g model n c d partial convert app) /\
    (forall d raw, import_instance empty f model n c d raw false app = import_instance empty g model n c d raw false app) /\
    (forall d prim, export_instance empty f model n c prim d app = export_instance empty g model n c prim d app).
Proof. exact @results_depend. Qed.
Print Assumptions C78_results_depend_on_the_data_given.

(** The validators of the model itself see them too: the context of the call is filled in before they run. *)
Theorem C78_model_validators_see_them :
  forall A (empty : A) answer model n c d partial convert app e r m i,
    d <> [] -> validate_instance empty answer model n c d partial convert app = (e, Some r) ->
    In (m, i) (md_validators (model c)) -> In m (dkeys (md_fields (model c))) ->
    In (ModelValidator i, Some (effective empty app)) e.
Proof. exact @validators_called. Qed.
Print Assumptions C78_model_validators_see_them.

Theorem C78_converters_see_them :
  forall A (empty : A) answer model n c raw partial validate app m i vs rq df v,
    In (m, F (LeafT i) vs rq df) (md_fields (model c)) -> dget m raw = Some v -> v <> Null ->
    In (Native i, Some (effective empty app)) (fst (new_instance empty answer model (S (S n)) c raw partial validate app)).
Proof. exact @converters_called. Qed.
Print Assumptions C78_converters_see_them.

(** The members of a union are tried in order up to the first that takes the value, each with the data. *)
Theorem C78_members_of_unions :
  forall A (empty : A) answer model n ms v (x : @actx A),
    let takes (m : nat * list nat) w := answer (Native (fst m)) (a_app x) v = w in
    let seen l := map (fun m : nat * list nat => (Native (fst m), a_app x)) l in
    (forall pre m post w, ms = pre ++ m :: post -> Forall (fun m => takes m None) pre -> takes m (Some w) ->
       convert_ty empty answer model (S n) (UnionT ms) v x = (seen (pre ++ [m]), Some w)) /\
    (Forall (fun m => takes m None) ms -> convert_ty empty answer model (S n) (UnionT ms) v x = (seen ms, None)).
Proof. exact @union_tried. Qed.
Print Assumptions C78_members_of_unions.

(** import_data(..., validate=True, app_data=...) validates a second time without them, *)
Theorem C78_import_and_validate_refuted :
  exists (answer : callback -> option nat -> tree -> option tree) model c d raw a r,
    import_instance 0 answer model 5 c d raw false (Some a) = ([(Native 0, Some a)], Some r) /\ a <> 0 /\
    snd (validate_instance 0 answer model 5 c raw false true (Some a)) = Some r /\
    In (Validator 0, Some a) (fst (import_instance 0 answer model 5 c d raw true (Some a))) /\
    In (Validator 0, Some 0) (fst (import_instance 0 answer model 5 c d raw true (Some a))) /\
    snd (import_instance 0 answer model 5 c d raw true (Some a)) = None.
Proof. exact import_and_validate. Qed.
Print Assumptions C78_import_and_validate_refuted.
(** serialize(app_data=...) validates without them, *)
Theorem C78_serialize_refuted :
  exists (answer : callback -> option nat -> tree -> option tree) model c d a, a <> 0 /\
    ~ all_saw a (serialize_instance 0 answer model 5 c d (Some a)).
Proof. exact serialize_without. Qed.
Print Assumptions C78_serialize_refuted.
(** though the export that follows has them, and no converter that exports runs before a validator; *)
Theorem C78_serialize_in_two_steps :
  forall A (empty : A) answer model n c d app, exists e e',
    fst (serialize_instance empty answer model n c d app) = e ++ e' /\
    (forall b s, In (b, s) e -> s = Some empty) /\
    (forall b s, In (b, s) e' -> s = Some (effective empty app) /\ forall i, b <> Validator i /\ b <> ModelValidator i) /\
    forall r, snd (validate_instance empty answer model n c d false true None) = Some r ->
      snd (serialize_instance empty answer model n c d app) = snd (export_instance empty answer model n c true r app).
Proof. exact @serialize_two_steps. Qed.
Print Assumptions C78_serialize_in_two_steps.
(** and a dictionary assigned to a field that holds a model is always converted with an empty container. *)
Theorem C78_assigned_dictionaries :
  forall A (empty : A) answer model n c v, all_saw empty (assign_model empty answer model n c v).
Proof. exact @assigned. Qed.
Print Assumptions C78_assigned_dictionaries.

(** A list of models in a model, with validators of fields and models: nested calls see 7, in this order. *)
Example C78_case :
  let e := fst (new_instance 0 (fun _ _ v => Some v) shop 9 1 shop_raw true true (Some 7)) in
  shop_raw <> [] /\ In (k "lines", 5) (md_validators (shop 1)) /\ In (k "lines") (dkeys (md_fields (shop 1))) /\
  map fst e = [Native 0; Validator 0; ModelValidator 4; Native 0; Validator 0; ModelValidator 4; ModelValidator 5] ++
              [Native 0; Validator 0; ModelValidator 4; Native 0; Validator 0; ModelValidator 4; ModelValidator 5] /\
  map snd e = repeat (Some 7) 14.
Proof. cbn zeta. split; [discriminate|]. split; [now left|]. split; [now left|]. split; reflexivity. Qed.
(** Two programs that agree on 7 and nowhere else. *)
Example C78_agree_case :
  let f := fun (_ : callback) (s : option nat) v => match s with Some 7 => Some v | _ => None end in
  let g := fun (_ : callback) (_ : option nat) v => Some v in
  agree_on (effective 0 (Some 7)) f g /\ f (Native 0) (Some 0) Null <> g (Native 0) (Some 0) Null.
Proof. cbn zeta. split; [intros b v; reflexivity|discriminate]. Qed.
Example C78_serialize_case :
  let e := fst (serialize_instance 0 (fun _ _ v => Some v) shop 9 1 shop_raw (Some 7)) in
  map fst e = [Native 0; Validator 0; ModelValidator 4; Native 0; Validator 0; ModelValidator 4; ModelValidator 5] ++ [Prim 0; Prim 0] /\
  map snd e = repeat (Some 0) 7 ++ repeat (Some 7) 2.
Proof. split; reflexivity. Qed.
Example C78_union_case :
  convert_ty 0 (fun b _ v => match b with Native 2 => Some v | _ => None end) shop 1 (UnionT [(1, []); (2, []); (3, [])]) (Atom 5)
    (fill_context 0 (import_context true) (Some 7) true) = ([(Native 1, Some 7); (Native 2, Some 7)], Some (Atom 5)).
Proof. reflexivity. Qed.
