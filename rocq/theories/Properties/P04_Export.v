(** C15-C18: export.
    [fe] is the export of one value ([export_at E n] in the library). *)
From Verif.Model Require Import Py Core Export Api.
From Verif.Spec Require Import ImportSpec ValidateSpec CompoundSpec ExportSpec DeepSpec.
From Verif.Proofs Require Import DictLemmas ExportLemmas RoundTrip ExportWitness ExportDeep.
From Verif.Conformance Require Import Sample.
Open Scope string_scope.
Open Scope list_scope.

(** ** C15 *)

(** The output lists what is written for each field, in declaration order. *)
Theorem C15_output_is_what_is_written_in_order :
  forall E fe x c obj d, NoDup (map (fun p => public_name (fst p) (snd p)) (fields_of E c)) ->
    (export_loop E fe x c obj = Ok d <->
     exists filt, role_in_force E c x filt /\ written E fe x filt obj (fields_of E c) d).
Proof. exact export_loop_order. Qed.
Print Assumptions C15_output_is_what_is_written_in_order.

Theorem C15_value_under_a_name :
  forall E fe x c obj d filt s w, NoDup (map (fun p => public_name (fst p) (snd p)) (fields_of E c)) ->
    export_loop E fe x c obj = Ok d -> role_in_force E c x filt ->
    (dget s d = Some w <->
     exists n f, In (n, f) (fields_of E c) /\ s = public_name n f /\ writes E fe x filt obj n f w).
Proof. exact export_loop_get. Qed.
Print Assumptions C15_value_under_a_name.

(** Also when serialized names collide (the last writer wins). *)
Theorem C15_names_written :
  forall E fe x c obj d filt s, export_loop E fe x c obj = Ok d -> role_in_force E c x filt ->
    (In s (dkeys d) <->
     exists n f w, In (n, f) (fields_of E c) /\ s = public_name n f /\ writes E fe x filt obj n f w).
Proof. exact export_loop_keys. Qed.
Print Assumptions C15_names_written.

Theorem C15_colliding_names_last_wins :
  forall E fe x c obj d, export_loop E fe x c obj = Ok d <->
    exists filt l, role_in_force E c x filt /\ written E fe x filt obj (fields_of E c) l /\ d = dupdate [] l.
Proof. exact export_loop_ok. Qed.
Print Assumptions C15_colliding_names_last_wins.

(** An export raises only for an unknown role, or what exporting the first failing field raises. *)
Theorem C15_raises_exactly :
  forall E fe x c obj e, export_loop E fe x c obj = Raise e <->
    unknown_role E c x /\ e = XPy EValueError \/
    exists filt pre n f post, role_in_force E c x filt /\ fields_of E c = pre ++ (n, f) :: post /\
      export_fails E fe x filt obj n f e /\
      forall n' f' e', In (n', f') pre -> ~ export_fails E fe x filt obj n' f' e'.
Proof. exact export_loop_raise. Qed.
Print Assumptions C15_raises_exactly.

Theorem C15_list_elements :
  forall E fe g x v w, list_export E fe g v x = Ok w <->
    exists lvl, level_in_force E g x lvl /\
      (lvl = 0%Z /\ w = VList [] \/
       lvl <> 0%Z /\ exists l r, iterated E v = Ok l /\ written_elems fe g x lvl l r /\ w = VList r).
Proof. exact list_export_ok. Qed.
Print Assumptions C15_list_elements.

Theorem C15_dict_entries :
  forall E fe g x d w, NoDup (dkeys d) -> (dict_export E fe g (VDict d) x = Ok w <->
    exists lvl, level_in_force E g x lvl /\
      (lvl = 0%Z /\ w = VDict [] \/ lvl <> 0%Z /\ exists r, written_entries fe g x lvl d r /\ w = VDict r)).
Proof. exact dict_export_ok. Qed.
Print Assumptions C15_dict_entries.

(** At every depth: an instance is exported to [d] exactly when the relation [exports_object] says so; it is fixed by the
    types of the fields, the class of each nested instance, the role and the levels in force. *)
Theorem C15_at_every_depth :
  forall E x c m d, (exists n, model_export_top E (export_at E n) c m x = Ok d) <-> exports_object E x c (VModel c m) d.
Proof. exact export_deep_object. Qed.
Print Assumptions C15_at_every_depth.

Theorem C15_value_at_every_depth :
  forall E x f v w, (exists n, export_at E n f v x = Ok w) <-> exports E x f v w.
Proof. exact export_deep. Qed.
Print Assumptions C15_value_at_every_depth.

(** A nested instance of a subclass (4, with the field "more") of the declared class 3 is exported with all its fields. *)
Definition Esub : env :=
  Env (fun c => match c with
                | 3%N => MC [fld "a" (o0 3) (TLeaf any_leaf); fld "in" (o0 3) (TModel 3)] [] [] DEFAULT None
                | 4%N => MC [fld "a" (o0 4) (TLeaf any_leaf); fld "in" (o0 4) (TModel 3); fld "more" (o0 4) (TLeaf any_leaf)] [] [] DEFAULT None
                | _ => Nothing
                end) (fun a b => N.eqb a b || (N.eqb a 4 && N.eqb b 3)) (fun c => if N.eqb c 3 then [4%N] else []).
Example C15_depth_case :
  exports_object Esub (ECtx Primitive NoRole false (Some 2%Z)) 3
    (VModel 3 (MD [] [(k "a", VInt 1); (k "in", VModel 4 (MD [] [(k "a", VNone); (k "more", VInt 2)] [] None))] [] None))
    [(k "a", VInt 1); (k "in", VDict [(k "more", VInt 2)])].
Proof. apply C15_at_every_depth. exists 5. reflexivity. Qed.

Example C15_case :
  NoDup (map (fun p => public_name (fst p) (snd p)) (fields_of Esample 1)) /\
  model_export_top Esample (export_at Esample 5) 1 alice_model (xrole "public")
  = Raise (XPy EValueError) /\
  model_export_top Esample (export_at Esample 5) 1 alice_model (ECtx Primitive (RoleName (k "public")) false None)
  = Ok [(k "name", VStr (u "Alice")); (k "tags", VList [VInt 1; VInt 1]);
        (k "home", VDict [(k "street", VStr (u "Main")); (k "ZIP", VInt 123)])].
Proof. split; [apply sample_clear|]. split; reflexivity. Qed.

(** ** C16 *)
Theorem C16_level_precedence :
  forall E f x l, get_export_level E f x = l <-> level_in_force E f x l.
Proof. exact level_spec. Qed.
Print Assumptions C16_level_precedence.

(** Given in the call, ALL shows every field the role does not hide, and DROP shows nothing. *)
Theorem C16_all_shows_everything :
  forall E fe x c obj d filt, ec_level x = Some ALL -> role_in_force E c x filt ->
    export_loop E fe x c obj = Ok d ->
    forall n f, In (n, f) (fields_of E c) -> ~ hidden filt n (reading E obj n) -> In (public_name n f) (dkeys d).
Proof. exact export_all. Qed.
Print Assumptions C16_all_shows_everything.

Theorem C16_drop_shows_nothing :
  forall E fe x c obj, ec_level x = Some DROP -> ~ unknown_role E c x -> export_loop E fe x c obj = Ok [].
Proof. exact export_drop. Qed.
Print Assumptions C16_drop_shows_nothing.

Example C16_case :
  get_export_level Esample (FS (o_lvl 2 (o0 1)) (TLeaf int_leaf)) xprim = 2%Z /\
  get_export_level Esample (FS (o_lvl 2 (o0 1)) (TLeaf int_leaf)) (xlevel 1) = 1%Z /\
  get_export_level Esample (FS (o0 1) (TLeaf int_leaf)) xprim = 10%Z /\
  model_export_top Esample (export_at Esample 5) 2 md_empty (xlevel ALL)
  = Ok [(k "login", VNone); (k "pin", VNone); (k "pin2", VNone); (k "code", VNone)] /\
  ~ unknown_role Esample 1 (xlevel 0).
Proof. repeat split. intros (n & H & _); discriminate. Qed.

(** ** C17 *)

(** Instances that differ only where the role hides, at any depth, export to the same output. *)
Theorem C17_hidden_fields_do_not_influence_the_output :
  forall E x n c m1 m2, alike_instances E x c (VModel c m1) (VModel c m2) ->
    model_export_top E (export_at E n) c m1 x = model_export_top E (export_at E n) c m2 x.
Proof. exact export_top_alike. Qed.
Print Assumptions C17_hidden_fields_do_not_influence_the_output.

Example C17_case :
  alike_instances Esample xage 1 (VModel 1 alice_model) (VModel 1 alice_older) /\ alice_model <> alice_older.
Proof. split; [exact alice_alike|discriminate]. Qed.

(** ** C18 *)

(** An instance whose values survive (see [restorable]) is rebuilt from its export. *)
Theorem C18_import_of_the_export_restores_the_instance :
  forall E x n j c m w d,
    clear_env E -> kw_mapping w = no_mapping -> kw_convert w = true -> kw_validate w = false ->
    restorable_instance E x (kw_partial w) c m -> model_export_top E (export_at E n) c m x = Ok d ->
    2 * n + 1 <= j -> model_init E (conv_at E j) c (VDict d) (VDict []) w = Ok m.
Proof. exact export_import. Qed.
Print Assumptions C18_import_of_the_export_restores_the_instance.

(** Programs whose types all restore: every instance constructed from raw input is rebuilt from its export. *)
Theorem C18_construct_export_construct :
  forall E x j n j' c d w m d', restoring_env E x ->
    kw_mapping w = no_mapping -> kw_convert w = true -> kw_validate w = false -> kw_init_values w = true ->
    (forall y v, In (y, v) d -> clean v) ->
    model_init E (conv_at E j) c (VDict d) (VDict []) w = Ok m ->
    model_export_top E (export_at E n) c m x = Ok d' -> 2 * n + 1 <= j' ->
    model_init E (conv_at E j') c (VDict d') (VDict []) w = Ok m.
Proof. exact init_export_init. Qed.
Print Assumptions C18_construct_export_construct.

Example C18_case :
  restoring_env Esample xprim /\ clear_env Esample /\ (forall y v, In (y, v) alice -> clean v) /\
  model_init Esample (lib 10) 1 (VDict alice) (VDict []) kw0 = Ok alice_model /\
  restorable_instance Esample xprim (kw_partial kw0) 1 alice_model /\
  model_export_top Esample (export_at Esample 5) 1 alice_model xprim
  = Ok [(k "name", VStr (u "Alice")); (k "age", VInt 18); (k "tags", VList [VInt 1; VInt 1]);
        (k "home", VDict [(k "street", VStr (u "Main")); (k "ZIP", VInt 123)])].
Proof.
  split; [exact sample_restoring|]. split; [exact (restoring_clear _ _ sample_restoring)|]. split; [exact alice_clean|].
  split; [reflexivity|]. split; [|reflexivity].
  exact (init_restorable Esample xprim 10 1 alice kw0 alice_model sample_restoring eq_refl eq_refl eq_refl eq_refl alice_clean eq_refl).
Qed.

(** The conditions matter: a None in a list of models comes back as an empty model. *)
Theorem C18_none_in_a_list_of_models_refuted :
  exists E c m d m', clear_env E /\ model_export_top E (export_at E 9) c m xprim = Ok d /\
    model_init E (conv_at E 30) c (VDict d) (VDict []) kw0 = Ok m' /\
    dget (k "members") (md_converted m) = Some (VList [VNone]) /\
    dget (k "members") (md_converted m') = Some (VList [VModel 5 (MD [] [(k "name", VNone)] [] None)]).
Proof. exact none_member_lost. Qed.
Print Assumptions C18_none_in_a_list_of_models_refuted.

(** An instance of a subclass comes back as an instance of the declared class. *)
Theorem C18_subclass_instance_refuted :
  exists E c m d m', clear_env E /\ model_export_top E (export_at E 9) c m xprim = Ok d /\
    model_init E (conv_at E 30) c (VDict d) (VDict []) kw0 = Ok m' /\
    dget (k "boss") (md_converted m) = Some (VModel 4 (wname "b")) /\
    dget (k "boss") (md_converted m') = Some (VModel 5 (wname "b")).
Proof. exact subclass_lost. Qed.
Print Assumptions C18_subclass_instance_refuted.
