(** C116: names looked up on nested models.  The functions called looked_... are those of the other properties, except that the attributes
    [fields], [export] and [convert] of nested models are looked up, so that a field of the class hides them. *)
From Verif.Model Require Import Py Core Export Api Shadow MockObject OldNames Functional.
From Verif.Spec Require Import ImportSpec.
From Verif.Proofs Require Import DictLemmas OldNamesFacts.
From Verif.Conformance Require Import Sample.
Open Scope string_scope.
Open Scope list_scope.

(** Nothing depends on the lookups if no class has a field with such a name: exports, *)
Theorem C116_exports_without_such_names : forall E n, (forall c, ~ In (k "fields") (dkeys (fields_of E c)) /\ ~ In (k "export") (dkeys (fields_of E c))) ->
  forall f v x, looked_export_at E n f v x = export_at E n f v x.
Proof. exact free_exports. Qed.
Print Assumptions C116_exports_without_such_names.
(** conversion and validation, *)
Theorem C116_conversions_without_such_names : forall E n, (forall c, ~ In (k "convert") (dkeys (fields_of E c))) ->
  (forall f v x, cv_field (looked_conv_at E n) f v x = cv_field (conv_at E n) f v x) /\
  (forall f v x, cv_convert (looked_conv_at E n) f v x = cv_convert (conv_at E n) f v x) /\
  (forall f v x, cv_validate (looked_conv_at E n) f v x = cv_validate (conv_at E n) f v x) /\
  (forall f v, cv_pre (looked_conv_at E n) f v = cv_pre (conv_at E n) f v).
Proof. exact free_conversions. Qed.
Print Assumptions C116_conversions_without_such_names.
(** mock objects. *)
Theorem C116_mocks_without_such_names : forall St (R : rng St) fields make n, (forall c, dmem (k "fields") (fields c) = false) ->
  forall ov c w, looked_mock_object R fields make n ov c w = mock_object R fields make n ov c w.
Proof. exact @mock_free. Qed.
Print Assumptions C116_mocks_without_such_names.
(** No export is wrong because of such names: it is the right one, or it fails with an exception that is not an error of the data. *)
Theorem C116_exports : forall E n c m x, (forall c f, dget (k "export") (fields_of E c) = Some f -> fd_get f = None) ->
  (exists e, model_export_top E (looked_export_at E n) c m x = Raise (XPy e)) \/
  model_export_top E (looked_export_at E n) c m x = model_export_top E (export_at E n) c m x.
Proof. exact same_or_fails. Qed.
Print Assumptions C116_exports.
(** Instances construct nested instances whatever the fields are called. *)
Theorem C116_nested_instances : forall E n o c v x, cx_convert x = true -> cx_oo x = true ->
  cv_convert (looked_conv_at E (S n)) (FS o (TModel c)) v x = model_convert E (cv_field (looked_conv_at E n)) (cv_pre (looked_conv_at E n)) c v x.
Proof. exact convert_instances. Qed.
Print Assumptions C116_nested_instances.

(** False of the code: that fields of nested models can have these names.  No value of a nested model is exported if its class has a field called
    fields: AttributeError, unless the role is refused before; *)
Theorem C116_fields_refuted : forall E n o c v x, In (k "fields") (dkeys (fields_of E (match v with VModel d _ => d | _ => c end))) ->
  (forall w, looked_export_at E n (FS o (TModel c)) v x <> Ok w) /\
  (forall filt, n <> 0%nat -> export_filter (e_class E (match v with VModel d _ => d | _ => c end)) x = Ok filt ->
     looked_export_at E n (FS o (TModel c)) v x = Raise (XPy EAttributeError)).
Proof. exact fields_hidden. Qed.
Print Assumptions C116_fields_refuted.
(** and so nothing that contains one, unless the role or the level leaves it out. *)
Theorem C116_whole_export_refuted : forall E n c m x filt y f d v w,
  export_filter (e_class E c) x = Ok filt -> In (y, f) (fields_of E c) -> fs_type (fd_spec f) = TModel d ->
  atom_value E (VModel c m) y = v -> is_nil v = false -> match filt with Some g => g y v | None => false end = false ->
  get_export_level E (fd_spec f) x <> DROP ->
  In (k "fields") (dkeys (fields_of E (match v with VModel d0 _ => d0 | _ => d end))) ->
  model_export_top E (looked_export_at E n) c m x <> Ok w.
Proof. exact whole_fails. Qed.
Print Assumptions C116_whole_export_refuted.
(** No instance in a polymorphic field is exported if its class has a field called export. *)
Theorem C116_export_refuted : forall E n o p c m x w, In (k "export") (dkeys (fields_of E c)) -> looked_export_at E n (FS o (TPoly p)) (VModel c m) x <> Ok w.
Proof. exact poly_hidden. Qed.
Print Assumptions C116_export_refuted.
(** Without instances, as in the functional interface, and in validation without conversion a nested model with a field called convert is
    not treated as a model: the data as a whole are converted as if they were the value of that field. *)
Theorem C116_convert_refuted : forall E n o c d x f, cx_convert x && cx_oo x = false -> dget (k "convert") (fields_of E c) = Some f -> fd_get f = None ->
  cv_convert (looked_conv_at E (S n)) (FS o (TModel c)) (VDict d) x = cv_convert (looked_conv_at E n) (fd_spec f) (VDict d) x.
Proof. exact convert_hidden_field. Qed.
Print Assumptions C116_convert_refuted.
(** There is no mock object of a class with a field called fields. *)
Theorem C116_mock_refuted : forall St (R : rng St) fields make n ov c w, dmem (k "fields") (fields c) = true -> n <> 0%nat ->
  fst (looked_mock_object R fields make n ov c w) = inl (Other (XPy EAttributeError)).
Proof. exact @mock_hidden. Qed.
Print Assumptions C116_mock_refuted.

(** class Form: fields = ListType(IntType), export = BaseType, convert = BaseType, size = IntType(required=True);
    class Page: form = ModelType(Form); class Any: item = PolyModelType(Form). *)
Definition NForm : mclass :=
  MC [ fld "fields" (o0 0) (TList (FS (o_inner (o0 0)) (TLeaf int_leaf))); fld "export" (o0 0) (TLeaf any_leaf);
       fld "convert" (o0 0) (TLeaf any_leaf); fld "size" (o_req (o0 0)) (TLeaf int_leaf) ] [] [] DEFAULT None.
Definition NPage : mclass := MC [ fld "form" (o0 1) (TModel 0%N) ] [] [] DEFAULT None.
Definition NAny : mclass := MC [ fld "item" (o0 2) (TPoly (Poly [0%N] true None)) ] [] [] DEFAULT None.
Definition Elook : env := Env (fun c => match c with 0%N => NForm | 1%N => NPage | _ => NAny end) N.eqb (fun _ => []).
Definition form_input : list (key * pyval) := [(k "fields", VList [VInt 1]); (k "export", VInt 2); (k "convert", VInt 3); (k "size", VInt 4)].
Definition look_ctx : ectx := ECtx Primitive NoRole false None.
(** The class can be used by itself; instances that contain it are made and then cannot be exported; converted by itself, bad nested data pass. *)
Example C116_case :
  let r := looked_conv_at Elook 8 in let ex c m := model_export_top Elook (looked_export_at Elook 8) c m look_ctx in
  (exists m, model_init Elook r 0%N (VDict form_input) (VDict []) kw0 = Ok m /\ ex 0%N m = Ok form_input /\ atom_value Elook (VModel 0%N m) (k "size") = VInt 4) /\
  (exists m, model_init Elook r 1%N (VDict [(k "form", VDict form_input)]) (VDict []) kw0 = Ok m /\ ex 1%N m = Raise (XPy EAttributeError)) /\
  (exists m, model_init Elook r 2%N (VDict [(k "item", VDict form_input)]) (VDict []) kw0 = Ok m /\ ex 2%N m = Raise (XPy ETypeError)) /\
  lo_res (fn_convert Elook r 1%N (VDict [(k "form", VDict [(k "size", VStr (u "bad"))])]) VNone (VDict []) kw0)
    = Ok [(k "form", VDict [(k "size", VStr (u "bad"))])] /\
  In (k "fields") (dkeys (fields_of Elook 0)) /\ In (k "export") (dkeys (fields_of Elook 0)) /\
  (forall c f, dget (k "export") (fields_of Elook c) = Some f -> fd_get f = None) /\
  export_filter (e_class Elook 0) look_ctx = Ok None /\ get_export_level Elook (fd_spec (snd (fld "form" (o0 1) (TModel 0%N)))) look_ctx <> DROP.
Proof.
  cbn zeta. split; [eexists; split; [vm_compute; reflexivity|split; vm_compute; reflexivity]|]. split; [eexists; split; [vm_compute; reflexivity|vm_compute; reflexivity]|].
  split; [eexists; split; [vm_compute; reflexivity|vm_compute; reflexivity]|]. split; [vm_compute; reflexivity|]. split; [now left|]. split; [right; now left|].
  split; [|split; [reflexivity|discriminate]].
  intros c f. destruct c as [|[]]; cbn; try discriminate. intros [= <-]. reflexivity.
Qed.
(** The sample classes of the other properties have no such names. *)
Example C116_names_case : forall c, ~ In (k "fields") (dkeys (fields_of Esample c)) /\ ~ In (k "export") (dkeys (fields_of Esample c)) /\ ~ In (k "convert") (dkeys (fields_of Esample c)).
Proof.
  intros c. rewrite <- !dmem_nIn.
  destruct c as [|[[]|[]|]]; (split; [|split]); vm_compute; reflexivity.
Qed.
