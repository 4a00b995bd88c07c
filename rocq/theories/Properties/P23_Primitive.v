(** C76: to_primitive gives plain data. *)
From Verif.Model Require Import Py Core Export Api Text Num Types Calendar DateTime Enum Net.
From Verif.Spec Require Import ImportSpec ValidateSpec ExportSpec DeepSpec PrimitiveSpec.
From Verif.Proofs Require Import DictLemmas ExportWitness PrimitiveFacts PrimitiveTypes PrimitiveWitness.
From Verif.Conformance Require Import Sample TypeSample.
Open Scope string_scope.
Open Scope list_scope.

(** If the values that can be read from an instance, at every depth, have the forms their types prescribe, and each type
    writes its own values as something made of [Q], so is the exported data.  [x] is the format, role and level. *)
Theorem C76_exported_data :
  forall E x Q, gives_env E x Q -> forall n c m d, typed_instance E c (VModel c m) ->
    model_export_top E (export_at E n) c m x = Ok d -> made_of Q (VDict d).
Proof. exact export_made. Qed.
Print Assumptions C76_exported_data.
(** The same of one value of a field. *)
Theorem C76_exported_values :
  forall E x Q, gives_env E x Q -> forall n f v w, gives x Q f -> v = VNone \/ typed E f v ->
    export_at E n f v x = Ok w -> made_of Q w.
Proof. exact export_value_made. Qed.
Print Assumptions C76_exported_values.

(** Every type of the library writes plain data, *)
Theorem C76_library_types :
  forall R x l, ec_fmt x = Primitive -> library_type R l -> leaf_gives x scalar l.
Proof. exact library_primitive. Qed.
Print Assumptions C76_library_types.
(** also in a union, where another member may write the value; DecimalType beside IntType or FloatType excepted. *)
Theorem C76_unions_of_library_types :
  forall R x ms, ec_fmt x = Primitive -> (forall m, In m ms -> exists o l, m = FS o (TLeaf l) /\ library_type R l) ->
    (forall o o' l, In (FS o (TLeaf (decimal_type R))) ms -> In (FS o' (TLeaf l)) ms -> ~ numeral R l) ->
    union_gives x scalar ms.
Proof. exact library_union. Qed.
Print Assumptions C76_unions_of_library_types.

(** In the native format the library's types write no model instances and no data structures of their own, but for
    MultilingualStringType. *)
Theorem C76_library_types_native :
  forall R x l, ec_fmt x = Native -> library_type R l -> (forall a b, l <> multi_type a b) -> leaf_gives x plain_object l.
Proof. exact library_native. Qed.
Print Assumptions C76_library_types_native.
Theorem C76_unions_native :
  forall R x ms, ec_fmt x = Native ->
    (forall m, In m ms -> exists o l, m = FS o (TLeaf l) /\ library_type R l /\ forall a b, l <> multi_type a b) ->
    union_gives x plain_object ms.
Proof. exact library_union_native. Qed.
Print Assumptions C76_unions_native.

(** Converted data has the forms the types prescribe. *)
Theorem C76_forms_after_construction :
  forall E j c d w m, tidy_env E -> (forall c, e_issub E c c = true) ->
    (forall c n f, In (n, f) (fields_of E c) -> monomorphic (fd_spec f)) ->
    kw_validate w = false -> kw_mapping w = no_mapping -> kw_convert w = true ->
    model_init E (conv_at E j) c (VDict d) (VDict []) w = Ok m -> clean (VModel c m) -> typed_instance E c (VModel c m).
Proof. exact init_typed. Qed.
Print Assumptions C76_forms_after_construction.
Theorem C76_forms_after_validation :
  forall E j c m w m', tidy_env E -> (forall c, e_issub E c c = true) ->
    kw_mapping w = no_mapping -> kw_convert w = true ->
    defined_layers m -> NoDup (dkeys (md_converted m)) -> (md_converted m <> [] \/ kw_partial w = false) ->
    model_validate E (conv_at E j) c m w = (m', None) -> clean (VModel c m') -> typed_instance E c (VModel c m').
Proof. exact validate_typed. Qed.
Print Assumptions C76_forms_after_validation.

(** Model(data).to_primitive() is made of None, booleans, numbers and texts. *)
Theorem C76_plain_after_construction :
  forall E R j n c d w m x out, tidy_env E -> library_env R E -> (forall c, e_issub E c c = true) ->
    (forall c n f, In (n, f) (fields_of E c) -> monomorphic (fd_spec f)) ->
    kw_validate w = false -> kw_mapping w = no_mapping -> kw_convert w = true ->
    model_init E (conv_at E j) c (VDict d) (VDict []) w = Ok m -> clean (VModel c m) ->
    ec_fmt x = Primitive -> model_export_top E (export_at E n) c m x = Ok out -> made_of scalar (VDict out).
Proof. exact primitive_after_init. Qed.
Print Assumptions C76_plain_after_construction.
(** So is m.to_primitive() after m.validate(), also with polymorphic fields. *)
Theorem C76_plain_after_validation :
  forall E R j n c m w m' x out, tidy_env E -> library_env R E -> (forall c, e_issub E c c = true) ->
    kw_mapping w = no_mapping -> kw_convert w = true ->
    defined_layers m -> NoDup (dkeys (md_converted m)) -> (md_converted m <> [] \/ kw_partial w = false) ->
    model_validate E (conv_at E j) c m w = (m', None) -> clean (VModel c m') ->
    ec_fmt x = Primitive -> model_export_top E (export_at E n) c m' x = Ok out -> made_of scalar (VDict out).
Proof. exact primitive_after_validate. Qed.
Print Assumptions C76_plain_after_validation.

Example C76_case : tidy_env Eshop /\ library_env rt0 Eshop /\ (forall c, e_issub Eshop c c = true) /\
  (forall c n f, In (n, f) (fields_of Eshop c) -> monomorphic (fd_spec f)) /\
  exists m, model_init Eshop (conv_at Eshop 10) 1 (VDict order_data) (VDict []) kw0 = Ok m /\ clean (VModel 1 m) /\
    chain_get m (k "price") = Some (VDecimal 250 (-2)) /\
    model_export_top Eshop (export_at Eshop 10) 1 m xprim =
      Ok [(k "price", VStr (u "2.50")); (k "lines", VList [VInt 1; VInt 2]); (k "buyer", VDict [(k "name", VStr (u "Bo"))]);
          (k "place", VTuple [VInt 1; VInt 2]); (k "code", VStr (u "x"))].
Proof.
  split; [exact shop_tidy|]. split; [exact shop_library|]. split; [exact N.eqb_refl|]. split; [exact shop_mono|].
  eexists. split; [reflexivity|]. split; [apply (cleanb_ok 9); reflexivity|]. split; reflexivity.
Qed.

(** The statement is not true of UnionType((IntType, DecimalType)): the text 2.0 is no integer and becomes a Decimal, which
    IntType then accepts and writes as it is. *)
Theorem C76_union_with_decimal_refuted :
  exists E R c d m out, tidy_env E /\ (forall c n f, In (n, f) (fields_of E c) -> monomorphic (fd_spec f)) /\
    (forall n f, In (n, f) (fields_of E c) -> exists ms, fs_type (fd_spec f) = TUnion ms /\
       forall g, In g ms -> exists o l, g = FS o (TLeaf l) /\ library_type R l) /\
    model_init E (conv_at E 5) c (VDict d) (VDict []) kw0 = Ok m /\ clean (VModel c m) /\
    model_export_top E (export_at E 5) c m xprim = Ok out /\ ~ made_of scalar (VDict out).
Proof. exact union_with_decimal. Qed.
Print Assumptions C76_union_with_decimal_refuted.
(** Nor of a value that was assigned and neither converted nor validated since, *)
Theorem C76_assigned_values_refuted :
  exists E R c m m' n v out, tidy_env E /\ library_env R E /\
    (forall c n f, In (n, f) (fields_of E c) -> monomorphic (fd_spec f)) /\
    model_init E (conv_at E 5) c (VDict []) (VDict []) kw0 = Ok m /\ clean v /\
    model_setitem E (conv_at E 5) c m n v = (m', None) /\
    model_export_top E (export_at E 5) c m' xprim = Ok out /\ ~ made_of scalar (VDict out).
Proof. exact assigned_value. Qed.
Print Assumptions C76_assigned_values_refuted.
(** not even inside an instance given for a polymorphic field. *)
Theorem C76_given_instances_refuted :
  exists E R c d m out, tidy_env E /\ library_env R E /\ clean (VDict d) /\
    model_init E (conv_at E 5) c (VDict d) (VDict []) kw0 = Ok m /\ clean (VModel c m) /\
    model_export_top E (export_at E 5) c m xprim = Ok out /\ ~ made_of scalar (VDict out).
Proof. exact given_instance. Qed.
Print Assumptions C76_given_instances_refuted.
