(** C75: models given by name. *)
From Verif.Model Require Import Py Core Meta ByName.
From Verif.Spec Require Import ByNameSpec.
From Verif.Proofs Require Import ImportName ByNameMain ByNameWitness.
From Verif.Conformance Require Import Sample.
From Coq Require Import Lia.

(** The longest importable part of a name is imported, the rest are attributes. *)
Theorem C75_what_a_name_imports : forall I name o, import_string I name = Found o <->
  exists m path o', longest I (with_dots name) m path /\ im_module I m = Found o' /\ attribute I o' path = Some o.
Proof. exact import_found. Qed.
Print Assumptions C75_what_a_name_imports.

Theorem C75_names_that_are_not_found : forall I name, import_string I name = NotFound <->
  (forall m path, with_dots name = dotted m path -> Forall no_dot path -> im_module I m = NotFound) \/
  exists m path o, longest I (with_dots name) m path /\ im_module I m = Found o /\ attribute I o path = None.
Proof. exact import_not_found. Qed.
Print Assumptions C75_names_that_are_not_found.

(** An error raised by a module is not hidden. *)
Theorem C75_errors_of_modules_are_raised : forall I name e, import_string I name = Broken e <->
  exists m path, longest I (with_dots name) m path /\ im_module I m = Broken e.
Proof. exact import_broken. Qed.
Print Assumptions C75_errors_of_modules_are_raised.

Theorem C75_a_colon_is_a_dot : forall I a b, import_string I (a ++ 58%N :: b) = import_string I (a ++ 46%N :: b).
Proof. exact import_colon. Qed.
Print Assumptions C75_a_colon_is_a_dot.

Example C75_import_case :
  import_string some_import (u "lib.shapes:Circle") = Found (PClass 2%N) /\
  import_string some_import (u "lib.shapes.Circle.Inner") = Found (PClass 3%N) /\
  import_string some_import (u "app.tree.Tree") = NotFound /\ import_string some_import (u "Tree") = NotFound /\
  import_string some_import (u "bad.x") = Broken (XPy EValueError).
Proof. vm_compute. repeat split. Qed.

(** After the class statement no field of the class, lists and dictionaries included, still has the name of the class instead of
    the class, and no PolyModelType has names. *)
Theorem C75_no_own_name_is_left : forall W P name bases attrs P' e,
  nmade W P -> writable P bases attrs -> nclass P name bases attrs = (P', e) -> e = None ->
  forall b, part_of P' (nnext P) b -> nth_error (np_heap P') b <> Some (NModel None name).
Proof. exact no_own_name_left. Qed.
Print Assumptions C75_no_own_name_is_left.

Theorem C75_no_polymorphic_name_is_left : forall W P name bases attrs P' e,
  nmade W P -> writable P bases attrs -> nclass P name bases attrs = (P', e) -> e = None ->
  forall b l y, part_of P' (nnext P) b -> nth_error (np_heap P') b = Some (NPoly l) -> ~ In (inl y) l.
Proof. exact no_poly_name_left. Qed.
Print Assumptions C75_no_polymorphic_name_is_left.

(** A class statement fails exactly if a PolyModelType among its fields names another class. *)
Theorem C75_when_a_class_statement_fails : forall W P name bases attrs P' e,
  nmade W P -> writable P bases attrs -> nclass P name bases attrs = (P', e) ->
  (e = None <-> forall x a b l y, source P bases attrs x a -> holds (np_heap P) a b ->
    nth_error (np_heap P) b = Some (NPoly l) -> In (inl y) l -> y = name) /\
  (e = None \/ e = Some (XPy EGenericException)).
Proof. exact when_it_fails. Qed.
Print Assumptions C75_when_a_class_statement_fails.

(** What a field refers to, by what it referred to in the body or in the first base that has it: a class stays (a class derived
    from a class that refers to itself refers to that class), the own name becomes the class, another name stays a name.  Inherited
    fields are new objects. *)
Theorem C75_what_a_field_refers_to : forall W P name bases attrs P' e,
  nmade W P -> writable P bases attrs -> nclass P name bases attrs = (P', e) -> e = None ->
  forall x a, source P bases attrs x a -> exists a', field_obj P' (nnext P) x = Some a' /\
    (dget x attrs = None -> length (np_heap P) <= a') /\
    match nth_error (np_heap P) a with
    | Some (NModel None y) => y = name /\ nth_error (np_heap P') a' = Some (NModel (Some (PClass (nnext P))) name) \/
        y <> name /\ nth_error (np_heap P') a' = Some (NModel None y)
    | Some (NPoly l) => nth_error (np_heap P') a' =
        Some (NPoly (map (fun m => match m with inl _ => inr (nnext P) | inr d => inr d end) l))
    | t => nth_error (np_heap P') a' = t
    end.
Proof. exact field_after. Qed.
Print Assumptions C75_what_a_field_refers_to.

(** A mixin with a field that names a class not yet there is not changed by classes of that name derived from it. *)
Theorem C75_a_mixin_is_not_touched : forall W P name bases attrs P' e,
  nmade W P -> writable P bases attrs -> nclass P name bases attrs = (P', e) -> e = None ->
  forall a, a < length (np_heap P) -> (forall b, nth_error (np_heap P) b <> Some (NBox a)) -> (forall y, ~ In (y, a) attrs) ->
    nth_error (np_heap P') a = nth_error (np_heap P) a.
Proof. exact mixin_untouched. Qed.
Print Assumptions C75_a_mixin_is_not_touched.

(** class Node(Model): children = ListType(ModelType('Node')); parent = ModelType('Node') *)
Example C75_case : nmade no_import before_tree /\ writable before_tree [0%N] tree_body /\
  nclass before_tree (u "Node") [0%N] tree_body = (tree, None) /\ nnext before_tree = 1%N /\
  part_of tree 1%N 0 /\ nth_error (np_heap before_tree) 0 = Some (NModel None (u "Node")) /\
  nth_error (np_heap tree) 0 = Some (NModel (Some (PClass 1%N)) (u "Node")) /\
  source before_tree [0%N] tree_body (k "parent") 2.
Proof.
  destruct tree_ok as (H1 & H2 & H3). split; [exact H1|]. split; [exact H2|]. split; [exact H3|]. split; [reflexivity|].
  split; [exists (k "children"), 1; split; [reflexivity|]; apply ho_box with 0; [reflexivity|constructor]|].
  split; [reflexivity|]. split; [reflexivity|]. left. reflexivity.
Qed.

(** What is once a class stays this class; the first use imports and decides, whatever is importable later. *)
Theorem C75_references_never_change : forall W P P' a o x, nmade W P -> nlater W P P' ->
  nth_error (np_heap P) a = Some (NModel (Some o) x) -> nth_error (np_heap P') a = Some (NModel (Some o) x).
Proof. exact settled_for_good. Qed.
Print Assumptions C75_references_never_change.

Theorem C75_the_first_use_decides : forall W I P a P' o, nmade W P -> W I -> nuse I P a = (P', Found o) ->
  forall P2 I2, nlater W P' P2 -> nuse I2 P2 a = (P2, Found o).
Proof. exact first_use. Qed.
Print Assumptions C75_the_first_use_decides.
(** Types other than ModelType have no model class. *)
Theorem C75_only_models_have_a_class : forall I P a t, nth_error (np_heap P) a = Some t -> (forall o x, t <> NModel o x) ->
  nuse I P a = (P, Broken (XPy EAttributeError)).
Proof. exact use_models_only. Qed.
Print Assumptions C75_only_models_have_a_class.
Example C75_plain_case : let P := nnew start NPlain in nth_error (np_heap P) 0 = Some NPlain /\ (forall o x, NPlain <> NModel o x) /\
  nuse some_import P 0 = (P, Broken (XPy EAttributeError)).
Proof. cbv zeta. split; [reflexivity|]. split; [discriminate|reflexivity]. Qed.

(** A failing import changes nothing: the next use tries again. *)
Theorem C75_a_use_imports_the_name : forall I P a x, nth_error (np_heap P) a = Some (NModel None x) ->
  snd (nuse I P a) = import_string I x /\ ((forall o, import_string I x <> Found o) -> fst (nuse I P a) = P).
Proof. exact use_imports. Qed.
Print Assumptions C75_a_use_imports_the_name.

(** A reference is a class of the given name or was imported under that name. *)
Theorem C75_what_references_refer_to : forall W P a o x, nmade W P -> nth_error (np_heap P) a = Some (NModel (Some o) x) ->
  (exists c kl, o = PClass c /\ nclass_at P c = Some kl /\ nc_name kl = x) \/ exists I, W I /\ import_string I x = Found o.
Proof. exact where_from. Qed.
Print Assumptions C75_what_references_refer_to.

Example C75_use_case : exists P, nmade (eq some_import) (nnew start (NModel None (u "app.Tree"))) /\
  nuse some_import (nnew start (NModel None (u "app.Tree"))) 0 = (P, Found (PClass 1%N)) /\
  nth_error (np_heap P) 0 = Some (NModel (Some (PClass 1%N)) (u "app.Tree")).
Proof. eexists. split; [apply new_made; [constructor|exact I]|]. split; vm_compute; reflexivity. Qed.

(** Elements of lists are shared with the base class: the second class Node(Mixin) has the first class Node in its lists. *)
Theorem C75_lists_refer_to_the_own_class_refuted : exists P c1 c2 k1 k2 x a i, nmade no_import P /\ c1 <> c2 /\
  nclass_at P c1 = Some k1 /\ nclass_at P c2 = Some k2 /\ nc_done k1 = true /\ nc_done k2 = true /\ nc_name k1 = nc_name k2 /\
  field_obj P c2 x = Some a /\ nth_error (np_heap P) a = Some (NBox i) /\
  nth_error (np_heap P) i = Some (NModel (Some (PClass c1)) (nc_name k2)).
Proof. exact shared_witness. Qed.
Print Assumptions C75_lists_refer_to_the_own_class_refuted.

(** Members of unions keep the name; a use tries to import it and fails. *)
Theorem C75_unions_refer_to_the_own_class_refuted : exists P c kl x a ms m, nmade no_import P /\
  nclass_at P c = Some kl /\ nc_done kl = true /\
  field_obj P c x = Some a /\ nth_error (np_heap P) a = Some (NUnion ms) /\ In m ms /\
  nth_error (np_heap P) m = Some (NModel None (nc_name kl)) /\
  (forall I, im_module I (nc_name kl) = NotFound -> nuse I P m = (P, NotFound)).
Proof. exact union_witness. Qed.
Print Assumptions C75_unions_refer_to_the_own_class_refuted.

(** A class statement that failed leaves traces: after it was corrected, lists refer to the class that was never finished. *)
Theorem C75_a_failed_class_leaves_no_trace_refuted : exists P c1 c2 k1 k2 x a i, nmade no_import P /\
  nclass_at P c1 = Some k1 /\ nc_done k1 = false /\ nclass_at P c2 = Some k2 /\ nc_done k2 = true /\
  field_obj P c2 x = Some a /\ nth_error (np_heap P) a = Some (NBox i) /\
  nth_error (np_heap P) i = Some (NModel (Some (PClass c1)) (nc_name k2)).
Proof. exact unfinished_witness. Qed.
Print Assumptions C75_a_failed_class_leaves_no_trace_refuted.
