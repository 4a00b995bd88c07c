(** C42 (contexts) and C43 (roles). *)
From Verif.Model Require Import Py Core Export Context Role.
From Verif.Spec Require Import ImportSpec ExportSpec ContextSpec RoleSpec.
From Verif.Proofs Require Import ContextFacts RoleFacts.
From Verif.Conformance Require Import Sample.

(** ** C42 *)

(** A branched context has the attributes of its parent; it differs from it exactly where a value other than None was
    given that differs, and it is the parent itself exactly if there is no such value. *)
Theorem C42_branch_differs_where_told : forall A (is_None : A -> bool) differs fields d kw,
  NoDup (dkeys d) -> NoDup (dkeys kw) -> allowed fields d -> known is_None d kw ->
  exists e same, context_branch is_None differs fields d kw = Ok (e, same) /\ dkeys e = dkeys d /\
    (forall x v, changes is_None differs d kw x v -> dget x e = Some v) /\
    (forall x, (forall v, ~ changes is_None differs d kw x v) -> dget x e = dget x d) /\
    (same = true <-> forall x v, ~ changes is_None differs d kw x v) /\ (same = true -> e = d).
Proof. exact @branch_result. Qed.
Print Assumptions C42_branch_differs_where_told.

(** A value for anything else is a KeyError. *)
Theorem C42_branch_of_unknown_attribute : forall A (is_None : A -> bool) differs fields d kw,
  ~ known is_None d kw -> context_branch is_None differs fields d kw = Raise (XPy EKeyError).
Proof. exact @branch_unknown. Qed.
Print Assumptions C42_branch_of_unknown_attribute.

Definition zdiff (a b : option Z) : bool :=
  match a, b with Some x, Some y => negb (Z.eqb x y) | None, None => false | _, _ => true end.
Definition znone (a : option Z) : bool := match a with None => true | _ => false end.
Example C42_branch_case :
  let d := [(k "a", Some 1%Z); (k "b", Some 2%Z); (k "c", None)] in
  let kw := [(k "b", Some 5%Z); (k "a", Some 1%Z); (k "c", None)] in
  NoDup (dkeys d) /\ NoDup (dkeys kw) /\ known znone d kw /\ changes znone zdiff d kw (k "b") (Some 5%Z) /\
  context_branch znone zdiff [] d kw = Ok ([(k "a", Some 1%Z); (k "b", Some 5%Z); (k "c", None)], false) /\
  context_branch znone zdiff [] d [(k "b", Some 2%Z); (k "z", None)] = Ok (d, true) /\
  ~ known znone d [(k "z", Some 1%Z)].
Proof.
  cbn. repeat split; try (repeat constructor; cbn; intuition discriminate).
  - intros x v [[= <- <-]|[[= <- <-]|[[= <- <-]|[]]]] _; discriminate.
  - eexists; split; reflexivity.
  - intros H. now apply (H (k "z") (Some 1%Z) (or_introl eq_refl) eq_refl).
Qed.

(** Filling in defaults never overwrites an attribute that is set. *)
Theorem C42_defaults_do_not_overwrite : forall A (d s : list (key * A)) x,
  NoDup (dkeys d) -> NoDup (dkeys s) ->
  dget x (context_setdefaults d s) = match dget x d with Some v => Some v | None => dget x s end.
Proof. exact @setdefaults_get. Qed.
Print Assumptions C42_defaults_do_not_overwrite.

(** The context an import or export works with: one that is already initialized is used as it is, any other gets the
    arguments of the call for the attributes it lacks. *)
Theorem C42_context_of_a_loop : forall A (o : make_arg A) defaults,
  NoDup (dkeys defaults) -> (forall d, o = FromContext d -> NoDup (dkeys d)) ->
  exists given d, loop_context o defaults = Ok d /\
    match o with FromNone => given = [] | FromContext c => given = c | FromSource s => given = dupdate [] s end /\
    (dget (k "initialized") given <> None -> d = given) /\
    (dget (k "initialized") given = None ->
     forall x, dget x d = match dget x given with Some v => Some v | None => dget x defaults end).
Proof. exact @loop_context_result. Qed.
Print Assumptions C42_context_of_a_loop.

(** The ready made contexts: the given options, and the stub's values for the others. *)
Theorem C42_stub_contexts : forall A (stub options : list (key * A)),
  NoDup (dkeys stub) -> NoDup (dkeys options) ->
  exists d, stub_context stub options = Ok d /\
    forall x, dget x d = match dget x options with Some v => Some v | None => dget x stub end.
Proof. exact @stub_result. Qed.
Print Assumptions C42_stub_contexts.

Example C42_defaults_case :
  let call := [(k "initialized", 1%Z); (k "strict", 0%Z); (k "partial", 2%Z)] in
  NoDup (dkeys call) /\
  loop_context (FromSource [(k "strict", 7%Z)]) call = Ok [(k "strict", 7%Z); (k "initialized", 1%Z); (k "partial", 2%Z)] /\
  loop_context (FromContext [(k "initialized", 5%Z)]) call = Ok [(k "initialized", 5%Z)] /\
  stub_context [(k "strict", 0%Z); (k "convert", 1%Z)] [(k "strict", 3%Z)] = Ok [(k "strict", 3%Z); (k "convert", 1%Z)].
Proof. repeat split. repeat constructor; cbn; intuition discriminate. Qed.

(** Positional construction of a context class with declared names. *)
Theorem C42_positional_construction : forall A fields (args : list A) kw,
  NoDup fields -> NoDup (dkeys kw) -> fields <> [] ->
  (length fields < length args -> context_new fields args kw = Raise (XPy ETypeError)) /\
  (length args <= length fields -> ~ (forall x, In x (dkeys kw) -> In x fields) ->
     context_new fields args kw = Raise (XPy EValueError)) /\
  (length args <= length fields -> (forall x, In x (dkeys kw) -> In x fields) ->
     exists d, context_new fields args kw = Ok d /\
       (forall x v, dget x kw = Some v -> dget x d = Some v) /\
       (forall i x, dget x kw = None -> nth_error fields i = Some x -> dget x d = nth_error args i) /\
       (forall x, In x (dkeys d) -> In x fields)).
Proof. exact @new_result. Qed.
Print Assumptions C42_positional_construction.

(** An attribute can be set once; *)
Theorem C42_attributes_are_set_once : forall A (d : list (key * A)) x v,
  NoDup (dkeys d) ->
  (dget x d <> None -> context_setattr d x v = Raise (XPy ETypeError)) /\
  (dget x d = None -> exists e, context_setattr d x v = Ok e /\ dget x e = Some v /\
                                forall y, y <> x -> dget y e = dget y d).
Proof. exact @setattr_once. Qed.
Print Assumptions C42_attributes_are_set_once.

(** it is read back by name and by subscription; one that is not set is an AttributeError or a KeyError; *)
Theorem C42_reading_attributes : forall A (d : list (key * A)) x,
  (forall v, dget x d = Some v -> context_getattr d x = Ok v /\ context_getitem d x = Ok v) /\
  (dget x d = None -> context_getattr d x = Raise (XPy EAttributeError) /\ context_getitem d x = Raise (XPy EKeyError)).
Proof. exact @context_reads. Qed.
Print Assumptions C42_reading_attributes.

(** but subscription replaces it. *)
Theorem C42_attributes_never_change_refuted :
  exists (d : list (key * Z)) x v, dget x d <> None /\ dget x (context_setitem d x v) <> dget x d.
Proof. exists [(k "a", 1%Z)], (k "a"), 2%Z. split; discriminate. Qed.
Print Assumptions C42_attributes_never_change_refuted.

Example C42_construction_case :
  let fields := [k "a"; k "b"; k "c"] in
  NoDup fields /\
  context_new fields [1%Z; 2%Z] [(k "c", 3%Z)] = Ok [(k "a", 1%Z); (k "b", 2%Z); (k "c", 3%Z)] /\
  context_new fields [1%Z] [(k "z", 3%Z)] = Raise (XPy EValueError) /\
  context_new fields [1%Z; 2%Z; 3%Z; 4%Z] [] = Raise (XPy ETypeError) /\
  context_setattr [(k "a", 1%Z)] (k "b") 2%Z = Ok [(k "a", 1%Z); (k "b", 2%Z)] /\
  context_setattr [(k "a", 1%Z)] (k "a") 2%Z = Raise (XPy ETypeError).
Proof. cbn. repeat split. repeat constructor; cbn; intuition discriminate. Qed.

(** The import model's own branching is the context's, for any comparison that tells different values apart. *)
Theorem C42_import_contexts_branch_so : forall E differs x n,
  (forall v w : cval, differs v w = false -> v = w) ->
  exists same, context_branch cval_None differs [] (ctx_attrs x)
      [(k "trusted_data", CData (nested_td E x n)); (k "mapping", submap_val (nested_map x n))]
    = Ok (ctx_attrs (branch x (nested_td E x n) (nested_map x n)), same).
Proof. exact import_branch. Qed.
Print Assumptions C42_import_contexts_branch_so.

(** ** C43 *)

(** However a role is put together from names and other roles, it shows a field exactly as set algebra says, by the kind
    of the leftmost role and whatever the value. *)
Theorem C43_filter_is_set_membership : forall e n v, role_call (build e) n v = false <-> admits e n.
Proof. exact role_filter. Qed.
Print Assumptions C43_filter_is_set_membership.

Theorem C43_names_of_a_role : forall e x, role_contains (build e) x = true <-> about e x.
Proof. exact role_members. Qed.
Print Assumptions C43_names_of_a_role.

(** Roles are equal exactly if they have the same kind and the same names. *)
Theorem C43_equality : forall e e', role_eq (build e) (build e') = true <->
  kind_of e = kind_of e' /\ forall x, about e x <-> about e' x.
Proof. exact role_equality. Qed.
Print Assumptions C43_equality.

(** Exporting with such a role writes only admitted fields, and all of those that an export without role writes. *)
Theorem C43_export_with_a_role : forall E fe x c obj d e,
  export_loop E fe x c obj = Ok d -> role_in_force E c x (Some (role_call (build e))) ->
  (forall s, In s (dkeys d) -> exists n f, In (n, f) (fields_of E c) /\ s = public_name n f /\ admits e n) /\
  (forall n f w, In (n, f) (fields_of E c) -> admits e n -> writes E fe x None obj n f w -> In (public_name n f) (dkeys d)).
Proof. exact export_role. Qed.
Print Assumptions C43_export_with_a_role.

Definition adult : rexp := Minus (Plus (Start Only [k "name"]) (Names [k "age"; k "home"])) (Other (Start Except [k "home"])).
Example C43_case :
  admits adult (k "age") /\ ~ admits adult (k "home") /\ ~ admits adult (k "tags") /\
  role_eq (build adult) (build (Start Only [k "age"; k "name"])) = true /\
  role_eq (build adult) (build (Start Except [k "age"; k "name"])) = false /\
  role_call (build (Start Only [])) (k "a") VNone = true /\ role_call (build (Start Except [])) (k "a") VNone = false /\
  (forall r, ec_role (ECtx Native (RoleFn (role_call r)) true None) = RoleFn (role_call r)) /\
  export_loop Esample (export_at Esample 5) (ECtx Native (RoleFn (role_call (build adult))) true None) 1
    (VDict [(k "name", VStr (u "Ann")); (k "age", VInt 3); (k "home", VDict [(k "street", VStr (u "x"))])])
  = Ok [(k "name", VStr (u "Ann")); (k "age", VInt 3)].
Proof.
  cbn. repeat split; try (intuition discriminate).
Qed.
