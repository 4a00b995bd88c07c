(** Classes with fields called like methods, for C108. *)
From Verif.Model Require Import Py Core Export Api Equality Shadow.
From Verif.Conformance Require Import Sample.
Open Scope string_scope.
Open Scope list_scope.

(** class Invoice: items = ListType(IntType), keys = IntType, serialize = BaseType; class Form: validate = BaseType, get = IntType. *)
Definition Invoice : mclass :=
  MC [ fld "items" (o0 0) (TList (FS (o_inner (o0 0)) (TLeaf int_leaf)));
       fld "keys" (o_req (o0 0)) (TLeaf int_leaf);
       fld "serialize" (o0 0) (TLeaf any_leaf) ] [] [] DEFAULT None.
Definition Form : mclass :=
  MC [ fld "validate" (o0 1) (TLeaf any_leaf); fld "get" (o0 1) (TLeaf int_leaf) ] [] [] DEFAULT None.
Definition Enames : env := Env (fun c => match c with 0%N => Invoice | _ => Form end) N.eqb (fun _ => []).
Definition invoice_data : list (key * pyval) := [(k "items", VList [VInt 1; VInt 2]); (k "keys", VInt 3)].
Definition form_data : list (key * pyval) := [(k "validate", VStr (u "yes")); (k "get", VInt 3)].
Definition kw_now : kwargs := KW no_mapping true true true true true true false.
