(** What a program needs for everything it accepts to be exportable. *)
From Verif.Model Require Import Py Core Export Api Types DateTime Enum Net.
From Verif.Spec Require Import ImportSpec ExportSpec PrimitiveSpec.

Section Exporting.
  Context (x : ectx).
  (** The type writes every value it has converted. *)
  Definition leaf_exports (l : leaf) : Prop := forall u v, lf_native l u = Ok v -> exists w, leaf_form x l v = Ok w.
  (** The first type that accepts the value as it stands writes it; the ones before refuse it with a conversion error. *)
  Inductive some_writes (v : pyval) : list fspec -> Prop :=
  | sw_here o l r u w : lf_native l v = Ok u -> leaf_form x l v = Ok w -> some_writes v (FS o (TLeaf l) :: r)
  | sw_next o l r ms : lf_native l v = Raise (XConv ms) -> some_writes v r -> some_writes v (FS o (TLeaf l) :: r).
  (** This holds of every value a member has converted. *)
  Definition union_exports (ms : list fspec) : Prop :=
    forall m, In m ms -> exists o l, m = FS o (TLeaf l) /\ forall u v, lf_native l u = Ok v -> some_writes v ms.
  (** The type writes None and [Undefined] too: they reach it when they are elements of a list or dictionary. *)
  Definition writes_nothing (t : ftype) : Prop :=
    match t with
    | TLeaf l => forall v, is_nil v = true -> exists w, leaf_form x l v = Ok w
    | TModel _ => True
    | _ => False
    end.
  Definition element (g : fspec) : Prop :=
    fo_named (fs_opts g) = false /\ (fo_required (fs_opts g) = true \/ writes_nothing (fs_type g)).
  (** Fields of such types, not polymorphic at any depth; the elements of lists and dictionaries are required or of a type that
      writes None. *)
  Fixpoint type_exports (t : ftype) : Prop :=
    match t with
    | TLeaf l => leaf_exports l
    | TUnion ms => union_exports ms
    | TModel _ => True
    | TPoly _ => False
    | TList g | TDict g _ => exports g /\ element g
    end
  with exports (f : fspec) : Prop := match f with FS _ t => type_exports t end.
  Definition exports_env (E : env) : Prop := forall c n f, In (n, f) (fields_of E c) -> exports (fd_spec f).
End Exporting.

(** The types of the library that write what they convert. *)
Section Library.
  Context (R : runtime).
  Inductive exporting_type : leaf -> Prop :=
  | xt_string : exporting_type string_leaf
  | xt_int strict : exporting_type (int_type R strict)
  | xt_float : exporting_type (float_type R)
  | xt_decimal : exporting_type (decimal_type R)
  | xt_hash n : exporting_type (hash_type R n)
  | xt_bool : exporting_type bool_type
  | xt_uuid : exporting_type (uuid_type R)
  | xt_geo : exporting_type geo_type
  | xt_date fmts : exporting_type (date_type R fmts)
  | xt_utc : exporting_type (utc_type R)
  | xt_timestamp drop : exporting_type (timestamp_type R drop)
  | xt_enum c use_values : exporting_type (enum_type R c use_values)
  | xt_mac : exporting_type mac_type.
End Library.
