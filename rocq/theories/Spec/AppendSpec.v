(** What adding a field to an existing class should do. *)
From Verif.Model Require Import Py Core Export Meta Append.
From Verif.Spec Require Import MetaSpec.

(** A field object made by calling a type and used nowhere yet. *)
Definition unused (P : program) (a : addr) : Prop :=
  (exists o, nth_error (p_heap P) a = Some o /\ ob_pos o = Z.of_nat a) /\ ~ in_schema P a /\ ~ is_element P a.

(** A field object as a field. *)
Definition field_object (P : program) (a : addr) : field := Fld (read (length (p_heap P)) (p_heap P) a) None None.

(** The element types of a field object are not those of a field in use. *)
Definition own_elements (P : program) (a : addr) : Prop :=
  forall b d, inside (p_heap P) a b -> in_schema P d -> ~ inside (p_heap P) d b.

(** The programs there are if fields can be added to classes, under names the class does not have. *)
Inductive grown : program -> Prop :=
| grown_start : grown program0
| grown_type P o t :
    grown P ->
    (forall i, inner_of t = Some i -> i < length (p_heap P) /\ ~ in_schema P i) ->
    grown (new_field P o t)
| grown_class P bases attrs own claim :
    grown P ->
    (forall b, In b bases -> class_at P b <> None) ->
    class_body P attrs ->
    grown (define_class P bases attrs own claim)
| grown_append P c x a :
    grown P -> class_at P c <> None -> field_of P c x = None -> unused P a ->
    grown (append_field P c x a).

(** Nothing in a value is an instance of [c] with a value for [x], nor a dictionary with the key [x]. *)
Inductive lacks (c : cid) (x : key) : pyval -> Prop :=
| lacks_list l : (forall v, In v l -> lacks c x v) -> lacks c x (VList l)
| lacks_tuple l : (forall v, In v l -> lacks c x v) -> lacks c x (VTuple l)
| lacks_dict d : dget x d = None -> (forall y v, In (y, v) d -> lacks c x v) -> lacks c x (VDict d)
| lacks_model d m : (d = c -> chain_get m x = None) -> (forall y v, chain_get m y = Some v -> lacks c x v) ->
    lacks c x (VModel d m)
| lacks_atom v : match v with VList _ | VTuple _ | VDict _ | VModel _ _ => False | _ => True end -> lacks c x v.

(** Nor does a getter find any. *)
Definition getters_lack (P : program) (c : cid) (x : key) : Prop :=
  forall d y f g m w, field_of P d y = Some f -> fd_get f = Some g -> lacks c x (VModel d m) ->
    g (VModel d m) = Ok w -> lacks c x w.
