(** An export that shows a part of another export. *)
From Verif.Model Require Import Py Core Export Role.
From Verif.Spec Require Import ImportSpec ExportSpec RoleSpec.
Local Open Scope Z_scope.

(** The first list is what is left of the second when elements are left out; those that stay are related. *)
Inductive rest {A} (R : A -> A -> Prop) : list A -> list A -> Prop :=
| rs_nil : rest R [] []
| rs_keep a b l m : R a b -> rest R l m -> rest R (a :: l) (b :: m)
| rs_skip b l m : rest R l m -> rest R l (b :: m).
(** A part of a value: entries of dictionaries and elements of lists are left out, at any depth; nothing else differs. *)
Inductive part_of : pyval -> pyval -> Prop :=
| pt_same v : part_of v v
| pt_dict d e : rest (fun p q => fst p = fst q /\ part_of (snd p) (snd q)) d e -> part_of (VDict d) (VDict e)
| pt_list l m : rest part_of l m -> part_of (VList l) (VList m).

(** ** Exports that show less *)
(** A level that shows less: 0 shows nothing; otherwise a smaller number. *)
Definition lower (a b : Z) : Prop := a = 0 \/ a <= b /\ b <> 0.
(** The same format; no known name of a role is lost; in every class the role hides what the other hides; the levels in
    force are lower. *)
Record shows_less (E : env) (x x2 : ectx) : Prop := {
  sl_format : ec_fmt x = ec_fmt x2;
  sl_known : forall c, ~ unknown_role E c x;
  sl_role : forall c filt filt2 n v, role_in_force E c x filt -> role_in_force E c x2 filt2 -> hidden filt2 n v -> hidden filt n v;
  sl_level : forall f l l2, level_in_force E f x l -> level_in_force E f x2 l2 -> lower l l2 }.

(** Unions whose members have no parts. *)
Inductive simple_unions : fspec -> Prop :=
| su_leaf o l : simple_unions (FS o (TLeaf l))
| su_union o ms : (forall m, In m ms -> exists o' l, m = FS o' (TLeaf l)) -> simple_unions (FS o (TUnion ms))
| su_model o c : simple_unions (FS o (TModel c))
| su_poly o p : simple_unions (FS o (TPoly p))
| su_list o g : simple_unions g -> simple_unions (FS o (TList g))
| su_dict o g ck : simple_unions g -> simple_unions (FS o (TDict g ck)).
(** Values in which every dictionary has each key once (as all dictionaries of Python have). *)
Inductive keyed : pyval -> Prop :=
| ky_atom v : (forall l, v <> VList l) -> (forall l, v <> VTuple l) -> (forall d, v <> VDict d) -> (forall c m, v <> VModel c m) -> keyed v
| ky_list l : Forall keyed l -> keyed (VList l)
| ky_tuple l : Forall keyed l -> keyed (VTuple l)
| ky_dict d : NoDup (dkeys d) -> (forall y v, In (y, v) d -> keyed v) -> keyed (VDict d)
| ky_model c m : (forall y v, In (y, v) (md_unsafe m ++ md_converted m ++ md_valid m) -> keyed v) -> keyed (VModel c m).
(** Programs: different fields of a class have different names and public names; computed fields return such values. *)
Record showing (E : env) : Prop := {
  sh_fields : forall c, NoDup (dkeys (fields_of E c));
  sh_names : forall c, NoDup (map (fun p => public_name (fst p) (snd p)) (fields_of E c));
  sh_unions : forall c n f, In (n, f) (fields_of E c) -> simple_unions (fd_spec f);
  sh_computed : forall c n f g v w, In (n, f) (fields_of E c) -> fd_get f = Some g -> keyed v -> g v = Ok w -> keyed w }.
