(** Recursion depth: nesting of values, and code that does not itself exhaust the stack. *)
From Verif.Model Require Import Py Core Export.
From Verif.Spec Require Import ImportSpec.

(** How deeply containers are nested in a value.  A false value counts as an empty mapping (which is
    what a model makes of it), and a bytes string or a model instance counts as the list of scalars
    that iteration makes of it. *)
Fixpoint vdepth (v : pyval) : nat :=
  let dl := fix dl (l : list pyval) : nat := match l with [] => 0 | x :: r => Nat.max (vdepth x) (dl r) end in
  let dd := fix dd (l : list (key * pyval)) : nat :=
              match l with [] => 0 | (_, x) :: r => Nat.max (vdepth x) (dd r) end in
  match v with
  | VList l | VTuple l => S (dl l)
  | VDict d => S (dd d)
  | VModel _ m => S (S (Nat.max (dd (md_unsafe m)) (Nat.max (dd (md_converted m)) (dd (md_valid m)))))
  | VBytes _ => 2
  | VNone | VUndef => 0
  | _ => if truthy v then 0 else 1
  end.

(** A user supplied function does not run out of stack. *)
Definition settles {A} (r : res A) : Prop := r <> Raise XFuel.
Definition settles_opt (o : option exn) : Prop := o <> Some XFuel.

(** Not a union type (whose validators belong to its members). *)
Definition not_a_union (f : fspec) : Prop := match fs_type f with TUnion _ => False | _ => True end.

(** A compound field, or a union with a compound member. *)
Definition holds_values (f : fspec) : bool := match fs_type f with TUnion ms => existsb is_compound ms | _ => is_compound f end.

(** A field type whose user supplied parts settle. *)
Inductive calm (E : env) : fspec -> Prop :=
| calm_leaf o l : (forall g v, In g (fo_validators o) -> settles_opt (g v)) ->
    (forall v, settles (lf_native l v)) -> (forall v, settles (lf_prim l v)) -> calm E (FS o (TLeaf l))
| calm_union o ms : (forall m, In m ms -> calm E m) -> (forall m, In m ms -> not_a_union m) -> calm E (FS o (TUnion ms))
| calm_model o c : (forall g v, In g (fo_validators o) -> settles_opt (g v)) -> calm E (FS o (TModel c))
| calm_poly o p : (forall g v, In g (fo_validators o) -> settles_opt (g v)) -> calm E (FS o (TPoly p))
| calm_list o f : (forall g v, In g (fo_validators o) -> settles_opt (g v)) -> calm E f -> calm E (FS o (TList f))
| calm_dict o f ck : (forall g v, In g (fo_validators o) -> settles_opt (g v)) -> calm E f ->
    (forall y, settles (ck y)) -> calm E (FS o (TDict f ck)).

(** A program without computed fields whose user supplied parts settle and whose defaults
    for compound fields and unions with compound members are absent or scalars. *)
Record calm_env (E : env) : Prop := {
  ca_plain : forall c, plain_fields (fields_of E c);
  ca_calm : forall c n f, In (n, f) (fields_of E c) -> calm E (fd_spec f);
  ca_default : forall c n f, In (n, f) (fields_of E c) -> holds_values (fd_spec f) = true ->
    vdepth (fo_default (fs_opts (fd_spec f))) = 0;
  ca_validators : forall c n vf, In (n, vf) (mc_validators (e_class E c)) ->
    forall mut data v, settles_opt (snd (vf mut data v));
  ca_claim : forall c cl, mc_claim (e_class E c) = Some cl -> forall v, settles (cl v) }.
