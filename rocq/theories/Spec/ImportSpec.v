(** What importing a mapping means, field by field, without reference to the loop.
    Read together with properties C01-C08. *)
From Verif.Model Require Import Py Core.

(** The fields of a class. *)
Definition fields_of (E : env) (c : cid) := mc_fields (e_class E c).

(** An input without the library's own [Undefined] sentinel as a value. *)
Definition defined_dict (d : list (key * pyval)) : Prop := forall y, dget y d <> Some VUndef.

(** The keys a mapping argument lists for fields. *)
Definition given_names (mp : mapping) : list (key * list key) := match mp with Mapping a _ => a end.

(** The keys under which a field may be supplied, most preferred first: its name, its serialized
    name, the keys the mapping argument lists for it, its [deserialize_from] keys.
    Empty keys are ignored. *)
Definition accepted_names (n : key) (f : fspec) (mp : mapping) : list key :=
  n :: filter key_true
         (match fo_sname (fs_opts f) with Some s => [s] | None => [] end
          ++ match dget n (given_names mp) with Some l => l | None => [] end
          ++ fo_dfrom (fs_opts f)).

(** The value supplied for a field: the one under the first accepted name that occurs. *)
Definition supplied (d : list (key * pyval)) (n : key) (f : fspec) (mp : mapping) : option pyval :=
  match find (fun y => dmem y d) (accepted_names n f mp) with
  | Some y => dget y d
  | None => None
  end.

(** A key some field accepts, or that is listed in the mapping argument. *)
Inductive acceptable (fs : list (key * field)) (mp : mapping) : key -> Prop :=
| acc_name n f : In (n, f) fs -> acceptable fs mp n
| acc_sname n f s : In (n, f) fs -> fo_sname (fs_opts (fd_spec f)) = Some s -> key_true s = true ->
    acceptable fs mp s
| acc_from n f s : In (n, f) fs -> In s (fo_dfrom (fs_opts (fd_spec f))) -> acceptable fs mp s
| acc_map n l s : In (n, l) (given_names mp) -> In s l -> acceptable fs mp s.

(** An undeclared key of the input. *)
Definition rogue_key (fs : list (key * field)) (mp : mapping) (d : list (key * pyval)) (y : key) : Prop :=
  In y (dkeys d) /\ ~ acceptable fs mp y.

(** The errors that are collected and reported together: those of schematics itself.  Anything else ends the
    operation at once. *)
Definition collectable (e : exn) : bool :=
  match e with XConv _ | XValid _ _ | XCompound _ | XData _ _ => true | XPy _ | XFuel => false end.
(** What is reported for such an error: its messages, or the errors it has collected. *)
Definition shown_error (e : exn) : errnode :=
  match e with
  | XConv ms => NConv ms
  | XValid _ ms => NValid ms
  | XCompound d => NDict d
  | XData d _ => NDict d
  | XPy _ | XFuel => NText []
  end.

(** The name used for a field in error dictionaries and output. *)
Definition public_name (n : key) (f : field) : key :=
  match fo_sname (fs_opts (fd_spec f)) with
  | Some s => if key_true s then s else n
  | None => n
  end.

(** The value handed to the field's conversion. *)
Definition candidate (x : ictx) (f : fspec) (sup : option pyval) : pyval :=
  match sup with
  | Some v => v
  | None => match cx_apply_defaults x, fo_default (fs_opts f) with
            | true, VUndef => if cx_init_values x then VNone else VUndef
            | true, dv => dv
            | false, _ => if cx_init_values x then VNone else VUndef
            end
  end.

(** What happens to one field. *)
Inductive outcome :=
| Keep                 (* nothing is stored: a trusted value stays, otherwise the field is absent *)
| Store (v : pyval)
| Fail (e : exn).

Definition field_outcome (E : env) (fc : fspec -> pyval -> ictx -> res pyval) (x : ictx)
    (d td : list (key * pyval)) (n : key) (f : fspec) : outcome :=
  match supplied d n f (cx_mapping x), dget n td with
  | None, Some _ => Keep
  | sup, _ => match fc f (candidate x f sup) (field_ctx E x n f) with
              | Ok VUndef => Keep
              | Ok w => Store w
              | Raise e => Fail e
              end
  end.

(** The fields an import handles: all, except that settable computed fields are left to
    validation. *)
Definition handled (x : ictx) (f : field) : Prop := cx_validate x = true \/ has_setter f = false.

(** A class without settable computed fields. *)
Definition no_setters (fs : list (key * field)) : Prop := forall n f, In (n, f) fs -> fd_set f = None.

(** What a failed field leaves in the partial data. *)
Definition fallback (x : ictx) (f : fspec) (e : exn) (old : option pyval) : option pyval :=
  match e with
  | XData _ pd => Some (VDict pd)
  | _ => match cx_apply_defaults x, fo_default (fs_opts f) with
         | true, VUndef => old
         | true, dv => Some dv
         | false, _ => old
         end
  end.

(** The value of field [n] after the loop. *)
Definition value_after (x : ictx) (f : fspec) (o : outcome) (old : option pyval) : option pyval :=
  match o with
  | Keep => old
  | Store v => Some v
  | Fail e => fallback x f e old
  end.

(** The mapping the fields are read from.  A plain import reads the given input.  Validation first
    lays the values visible on the instance over it ([items]); the statements below that cover
    validation are for classes without settable computed fields. *)
Inductive effective_input (E : env) (x : ictx) (fs : list (key * field)) (mut : pyval)
    (d : list (key * pyval)) : list (key * pyval) -> Prop :=
| eff_convert : cx_validate x = false -> effective_input E x fs mut d d
| eff_validate items : cx_validate x = true -> no_setters fs -> py_dict E mut = Ok items ->
    effective_input E x fs mut d (dupdate d items).

(** The trusted data as a dictionary. *)
Definition trusted_dict (E : env) (x : ictx) (td : list (key * pyval)) : Prop :=
  (if truthy (cx_trusted x) then py_dict E (cx_trusted x) else Ok []) = Ok td.

(** Field [n] fails with [e]. *)
Definition fails E fc x d td (n : key) (f : field) (e : exn) : Prop :=
  field_outcome E fc x d td n (fd_spec f) = Fail e.

(** A class whose fields are all plain (no computed fields). *)
Definition plain_fields (fs : list (key * field)) : Prop :=
  forall n f, In (n, f) fs -> fd_get f = None /\ fd_set f = None.

(** An instance that stores no [Undefined] sentinel. *)
Definition defined_data (m : mdata pyval) : Prop := forall n, chain_get m n <> Some VUndef.
