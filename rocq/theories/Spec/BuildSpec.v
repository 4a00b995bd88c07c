(** What is expected of options given to types that contain types (C73). *)
From Verif.Model Require Import Py Core Export Compound Build.

(** The options every type has. *)
Definition field_options : list key :=
  [k "required"; k "default"; k "serialized_name"; k "choices"; k "validators"; k "deserialize_from"; k "export_level";
   k "serialize_when_none"; k "messages"; k "metadata"].

(** A class with parameters of its own besides these. *)
Definition own_params (c : tclass) : Prop :=
  match c with
  | CLeaf l => forall x, In x (lc_params l) -> ~ In x field_options
  | _ => True
  end.

(** The two fields have the same options, apart from validators and choices. *)
Definition same_options (o i : fopts) : Prop :=
  fo_required o = fo_required i /\ fo_default o = fo_default i /\ fo_sname o = fo_sname i /\ fo_dfrom o = fo_dfrom i /\
  fo_level o = fo_level i.

(** The validators given as a list or tuple. *)
Definition given_validators (kw : kwds) : list vldr :=
  match dget (k "validators") kw with Some (AFuns l) | Some (AFunTuple l) => l | _ => [] end.

(** The number given for an option. *)
Definition given_number (x : key) (kw : kwds) : option Z :=
  match dget x kw with Some (AVal (VInt z)) => Some z | _ => None end.

(** The choices given: a list, a tuple, or the keys of a dictionary. *)
Definition given_choices (kw : kwds) : option (list pyval) :=
  match dget (k "choices") kw with
  | Some (AVal VNone) | None => None
  | Some (AVal (VList l)) | Some (AVal (VTuple l)) => Some l
  | Some (AVal (VDict d)) => Some (map (fun p => key_val (fst p)) d)
  | Some (AVal _) => Some []
  | Some _ => None
  end.

(** The options a union hands on to a class: those of every type and what the constructors of the class and its
    ancestors name. *)
Definition known_options (c : tclass) : list key :=
  match c with
  | CLeaf l => lc_listed l
  | CUnion _ _ => [k "types"; k "resolver"]
  | CList => [k "field"; k "min_size"; k "max_size"]
  | CDict => [k "field"; k "coerce_key"]
  | CModel | CPoly => [k "model_spec"]
  end ++ field_options.

(** The types a union is made of. *)
Definition given_types (own : option (list arg)) (kw : kwds) (l : list arg) : Prop :=
  match dget (k "types") kw with Some (ATypes (a :: r)) => l = a :: r | _ => own = Some l end.

(** What the options of a new type are, from the keyword arguments. *)
Record options_mean (kw : kwds) (o : fopts) : Prop := {
  om_optional : dget (k "required") kw = None -> fo_required o = false;
  om_required : forall v, dget (k "required") kw = Some (AVal v) -> fo_required o = truthy v;
  om_required_class : forall c, dget (k "required") kw = Some (AClass c) -> fo_required o = true;
  om_no_default : dget (k "default") kw = None -> fo_default o = VUndef;
  om_default : forall v, dget (k "default") kw = Some (AVal v) -> fo_default o = v;
  om_unnamed : dget (k "serialized_name") kw = None -> fo_sname o = None;
  om_sname : forall s, dget (k "serialized_name") kw = Some (AVal (VStr s)) -> fo_sname o = Some (KStr s);
  om_no_sources : dget (k "deserialize_from") kw = None -> fo_dfrom o = [];
  om_source : forall s, dget (k "deserialize_from") kw = Some (AVal (VStr s)) -> fo_dfrom o = [KStr s];
  om_sources : forall l, dget (k "deserialize_from") kw = Some (AVal (VList (map VStr l))) \/
      dget (k "deserialize_from") kw = Some (AVal (VTuple (map VStr l))) -> fo_dfrom o = map KStr l;
  om_level : forall z, dget (k "export_level") kw = Some (AVal (VInt z)) -> fo_level o = Some z;
  om_when_none : dget (k "export_level") kw = None -> forall b, dget (k "serialize_when_none") kw = Some (AVal (VBool b)) ->
      fo_level o = Some (if b then DEFAULT else NONEMPTY);
  om_no_level : dget (k "export_level") kw = None -> dget (k "serialize_when_none") kw = None -> fo_level o = None }.
