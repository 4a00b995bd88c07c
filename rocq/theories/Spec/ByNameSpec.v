(** What is expected of models given by name (C75). *)
From Verif.Model Require Import Py Core Meta ByName.

(** ** Names *)

(** A text without a dot, and a text continued by parts after dots. *)
Definition no_dot (x : pstr) : Prop := ~ In 46%N x.
Definition dotted (m : pstr) (path : list pstr) : pstr := m ++ flat_map (fun x => 46%N :: x) path.

(** A name written with colons, with dots instead. *)
Definition with_dots (s : pstr) : pstr := map (fun c => if N.eqb c 58%N then 46%N else c) s.

(** Attributes of attributes. *)
Fixpoint attribute (I : importer) (o : pobj) (path : list pstr) : option pobj :=
  match path with
  | [] => Some o
  | x :: r => match im_attr I o x with Some o' => attribute I o' r | None => None end
  end.

(** None of the modules [m.x1], [m.x1.x2], ... can be found. *)
Definition none_below (I : importer) (m : pstr) (path : list pstr) : Prop :=
  forall p q, path = p ++ q -> p <> [] -> im_module I (dotted m p) = NotFound.

(** [m] is the longest part of the name whose import does not end in ImportError, the path is the rest. *)
Record longest (I : importer) (name m : pstr) (path : list pstr) : Prop := {
  lo_name : name = dotted m path;
  lo_parts : Forall no_dot path;
  lo_below : none_below I m path;
  lo_found : im_module I m <> NotFound }.

(** ** References *)

(** [b] is [a] or an element field inside it. *)
Inductive holds (h : list nkind) : addr -> addr -> Prop :=
| ho_self a : holds h a a
| ho_box a i b : nth_error h a = Some (NBox i) -> holds h i b -> holds h a b.

(** An object that calling a type class can make. *)
Definition fresh (P : nprogram) (t : nkind) : Prop :=
  match t with
  | NModel None _ => True
  | NModel (Some (PClass c)) x => exists kl, nclass_at P c = Some kl /\ nc_name kl = x
  | NModel (Some _) _ => False
  | NPoly l => forall c, In (inr c) l -> nclass_at P c <> None
  | NBox i => i < length (np_heap P)
  | NUnion ms => forall a, In a ms -> a < length (np_heap P)
  | NPlain => True
  end.

(** A class statement that can be written: its bases are finished classes, its body consists of existing objects. *)
Record writable (P : nprogram) (bases : list cid) (attrs : list (key * addr)) : Prop := {
  wr_bases : forall b, In b bases -> exists kl, nclass_at P b = Some kl /\ nc_done kl = true;
  wr_names : NoDup (dkeys attrs);
  wr_objects : forall x a, In (x, a) attrs -> a < length (np_heap P) }.

(** What programs do: calls of types, class statements (also failing ones), uses of fields; [W] are the states the import
    system may be in meanwhile. *)
Inductive nstep (W : importer -> Prop) : nprogram -> nprogram -> Prop :=
| ns_type P t : fresh P t -> nstep W P (nnew P t)
| ns_class P name bases attrs P' e :
    writable P bases attrs -> nclass P name bases attrs = (P', e) -> nstep W P P'
| ns_use I P a P' r : W I -> nuse I P a = (P', r) -> nstep W P P'.

(** The programs there are, and what may become of a program. *)
Inductive nlater (W : importer -> Prop) (P : nprogram) : nprogram -> Prop :=
| nl_here : nlater W P P
| nl_step Q R : nlater W P Q -> nstep W Q R -> nlater W P R.
Definition nmade (W : importer -> Prop) (P : nprogram) : Prop := nlater W (NProg [] [NCls (u "Model") [] [] true]) P.

(** The identity of the next class, the field objects of a class, and the objects its fields consist of. *)
Definition nnext (P : nprogram) : cid := N.of_nat (length (np_classes P)).
Definition field_obj (P : nprogram) (c : cid) (x : key) : option addr :=
  match nclass_at P c with Some kl => dget x (nc_fields kl) | None => None end.
Definition part_of (P : nprogram) (c : cid) (b : addr) : Prop :=
  exists x a, field_obj P c x = Some a /\ holds (np_heap P) a b.

(** The first of the bases that has the field, as [bases] gives them. *)
Inductive first_base (P : nprogram) (x : key) : list cid -> addr -> Prop :=
| fb_here b r a : field_obj P b x = Some a -> first_base P x (b :: r) a
| fb_next b r a : field_obj P b x = None -> first_base P x r a -> first_base P x (b :: r) a.

(** Where a field of a new class comes from: the body of the class statement, or else the first base that has it. *)
Definition source (P : nprogram) (bases : list cid) (attrs : list (key * addr)) (x : key) (a : addr) : Prop :=
  dget x attrs = Some a \/ dget x attrs = None /\ first_base P x bases a.
