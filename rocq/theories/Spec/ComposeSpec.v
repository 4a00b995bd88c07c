(** Parts of an instance, and where their exported forms are in the export. *)
From Verif.Model Require Import Py Core Export.
From Verif.Spec Require Import ImportSpec ExportSpec IndependSpec.

(** A field whose values are instances. *)
Definition instance_field (f : fspec) : Prop := match fs_type f with TModel _ | TPoly _ => True | _ => False end.

Section Parts.
  Context (E : env) (x : ectx).

  (** [part_at f p v g u]: in a value [v] of field [f] there is the value [u] at the place [p]; the field for that place is [g].
      Lists are entered only if all their elements are exported, so that positions are kept. *)
  Inductive part_at : fspec -> place -> pyval -> fspec -> pyval -> Prop :=
  | pa_here f v : part_at f [] v f v
  | pa_field f n h p c m g u : instance_field f -> In (n, h) (fields_of E c) ->
      part_at (fd_spec h) p (reading E (VModel c m) n) g u -> part_at f (SField n :: p) (VModel c m) g u
  | pa_item o h i p l a g u : writes_none E h x -> nth_error l i = Some a -> part_at h p a g u ->
      part_at (FS o (TList h)) (SItem i :: p) (VList l) g u
  | pa_entry o h ck y p d a g u : NoDup (dkeys d) -> dget y d = Some a -> part_at h p a g u ->
      part_at (FS o (TDict h ck)) (SEntry y :: p) (VDict d) g u.

  (** Two values of a field that are the same at a place, with instances of the same classes on the way. *)
  Inductive same_part : fspec -> place -> pyval -> pyval -> Prop :=
  | sp_same f p v : same_part f p v v
  | sp_field f n h p c m m' : instance_field f -> In (n, h) (fields_of E c) ->
      same_part (fd_spec h) p (reading E (VModel c m) n) (reading E (VModel c m') n) -> same_part f (SField n :: p) (VModel c m) (VModel c m')
  | sp_item o h i p l l' a b : writes_none E h x -> nth_error l i = Some a -> nth_error l' i = Some b -> same_part h p a b ->
      same_part (FS o (TList h)) (SItem i :: p) (VList l) (VList l')
  | sp_entry o h ck y p d e a b : NoDup (dkeys d) -> NoDup (dkeys e) -> dget y d = Some a -> dget y e = Some b -> same_part h p a b ->
      same_part (FS o (TDict h ck)) (SEntry y :: p) (VDict d) (VDict e).
End Parts.

(** What stands in the export [w] of [v] for the place [p] of [v]: fields are found under their public names. *)
Fixpoint out_at (E : env) (p : place) (v w : pyval) : option pyval :=
  match p with
  | [] => Some w
  | SField n :: q =>
      match v, w with
      | VModel c m, VDict r =>
          match dget n (fields_of E c) with
          | Some f => match dget (public_name n f) r with Some w' => out_at E q (reading E v n) w' | None => None end
          | None => None
          end
      | _, _ => None
      end
  | SItem i :: q =>
      match v, w with
      | VList l, VList r => match nth_error l i, nth_error r i with Some a, Some w' => out_at E q a w' | _, _ => None end
      | _, _ => None
      end
  | SEntry y :: q =>
      match v, w with
      | VDict d, VDict r => match dget y d, dget y r with Some a, Some w' => out_at E q a w' | _, _ => None end
      | _, _ => None
      end
  end.

(** Roles that look at names only, as those made by [whitelist] and [blacklist] do. *)
Definition name_roles (E : env) (x : ectx) : Prop :=
  forall c filt n v v', role_in_force E c x filt -> hidden filt n v -> hidden filt n v'.

(** A field that holds an instance of a class, without options. *)
Definition holder (c : cid) : fspec := FS (FO false false VUndef None [] [] None None) (TModel c).

(** [w] is what exporting [u] on its own gives; None and absent values are None. *)
Definition own_form (E : env) (x : ectx) (g : fspec) (u w : pyval) : Prop :=
  exists w0, (is_nil u = true /\ w0 = u \/ exists j, export_at E j g u x = Ok w0) /\ (w = w0 \/ w0 = VUndef /\ w = VNone).

(** An export that leaves nothing out: no role hides anything, and the call gives a level that shows absent values too. *)
Definition open_export (E : env) (x : ectx) : Prop :=
  (forall c filt n v, role_in_force E c x filt -> ~ hidden filt n v) /\ exists l, ec_level x = Some l /\ (10 < l)%Z.
