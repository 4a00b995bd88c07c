(** What validation does with settable computed fields. *)
From Verif.Model Require Import Py Core Api.
From Verif.Spec Require Import CallSpec ImportSpec.

Section Settle.
  Context (E : env) (r : conv) (c : cid) (x : ictx).

  (** The instance holds a new value for the field. *)
  Definition holds (m : mdata pyval) (n : key) (v : pyval) : Prop := dget n (md_converted m) = Some v /\ v <> VUndef.
  (** What a setter is given for the value [v]: its conversion, in the form in which it is stored. *)
  Definition handed (f : fspec) (v : pyval) : res pyval :=
    match cv_field r f v x with Ok u => cv_pre r f u | Raise e => Raise e end.
  (** The setter [s] of field [f] is tried on an instance that holds [v]: what becomes of the instance, and the exception. *)
  Inductive tried (s : pyval -> pyval -> pyval * option exn) (f : fspec) (m : mdata pyval) (v : pyval)
    : mdata pyval -> option exn -> Prop :=
  | tr_unfit e : handed f v = Raise e -> tried s f m v m (Some e)
  | tr_run u m1 oe : handed f v = Ok u -> s (VModel c m) u = (VModel c m1, oe) -> tried s f m v m1 oe.
  Definition ignored (e : exn) : Prop := e = XPy EAttributeError \/ e = XPy EUndefinedValueError.

  (** The setters are run one after the other, each on the instance as it then is; errors are collected under public names. *)
  Inductive settles : list (key * field) -> mdata pyval -> list (key * errnode) -> mdata pyval -> list (key * errnode) -> Prop :=
  | se_end m errs : settles [] m errs m errs
  | se_skip n f fs m errs m' errs' : fd_set f = None \/ (forall v, ~ holds m n v) ->
      settles fs m errs m' errs' -> settles ((n, f) :: fs) m errs m' errs'
  | se_done n f fs s v m errs m1 oe m' errs' : fd_set f = Some s -> holds m n v -> tried s (fd_spec f) m v m1 oe ->
      oe = None \/ (exists e, oe = Some e /\ ignored e) ->
      settles fs m1 errs m' errs' -> settles ((n, f) :: fs) m errs m' errs'
  | se_refused n f fs s v m errs m1 e m' errs' : fd_set f = Some s -> holds m n v -> tried s (fd_spec f) m v m1 (Some e) ->
      collectable e = true ->
      settles fs m1 (dset (public_name n f) (shown_error e) errs) m' errs' -> settles ((n, f) :: fs) m errs m' errs'.
  (** An exception that is none of these ends it. *)
  Inductive breaks : list (key * field) -> mdata pyval -> exn -> Prop :=
  | br_here n f fs s v m m1 e : fd_set f = Some s -> holds m n v -> tried s (fd_spec f) m v m1 (Some e) ->
      collectable e = false -> ~ ignored e -> breaks ((n, f) :: fs) m e
  | br_skip n f fs m e : fd_set f = None \/ (forall v, ~ holds m n v) -> breaks fs m e -> breaks ((n, f) :: fs) m e
  | br_later n f fs s v m m1 oe e : fd_set f = Some s -> holds m n v -> tried s (fd_spec f) m v m1 oe ->
      oe = None \/ (exists e', oe = Some e' /\ (ignored e' \/ collectable e' = true)) ->
      breaks fs m1 e -> breaks ((n, f) :: fs) m e.
End Settle.

(** The entries of a dictionary that are not Undefined. *)
Definition defined_part (d : list (key * pyval)) : list (key * pyval) := filter (fun p => negb (is_undef (snd p))) d.
(** What is validated after the setters have left the instance as [m], whose readable values are [items]. *)
Definition settled_data (m : mdata pyval) (items : list (key * pyval)) : list (key * pyval) :=
  defined_part (dupdate (md_converted m) items).
(** An instance as Python code may leave it: no lazily stored data, keys distinct, Undefined stored for fields only. *)
Definition well_kept (fs : list (key * field)) (m : mdata pyval) : Prop :=
  md_unsafe m = [] /\ NoDup (dkeys (md_converted m)) /\ forall y, dget y (md_converted m) = Some VUndef -> In y (dkeys fs).
