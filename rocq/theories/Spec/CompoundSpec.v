(** What converting the elements of a list or dictionary means. *)
From Verif.Model Require Import Py Core.
From Verif.Spec Require Import ImportSpec.

(** [converter g v x]: the conversion of one element. *)
Definition converter := fspec -> pyval -> ictx -> res pyval.

(** The elements of a value that counts as a list: a list, a tuple, bytes (their numbers), a model instance (its keys). *)
Definition elements (E : env) (v : pyval) : option (list pyval) :=
  match v with
  | VList l | VTuple l => Some l
  | VBytes b => Some (map (fun c => VInt (Z.of_N c)) b)
  | VModel c m => Some (map key_val (model_iter E c m))
  | _ => None
  end.

(** Every element converts, in order. *)
Definition all_convert (fc : converter) (g : fspec) (x : ictx) : list pyval -> list pyval -> Prop :=
  Forall2 (fun v w => fc g v x = Ok w).

(** Element [i] is rejected with a schematics error [e]. *)
Definition rejected_at (fc : converter) (g : fspec) (x : ictx) (l : list pyval) (i : nat) (e : exn) : Prop :=
  exists v, nth_error l i = Some v /\ fc g v x = Raise e /\ collectable e = true.

(** No element raises an exception that is not a schematics error. *)
Definition no_crash (fc : converter) (g : fspec) (x : ictx) (l : list pyval) : Prop :=
  forall v e, In v l -> fc g v x = Raise e -> collectable e = true.

(** An entry of a mapping converts: the value first, then the key. *)
Definition entry_converts (fc : converter) (g : fspec) (ck : key -> res key) (x : ictx)
    (p : key * pyval) (p' : key * pyval) : Prop :=
  fc g (snd p) x = Ok (snd p') /\ ck (fst p) = Ok (fst p').
(** An entry is rejected. *)
Definition entry_rejected (fc : converter) (g : fspec) (ck : key -> res key) (x : ictx)
    (p : key * pyval) (e : exn) : Prop :=
  fc g (snd p) x = Raise e \/ (exists w, fc g (snd p) x = Ok w) /\ ck (fst p) = Raise e.

(** ** List sizes *)

(** [n] respects the bounds; a bound that is not given does not restrict. *)
Definition within (mn mx : option Z) (n : Z) : Prop :=
  (forall a, mn = Some a -> (a <= n)%Z) /\ (forall b, mx = Some b -> (n <= b)%Z).

(** ** Unions *)

(** A member refuses a value by raising a conversion error; [cvt] tells what members do with values. *)
Definition refuses (cvt : fspec -> pyval -> res pyval) (m : fspec) (v : pyval) : Prop := exists ms, cvt m v = Raise (XConv ms).

(** [m] is the first member that does not refuse [v]. *)
Definition first_open (cvt : fspec -> pyval -> res pyval) (ms : list fspec) (v : pyval) (m : fspec) : Prop :=
  exists pre post, ms = pre ++ m :: post /\ Forall (fun m' => refuses cvt m' v) pre /\ ~ refuses cvt m v.

(** What a member that is not a compound type or a union does. *)
Definition leaf_convert (m : fspec) (v : pyval) : res pyval :=
  match fs_type m with TLeaf l => lf_native l v | _ => Raise XFuel end.

(** ** Polymorphic fields *)

(** The classes a polymorphic field may hold. *)
Definition permitted (E : env) (p : polyspec) (c : cid) : Prop :=
  In c (po_classes p) \/ po_allow_sub p = true /\ exists d, In d (po_classes p) /\ e_issub E c d = true.

(** [get_all_subclasses] lists subclasses only. *)
Definition honest_subs (E : env) : Prop := forall c d, In d (e_subs E c) -> e_issub E d c = true.

(** Class [c] claims the data. *)
Definition claims (E : env) (v : pyval) (c : cid) : Prop :=
  exists cl, mc_claim (e_class E c) = Some cl /\ cl v = Ok true.
Definition declines (E : env) (v : pyval) (c : cid) : Prop :=
  exists cl, mc_claim (e_class E c) = Some cl /\ cl v = Ok false.
(** Class [c] leaves the question open. *)
Definition no_hook (E : env) (c : cid) : Prop := mc_claim (e_class E c) = None.

(** The classes considered, in order: the declared ones, each followed by its subclasses if allowed. *)
Inductive considered (E : env) (sub : bool) : list cid -> list cid -> Prop :=
| con_nil : considered E sub [] []
| con_cons c cs l : considered E sub cs l -> considered E sub (c :: cs) (c :: (if sub then e_subs E c else []) ++ l).

(** The claiming classes among [cs], in order; every hook answers. *)
Inductive claimants (E : env) (v : pyval) : list cid -> list cid -> Prop :=
| cl_nil : claimants E v [] []
| cl_yes c cs l : claims E v c -> claimants E v cs l -> claimants E v (c :: cs) (c :: l)
| cl_no c cs l : declines E v c -> claimants E v cs l -> claimants E v (c :: cs) l
| cl_open c cs l : no_hook E c -> claimants E v cs l -> claimants E v (c :: cs) l.

(** The first class without a hook. *)
Definition first_open_class (E : env) (cs : list cid) (c : cid) : Prop :=
  exists pre post, cs = pre ++ c :: post /\ no_hook E c /\ Forall (fun d => ~ no_hook E d) pre.

(** Setters that leave the class of the instance as it is. *)
Definition proper_setters (E : env) (c : cid) : Prop :=
  forall n f fset, In (n, f) (mc_fields (e_class E c)) -> fd_set f = Some fset ->
    forall m w, exists m', fst (fset (VModel c m) w) = VModel c m'.
