(** The fragment of Python the model needs: text, insertion ordered dictionaries,
    values, exceptions.  Models the runtime that /repo/schematics relies on
    (CPython 3 data model), not a file of the repository, except where cited. *)
From Coq Require Export String Ascii ZArith NArith Lia Bool List.
From Coq Require Export Floats.SpecFloat.
Export ListNotations.
Open Scope list_scope.

(** ** Text *)

(** Python [str]: a sequence of code points.  (CPython runtime; no line in /repo.) *)
Definition pstr := list N.

(** Source text literal (ASCII only) as [pstr].  Notation helper, models string literals. *)
Definition u (s : string) : pstr := map N_of_ascii (list_ascii_of_string s).

(** Equality of [str] values. (runtime) *)
Fixpoint pstr_eqb (a b : pstr) : bool :=
  match a, b with
  | [], [] => true
  | x :: a', y :: b' => N.eqb x y && pstr_eqb a' b'
  | _, _ => false
  end.

(** ** Dictionary keys *)

(** Keys of the dictionaries that occur: field names (str) and list indices / user
    keys (int).  Other hashable keys are not modelled. (runtime) *)
Inductive key := KStr (s : pstr) | KInt (z : Z).

(** [k "name"] is the key for a literal field name. *)
Definition k (s : string) : key := KStr (u s).

(** Equality of keys. (runtime) *)
Definition key_eqb (a b : key) : bool :=
  match a, b with
  | KStr x, KStr y => pstr_eqb x y
  | KInt x, KInt y => Z.eqb x y
  | _, _ => false
  end.

(** ** Insertion ordered dictionaries (CPython 3.7+ [dict], [OrderedDict]) *)
Section Dict.
  Context {A : Type}.

  (** [d.get(k)] (runtime) *)
  Fixpoint dget (x : key) (d : list (key * A)) : option A :=
    match d with
    | [] => None
    | (y, v) :: r => if key_eqb x y then Some v else dget x r
    end.

  (** [k in d] (runtime) *)
  Definition dmem (x : key) (d : list (key * A)) : bool :=
    match dget x d with Some _ => true | None => false end.

  (** [d[k] = v]: an existing key keeps its position (runtime) *)
  Fixpoint dset (x : key) (v : A) (d : list (key * A)) : list (key * A) :=
    match d with
    | [] => [(x, v)]
    | (y, w) :: r => if key_eqb x y then (y, v) :: r else (y, w) :: dset x v r
    end.

  (** [d.pop(k, None)] / [del d[k]] without the KeyError (runtime) *)
  Fixpoint ddel (x : key) (d : list (key * A)) : list (key * A) :=
    match d with
    | [] => []
    | (y, w) :: r => if key_eqb x y then r else (y, w) :: ddel x r
    end.

  (** [d.update(e)] (runtime) *)
  Definition dupdate (d e : list (key * A)) : list (key * A) :=
    fold_left (fun acc p => dset (fst p) (snd p) acc) e d.

  (** [list(d)] (runtime) *)
  Definition dkeys (d : list (key * A)) : list key := map fst d.
End Dict.

(** Membership of a key in a list of keys ([k in [..]]). (runtime) *)
Definition kmem (x : key) (l : list key) : bool := existsb (key_eqb x) l.

(** ** Values *)

(** Civil date and time fields of [datetime.date]/[datetime.datetime]. (runtime) *)
Record pydate := PyDate { d_year : Z; d_month : Z; d_day : Z }.
(** The same for times. (runtime) *)
Record pytime := PyTime { t_hour : Z; t_minute : Z; t_second : Z; t_micro : Z }.

(** The layers of a model instance's [_data], schematics/models.py 148-198 (ModelDict).
    [md_hidden] is the private reference [__valid] (line 155): [None] while it is still
    the same object as the visible valid layer, [Some d] once the [valid] setter
    (lines 181-184) has bound the visible layer to another object. *)
Record mdata (A : Type) := MD {
  md_unsafe : list (key * A);
  md_converted : list (key * A);
  md_valid : list (key * A);
  md_hidden : option (list (key * A)) }.
Arguments MD {A}.
Arguments md_unsafe {A}.
Arguments md_converted {A}.
Arguments md_valid {A}.
Arguments md_hidden {A}.

(** Identity of a model class. *)
Definition cid := N.
Bind Scope N_scope with cid.

(** Python values.  [VUndef] is schematics/undefined.py's [Undefined] singleton.
    A [datetime] carries its [utcoffset()] in seconds, [None] when naive
    (tzinfo objects are represented by the offset they yield at that time).
    [VTimedelta] is the number of microseconds.  [VUUID] is the 128 bit integer.
    [VDecimal] is coefficient and exponent of a finite decimal.  [VEnum c n v] is the
    member named [n] with (string or integer) value [v] of enumeration [c].
    [VObj] is any other object. *)
Inductive pyval :=
| VNone
| VUndef
| VBool (b : bool)
| VInt (z : Z)
| VFloat (f : spec_float)
| VStr (s : pstr)
| VBytes (s : list N)
| VList (l : list pyval)
| VTuple (l : list pyval)
| VDict (d : list (key * pyval))
| VModel (c : cid) (m : mdata pyval)
| VDate (d : pydate)
| VDateTime (d : pydate) (t : pytime) (off : option Z)
| VTimedelta (us : Z)
| VUUID (n : N)
| VDecimal (coef : Z) (exp : Z)
| VEnum (c : N) (n : pstr) (v : key)
| VObj (n : N).

(** A dictionary key seen as a value. (runtime) *)
Definition key_val (x : key) : pyval :=
  match x with KStr s => VStr s | KInt z => VInt z end.

(** [value is Undefined], [value is None], and the test
    [value is None or value is Undefined] (transforms.py 381, base.py 336). *)
Definition is_undef (v : pyval) : bool := match v with VUndef => true | _ => false end.
(** [value is None]. *)
Definition is_none (v : pyval) : bool := match v with VNone => true | _ => false end.
(** [value is None or value is Undefined]. *)
Definition is_nil (v : pyval) : bool := is_none v || is_undef v.

(** ** Exceptions *)

(** Exceptions that are not schematics errors with error payload.
    [UndefinedValueError] and [UnknownFieldError] are exceptions.py 240-251.
    [GenericException] is a bare [Exception] (compound.py 408, 431, 439). *)
Inductive pyexc :=
| EAttributeError | EKeyError | ETypeError | EValueError | EIndexError | EOverflowError
| EUndefinedValueError | EUnknownFieldError | EGenericException | EZeroDivisionError.

(** [except AttributeError] also catches UndefinedValueError (exceptions.py 240). *)
Definition is_attribute_error (e : pyexc) : bool :=
  match e with EAttributeError | EUndefinedValueError => true | _ => false end.

(** One error message: the text or the key of the message template (formatting of
    arguments is not modelled; exceptions.py 101-146 is modelled in Errors.v). *)
Definition emsg := pstr.

(** The payload stored under a key of an error dictionary (exceptions.py 215-225):
    a field error (list of messages), a plain string ('Rogue field', transforms.py 114),
    or the dictionary of a nested compound error. *)
Inductive errnode :=
| NConv (ms : list emsg)
| NValid (ms : list emsg)
| NMsgs (ms : list emsg)
| NText (m : emsg)
| NDict (d : list (key * errnode)).

(** Raised exceptions.  exceptions.py: XConv = ConversionError 200-202,
    XValid false = ValidationError 205-207, XValid true = StopValidationError 210-212,
    XCompound = CompoundError 215-225, XData = DataError 228-232 (with partial_data).
    XFuel stands for Python's RecursionError. *)
Inductive exn :=
| XConv (ms : list emsg)
| XValid (stop : bool) (ms : list emsg)
| XCompound (errs : list (key * errnode))
| XData (errs : list (key * errnode)) (partial : list (key * pyval))
| XPy (e : pyexc)
| XFuel.

(** Result of a Python call. *)
Inductive res (A : Type) := Ok (a : A) | Raise (e : exn).
Arguments Ok {A}.
Arguments Raise {A}.

(** Sequencing of calls: an exception propagates. (runtime) *)
Definition rbind {A B} (r : res A) (f : A -> res B) : res B :=
  match r with Ok a => f a | Raise e => Raise e end.

(** [except (FieldError, CompoundError)] (transforms.py 154, 193). *)
Definition caught_by_loop (e : exn) : bool :=
  match e with XConv _ | XValid _ _ | XCompound _ | XData _ _ => true | XPy _ | XFuel => false end.

(** What CompoundError.__init__ stores for an exception (exceptions.py 215-225). *)
Definition err_node (e : exn) : errnode :=
  match e with
  | XConv ms => NConv ms
  | XValid _ ms => NValid ms
  | XCompound d => NDict d
  | XData d _ => NDict d
  | XPy _ | XFuel => NText []
  end.

(** Truth value of an object.  A model instance has [__len__] (models.py 405) =
    number of distinct keys in the layers of [_data]. (runtime) *)
Definition nonempty {A} (l : list A) : bool := match l with [] => false | _ => true end.
(** [bool(value)]. (runtime; undefined.py 25 for Undefined) *)
Definition truthy (v : pyval) : bool :=
  match v with
  | VNone | VUndef => false
  | VBool b => b
  | VInt z => negb (Z.eqb z 0)
  | VFloat (S754_zero _) => false
  | VFloat _ => true
  | VStr s => nonempty s
  | VBytes s => nonempty s
  | VList l => nonempty l
  | VTuple l => nonempty l
  | VDict d => nonempty d
  | VModel _ m => nonempty (md_unsafe m) || nonempty (md_converted m) || nonempty (md_valid m)
  | VTimedelta us => negb (Z.eqb us 0)
  | VDecimal c _ => negb (Z.eqb c 0)
  | VDate _ | VDateTime _ _ _ | VUUID _ | VEnum _ _ _ | VObj _ => true
  end.
