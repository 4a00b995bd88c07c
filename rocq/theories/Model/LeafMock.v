(** Mock values of the types that are not compound, schematics/types/base.py.  The random choices are arguments: numbers
    with the limits given in Spec/MockSpec.v. *)
From Verif.Model Require Import Py Core Num Types Mock Calendar DateTime.
From Coq Require Import SpecFloat.
Local Open Scope Z_scope.

(** UUIDType._mock, base.py 369-370: [n] is the random integer of [uuid.uuid4()]. *)
Definition uuid_mock (n : N) : pyval := VUUID n.
(** HashType._mock, base.py 567-568: [pick i] is the [i]-th character chosen from [string.hexdigits]. *)
Definition hash_mock (pick : nat -> N) (len : nat) : pyval := VStr (random_string pick (Z.of_nat len)).
(** BooleanType._mock, base.py 618-619. *)
Definition bool_mock (b : bool) : pyval := VBool b.
(** The date of base.py 666-670 and 808-810: [y], [m], [d] are [randrange(600)], [randrange(12)], [randrange(28)]. *)
Definition mock_date (y m d : Z) : pydate := PyDate (y + 1900) (m + 1) (d + 1).
(** DateType._mock, base.py 665-670. *)
Definition date_mock (y m d : Z) : pyval := VDate (mock_date y m d).
(** DateTimeType._mock, base.py 806-824: [t] is the random time of lines 811-814, [naive] is [random.randrange(2)] of
    line 818, [hours] and [minutes] those of the time zone, lines 823-824 (offset_timezone, lines 777-780). *)
Definition dt_mock (o : dt_opts) (y m d : Z) (t : pytime) (naive : bool) (hours minutes : Z) : pyval :=
  let policy_is p := match dt_policy o, p with
                     | Reject_tz, Reject_tz | Allow_tz, Allow_tz => true | _, _ => false end in
  if policy_is Reject_tz || dt_drop o || policy_is Allow_tz && naive then VDateTime (mock_date y m d) t None
  else if dt_convert o then VDateTime (mock_date y m d) t (Some 0)
  else VDateTime (mock_date y m d) t (Some (hours * 3600 + minutes * 60)).
(** TimedeltaType._mock, base.py 1010-1011: [us] is the number of microseconds of [random.random() * 1000] seconds. *)
Definition delta_mock (us : Z) : pyval := VTimedelta us.
(** GeoPointType._mock, base.py 1039-1040. *)
Definition geo_mock (lat lon : Z) : pyval := VTuple [VInt lat; VInt lon].
(** FloatType: NumberType._mock, base.py 464-468; [uniform a b] is [random.uniform(a, b)].  The limits are integers
    here. *)
Definition float_mock (uniform : Z -> Z -> spec_float) (lo hi : option Z) : option pyval :=
  match range_endpoints lo hi 0 0 with Some (a, b) => Some (VFloat (uniform a b)) | None => None end.
(** DecimalType: the same with [decimal.Decimal(number)], whose value is exactly that of the float. (runtime) *)
Definition decimal_mock (uniform : Z -> Z -> Z * Z) (lo hi : option Z) : option pyval :=
  match range_endpoints lo hi 0 0 with
  | Some (a, b) => let '(c, e) := uniform a b in Some (VDecimal c e)
  | None => None
  end.
(** MultilingualStringType._mock, base.py 1121-1122. *)
Definition multi_mock (draw : Z -> Z -> Z) (pick : nat -> N) (lo hi : option Z) : option pyval :=
  match value_in draw lo hi 0 0 with Some n => Some (VStr (random_string pick n)) | None => None end.
