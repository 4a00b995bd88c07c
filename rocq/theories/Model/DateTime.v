(** DateType, DateTimeType, UTCDateTimeType, TimestampType and TimedeltaType (schematics/types/base.py 637-1023). *)
From Verif.Model Require Import Py Core Num Calendar Text Types.
Local Open Scope N_scope.

(** ** Text of dates (CPython strptime, strftime, re) *)

(** [\d] of [re]: a Unicode decimal digit; its value is that of [int(...)]. *)
Definition take_digit (U : unicode) (s : pstr) : option (Z * pstr) :=
  match s with
  | c :: r => match udigit U c with Some v => Some (Z.of_N v, r) | None => None end
  | [] => None
  end.
(** [\d{n}], and the number it writes (after [acc]). *)
Fixpoint take_digits (U : unicode) (n : nat) (acc : Z) (s : pstr) : option (Z * pstr) :=
  match n with
  | O => Some (acc, s)
  | S n => match take_digit U s with
           | Some (v, r) => take_digits U n (acc * 10 + v)%Z r
           | None => None
           end
  end.
(** One given character. *)
Definition take_char (x : N) (s : pstr) : option pstr :=
  match s with c :: r => if c =? x then Some r else None | [] => None end.
(** The character is an ASCII digit between two limits. *)
Definition digit_in (a b : N) (s : pstr) : option (Z * pstr) :=
  match s with
  | c :: r => if (48 + a <=? c) && (c <=? 48 + b) then Some (Z.of_N (c - 48), r) else None
  | [] => None
  end.
(** [option] chaining. *)
Definition obind {A B} (o : option A) (f : A -> option B) : option B := match o with Some x => f x | None => None end.

(** [%m] followed by a dash: [1[0-2]|0[1-9]|[1-9]] (CPython Lib/_strptime.py TimeRE). *)
Definition month_dash (s : pstr) : option (Z * pstr) :=
  match obind (digit_in 1 1 s) (fun '(_, r) => obind (digit_in 0 2 r) (fun '(v, r) => obind (take_char 45 r) (fun r => Some ((10 + v)%Z, r)))) with
  | Some x => Some x
  | None =>
      match obind (digit_in 0 0 s) (fun '(_, r) => obind (digit_in 1 9 r) (fun '(v, r) => obind (take_char 45 r) (fun r => Some (v, r)))) with
      | Some x => Some x
      | None => obind (digit_in 1 9 s) (fun '(v, r) => obind (take_char 45 r) (fun r => Some (v, r)))
      end
  end.
(** [%d]: [3[0-1]|[1-2]\d|0[1-9]|[1-9]| [1-9]], the first alternative that fits. *)
Definition day_part (U : unicode) (s : pstr) : option (Z * pstr) :=
  match obind (digit_in 3 3 s) (fun '(_, r) => obind (digit_in 0 1 r) (fun '(v, r) => Some ((30 + v)%Z, r))) with
  | Some x => Some x
  | None =>
  match obind (digit_in 1 2 s) (fun '(t, r) => obind (take_digit U r) (fun '(v, r) => Some ((10 * t + v)%Z, r))) with
  | Some x => Some x
  | None =>
  match obind (digit_in 0 0 s) (fun '(_, r) => digit_in 1 9 r) with
  | Some x => Some x
  | None =>
  match digit_in 1 9 s with
  | Some x => Some x
  | None => obind (take_char 32 s) (digit_in 1 9)
  end end end end.
(** [datetime.strptime(text, '%Y-%m-%d').date()]; [None] is ValueError. *)
Definition ymd_parse (U : unicode) (s : pstr) : option pydate :=
  obind (take_digits U 4 0 s) (fun '(y, r) =>
  obind (take_char 45 r) (fun r =>
  obind (month_dash r) (fun '(m, r) =>
  obind (day_part U r) (fun '(d, r) =>
  match r with
  | [] => if valid_date (PyDate y m d) then Some (PyDate y m d) else None
  | _ => None
  end)))).

(** Two or more decimal digits with leading zeros ([%02d]). *)
Definition two_digits (z : Z) : pstr := padded 2 10 (Z.to_N z).
(** [%Y] of [strftime]. *)
Definition year_text (R : runtime) (y : Z) : pstr :=
  if rt_pad_year R then padded 4 10 (Z.to_N y) else nat_text 10 (Z.to_N y).
(** [date.strftime('%Y-%m-%d')]. *)
Definition ymd_text (R : runtime) (d : pydate) : pstr :=
  (year_text R (d_year d) ++ 45 :: two_digits (d_month d) ++ 45 :: two_digits (d_day d))%list.

(** ** DateType, base.py 637-687 *)

(** The formats given by the user, base.py 678-682: the first that parses.  A format is the function
    [datetime.strptime(., format)], where [None] is ValueError or TypeError. *)
Fixpoint first_format {A} (fmts : list (pyval -> option A)) (v : pyval) : option A :=
  match fmts with
  | [] => None
  | f :: r => match f v with Some x => Some x | None => first_format r v end
  end.
(** The default format, base.py 658. *)
Definition ymd_format (U : unicode) (v : pyval) : option pydate :=
  match v with VStr s => ymd_parse U s | _ => None end.
(** base.py 654-659: [formats] or the default. *)
Definition date_formats (U : unicode) (fmts : list (pyval -> option pydate)) : list (pyval -> option pydate) :=
  match fmts with [] => [ymd_format U] | _ => fmts end.
(** to_native, base.py 672-684. *)
Definition date_native (R : runtime) (fmts : list (pyval -> option pydate)) (v : pyval) : res pyval :=
  match v with
  | VDateTime d _ _ => Ok (VDate d)
  | VDate _ => Ok v
  | _ => match first_format (date_formats (rt_uni R) fmts) v with
         | Some d => Ok (VDate d)
         | None => conv_err "parse"
         end
  end.
(** to_primitive, base.py 686-687: only dates and datetimes have [strftime]. *)
Definition date_prim (R : runtime) (v : pyval) : res pyval :=
  match v with
  | VDate d | VDateTime d _ _ => Ok (VStr (ymd_text R d))
  | _ => Raise (XPy EAttributeError)
  end.
(** The class, base.py 637-663. *)
Definition date_type (R : runtime) (fmts : list (pyval -> option pydate)) : leaf := Leaf (date_native R fmts) (date_prim R).

(** ** DateTimeType, base.py 690-938 *)

(** A datetime: date, time and [utcoffset()] in seconds. *)
Definition dt : Type := pydate * pytime * option Z.
(** The datetime as a value. *)
Definition dt_val (x : dt) : pyval := let '(d, t, o) := x in VDateTime d t o.

(** The group [:ss[.ffffff]] of REGEX, base.py 759: second, microsecond, rest.  Nothing else in REGEX can start with a
    colon, so the optional parts are taken whenever possible. *)
Definition take_frac (U : unicode) (s : pstr) : Z * pstr :=
  match s with
  | c :: r =>
      if (c =? 46) || (c =? 44) then
        (fix go (n : nat) (acc scale : Z) (got : bool) (l : pstr) : Z * pstr :=
           match n with
           | O => ((acc * scale)%Z, l)
           | S n' =>
               match take_digit U l with
               | Some (v, l') => go n' (acc * 10 + v)%Z (scale / 10)%Z true l'
               | None => if got then ((acc * scale)%Z, l) else (0%Z, s)
               end
           end) 6%nat 0%Z 1000000%Z false r
      else (0%Z, s)
  | [] => (0%Z, s)
  end.
(** The optional seconds and fraction of the pattern, base.py 759. *)
Definition take_seconds (U : unicode) (s : pstr) : Z * Z * pstr :=
  match obind (take_char 58 s) (take_digits U 2 0) with
  | Some (sec, r) => let '(us, r) := take_frac U r in (sec, us, r)
  | None => (0%Z, 0%Z, s)
  end.
(** The time zone designator, base.py 760-761 and 895-905: offset in seconds; 8722 is the minus sign U+2212. *)
Definition take_zone (U : unicode) (s : pstr) : option Z * pstr :=
  match s with
  | c :: r =>
      if c =? 90 then (Some 0%Z, r)
      else if (c =? 43) || (c =? 45) || (c =? 8722) then
        match take_digits U 2 0 r with
        | Some (h, r) =>
            let r := match take_char 58 r with Some r' => r' | None => r end in
            let '(m, r) := match take_digits U 2 0 r with Some x => x | None => (0%Z, r) end in
            let sign := if c =? 43 then 1%Z else (-1)%Z in
            (Some ((h * 60 + m) * sign * 60)%Z, r)
        | None => (None, s)
        end
      else (None, s)
  | [] => (None, s)
  end.
(** from_string, base.py 888-911 with REGEX, base.py 756-761. *)
Definition dt_parse (U : unicode) (s : pstr) : option dt :=
  obind (take_digits U 4 0 s) (fun '(y, r) =>
  obind (take_char 45 r) (fun r =>
  obind (take_digits U 2 0 r) (fun '(mo, r) =>
  obind (take_char 45 r) (fun r =>
  obind (take_digits U 2 0 r) (fun '(d, r) =>
  obind (match take_char 84 r with Some r' => Some r' | None => take_char 32 r end) (fun r =>
  obind (take_digits U 2 0 r) (fun '(h, r) =>
  obind (take_char 58 r) (fun r =>
  obind (take_digits U 2 0 r) (fun '(mi, r) =>
  let '(sec, us, r) := take_seconds U r in
  let '(z, r) := take_zone U r in
  if at_end r && valid_date (PyDate y mo d) && valid_time (PyTime h mi sec us)
  then Some (PyDate y mo d, PyTime h mi sec us, z)
  else None))))))))).

(** Round half to even. *)
Definition round_half_even (n : Z) (d : positive) : Z :=
  (let q := n / Zpos d in
   let r := n mod Zpos d in
   if 2 * r <? Zpos d then q
   else if Zpos d <? 2 * r then q + 1
   else if Z.even q then q else q + 1)%Z.
(** [timedelta(unit=x)] for a float, in microseconds; the unit has [factor] microseconds (_datetimemodule.c, accum and
    microseconds_to_delta): the integral part exactly, the product of the fractional part and the factor rounded to a
    float, and the sum of both to a whole number. *)
Definition timedelta_of (factor : positive) (f : spec_float) : res Z :=
  match f with
  | S754_nan => Raise (XPy EValueError)
  | S754_infinity _ => Raise (XPy EOverflowError)
  | S754_zero _ => Ok 0%Z
  | S754_finite s m e =>
      let signed (n : Z) : Z := if s then (- n)%Z else n in
      let us :=
        (if 0 <=? e then signed (Zpos m * 2 ^ e) * Zpos factor
         else
           let whole := Zpos m / 2 ^ (- e) in
           match Zpos m mod 2 ^ (- e) with
           | Zpos r =>
               match float_num (SFmul 53 1024 (S754_finite s r e) (binary_normalize 53 1024 (Zpos factor) 0 false)) with
               | NFin n d => round_half_even (signed whole * Zpos factor * Zpos d + n) d
               | _ => signed whole * Zpos factor
               end
           | _ => signed whole * Zpos factor
           end)%Z in
      let days := (us / day_us)%Z in
      if ((-999999999 <=? days) && (days <=? 999999999))%Z then Ok us else Raise (XPy EOverflowError)
  end.
(** from_timestamp, base.py 913-917: ValueError gives None (the inner one), OverflowError is not caught. *)
Definition from_timestamp (f : spec_float) : res (option dt) :=
  match rbind (timedelta_of 1000000 f) (add_us (PyDate 1970 1 1) (PyTime 0 0 0 0)) with
  | Ok (d, t) => Ok (Some (d, t, Some 0%Z))
  | Raise (XPy EValueError) => Ok None
  | Raise e => Raise e
  end.

(** The policies, base.py 795. *)
Inductive tz_policy := Require_tz | Allow_tz | Utc_tz | Reject_tz.
(** How values that are no datetimes are parsed, base.py 844-869: strptime formats, an external parser (any exception is
    [None]; it must return a datetime), or the built-in parser. *)
Inductive dt_parser :=
| PFormats (f : pyval -> option dt) (r : list (pyval -> option dt))
| PExternal (f : pyval -> option dt)
| PBuiltin.
(** Options, base.py 791-802. *)
Record dt_opts := DtOpts { dt_policy : tz_policy; dt_convert : bool; dt_drop : bool; dt_how : dt_parser }.

(** [value.astimezone(UTC)]: [utcoffset()] must be less than a day; UTC itself is left alone. (runtime) *)
Definition to_utc (d : pydate) (t : pytime) (off : Z) : res (pydate * pytime) :=
  if (off =? 0)%Z then Ok (d, t)
  else if (Z.abs off <? 86400)%Z then add_us d t (- off * 1000000)%Z
  else Raise (XPy EValueError).
(** base.py 838-841 and 881-884: conversion to UTC and removal of the time zone. *)
Definition normalize (o : dt_opts) (d : pydate) (t : pytime) (off : Z) : res dt :=
  rbind (if dt_convert o then rbind (to_utc d t off) (fun x => Ok (x, 0%Z)) else Ok ((d, t), off)) (fun '((d, t), off) =>
  Ok (d, t, if dt_drop o then None else Some off)).
(** base.py 828-842: a datetime. *)
Definition dt_given (o : dt_opts) (x : dt) : res dt :=
  match x with
  | (d, t, None) =>
      if dt_drop o then Ok x
      else match dt_policy o with
           | Require_tz => conv_err "tzd_require"
           | Utc_tz => Ok (d, t, Some 0%Z)
           | _ => Ok x
           end
  | (d, t, Some off) =>
      match dt_policy o with
      | Reject_tz => conv_err "tzd_reject"
      | _ => normalize o d t off
      end
  end.
(** base.py 873-886: a parsed datetime. *)
Definition dt_parsed (o : dt_opts) (x : dt) : res dt :=
  match x with
  | (d, t, None) =>
      match dt_policy o with
      | Require_tz => conv_err "parse_tzd_require"
      | Utc_tz => if dt_drop o then Ok x else Ok (d, t, Some 0%Z)
      | _ => Ok x
      end
  | (d, t, Some off) =>
      match dt_policy o with
      | Reject_tz => conv_err "parse_tzd_reject"
      | _ => normalize o d t off
      end
  end.
(** The built-in parser, base.py 861-871: numbers (and their texts) are timestamps; [float()] of other values raises
    TypeError; matching the pattern against bytes raises TypeError, which is not caught. *)
Definition dt_builtin (R : runtime) (v : pyval) : res dt :=
  let found (o : option dt) : res dt := match o with Some x => Ok x | None => conv_err "parse" end in
  rbind (py_float R v) (fun o =>
  match o with
  | Some f => rbind (from_timestamp f) found
  | None => match v with
            | VStr s => found (dt_parse (rt_uni R) s)
            | VBytes _ => Raise (XPy ETypeError)
            | _ => conv_err "parse"
            end
  end).
(** base.py 844-871. *)
Definition dt_read (R : runtime) (how : dt_parser) (v : pyval) : res dt :=
  match how with
  | PFormats f r => match first_format (f :: r) v with Some x => Ok x | None => conv_err "parse_formats" end
  | PExternal f => match f v with Some x => Ok x | None => conv_err "parse_external" end
  | PBuiltin => dt_builtin R v
  end.
(** to_native, base.py 826-886. *)
Definition dt_native (R : runtime) (o : dt_opts) (v : pyval) : res pyval :=
  match v with
  | VDateTime d t z => rbind (dt_given o (d, t, z)) (fun x => Ok (dt_val x))
  | _ => rbind (dt_read R (dt_how o) v) (fun x => rbind (dt_parsed o x) (fun x => Ok (dt_val x)))
  end.

(** [%z] of [strftime]: ValueError unless the offset is less than a day. (runtime) *)
Definition zone_text (z : option Z) : res pstr :=
  match z with
  | None => Ok []
  | Some off =>
      if (Z.abs off <? 86400)%Z then
        let a := Z.abs off in
        Ok ((if (off <? 0)%Z then 45 else 43) :: two_digits (a / 3600) ++ two_digits (a / 60 mod 60) ++
            (if (a mod 60 =? 0)%Z then [] else two_digits (a mod 60)))%list
      else Raise (XPy EValueError)
  end.
(** [%Y-%m-%dT%H:%M:%S.%f]. *)
Definition stamp_text (R : runtime) (d : pydate) (t : pytime) : pstr :=
  (ymd_text R d ++ 84 :: two_digits (t_hour t) ++ 58 :: two_digits (t_minute t) ++ 58 :: two_digits (t_second t)
     ++ 46 :: padded 6 10 (Z.to_N (t_micro t)))%list.
(** How values are exported: the default format of DateTimeType (base.py 740) or UTCDateTimeType (base.py 949), a
    format or function of the user (base.py 798, 919-922), or the timestamp (base.py 971-977). *)
Inductive dt_export := XIso | XIsoZ | XCustom (f : pyval -> res pyval) | XTimestamp.
(** [(value - EPOCH).total_seconds()], base.py 976-977: the quotient correctly rounded. *)
Definition total_seconds (us : Z) : spec_float := float_of_dec (us <? 0)%Z (Z.abs_N us) (-6).
(** EPOCH, base.py 789. *)
Definition EPOCH : Z := stamp (PyDate 1970 1 1) (PyTime 0 0 0 0).
(** to_primitive, base.py 919-922 and 971-977.  Dates have [strftime] too, with the time 00:00 and no zone, but no [tzinfo];
    a function of the user is called with any value. *)
Definition dt_prim (R : runtime) (how : dt_export) (v : pyval) : res pyval :=
  match how, v with
  | XCustom f, _ => f v
  | XIso, VDateTime d t z => rbind (zone_text z) (fun zt => Ok (VStr (stamp_text R d t ++ zt)%list))
  | XIsoZ, VDateTime d t _ => Ok (VStr (stamp_text R d t ++ [90])%list)
  | XTimestamp, VDateTime d t z =>
      rbind (match z with None => Ok (d, t) | Some off => to_utc d t off end) (fun '(d, t) =>
      Ok (VFloat (total_seconds (stamp d t - EPOCH)%Z)))
  | XIso, VDate d => Ok (VStr (stamp_text R d (PyTime 0 0 0 0)))
  | XIsoZ, VDate d => Ok (VStr (stamp_text R d (PyTime 0 0 0 0) ++ [90])%list)
  | _, _ => Raise (XPy EAttributeError)
  end.
(** validate_tz, base.py 924-938; other objects are taken to have no [tzinfo]. *)
Definition validate_tz (o : dt_opts) : vldr := fun v =>
  match v with
  | VDateTime d t None =>
      if dt_drop o then None
      else match dt_policy o with
           | Require_tz => valid_err "validate_tzd_require"
           | Utc_tz => valid_err "validate_utc_none"
           | _ => None
           end
  | VDateTime d t (Some off) =>
      if dt_drop o then valid_err "validate_tzd_reject"
      else match dt_policy o with
           | Reject_tz => valid_err "validate_tzd_reject"
           | _ => if dt_convert o && negb (off =? 0)%Z then valid_err "validate_utc_wrong" else None
           end
  | _ => Some (XPy EAttributeError)
  end.
(** The classes, base.py 791-804, 951-954 and 966-969 (with the default of [drop_tzinfo]). *)
Definition dt_type (R : runtime) (o : dt_opts) (e : dt_export) : leaf := Leaf (dt_native R o) (dt_prim R e).
(** UTCDateTimeType.__init__, base.py 951-954. *)
Definition utc_opts : dt_opts := DtOpts Utc_tz true true PBuiltin.
(** TimestampType.__init__, base.py 966-969. *)
Definition timestamp_opts (drop : bool) : dt_opts := DtOpts Require_tz true drop PBuiltin.
(** UTCDateTimeType, base.py 941-954. *)
Definition utc_type (R : runtime) : leaf := dt_type R utc_opts XIsoZ.
(** TimestampType, base.py 957-977. *)
Definition timestamp_type (R : runtime) (drop : bool) : leaf := dt_type R (timestamp_opts drop) XTimestamp.

(** ** TimedeltaType, base.py 980-1023 *)

(** The units, base.py 992-998, in microseconds. *)
Inductive unit_of_time := Days | Seconds | Microseconds | Milliseconds | Minutes | Hours | Weeks.
(** Microseconds of a unit (runtime; base.py 992-998). *)
Definition unit_us (p : unit_of_time) : positive :=
  match p with
  | Days => 86400000000 | Seconds => 1000000 | Microseconds => 1 | Milliseconds => 1000
  | Minutes => 60000000 | Hours => 3600000000 | Weeks => 604800000000
  end.
(** to_native, base.py 1013-1019: ValueError and TypeError are caught, OverflowError is not. *)
Definition delta_native (R : runtime) (p : unit_of_time) (v : pyval) : res pyval :=
  match v with
  | VTimedelta _ => Ok v
  | _ => rbind (py_float R v) (fun o =>
         match o with
         | None => conv_err "convert"
         | Some f => match timedelta_of (unit_us p) f with
                     | Ok us => Ok (VTimedelta us)
                     | Raise (XPy EValueError) => conv_err "convert"
                     | Raise e => Raise e
                     end
         end)
  end.
(** to_primitive, base.py 1021-1023. *)
Definition delta_prim (p : unit_of_time) (v : pyval) : res pyval :=
  match v with
  | VTimedelta us =>
      match num_trunc (float_num (SFdiv 53 1024 (total_seconds us) (total_seconds (Zpos (unit_us p))))) with
      | Some z => Ok (VInt z)
      | None => Raise (XPy EOverflowError)
      end
  | _ => Raise (XPy EAttributeError)
  end.
(** The class, base.py 1000-1008. *)
Definition delta_type (R : runtime) (p : unit_of_time) : leaf := Leaf (delta_native R p) (delta_prim p).
