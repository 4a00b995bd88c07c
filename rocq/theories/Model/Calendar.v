(** The proleptic Gregorian calendar of the [datetime] module (CPython Lib/_pydatetime.py 40-158, no line in /repo). *)
From Verif.Model Require Import Py.
Local Open Scope Z_scope.

(** [datetime.MINYEAR]; dates as used by base.py 637-977. (runtime) *)
Definition MINYEAR : Z := 1.
(** [datetime.MAXYEAR]. (runtime) *)
Definition MAXYEAR : Z := 9999.
(** The ordinal of 9999-12-31. (runtime) *)
Definition MAXORDINAL : Z := 3652059.

(** [_is_leap] *)
Definition is_leap (y : Z) : bool := (y mod 4 =? 0) && (negb (y mod 100 =? 0) || (y mod 400 =? 0)).

(** [_days_in_month] *)
Definition days_in_month (y m : Z) : Z :=
  if m =? 2 then if is_leap y then 29 else 28
  else if (m =? 4) || (m =? 6) || (m =? 9) || (m =? 11) then 30 else 31.

(** [_days_before_year] *)
Definition days_before_year (y : Z) : Z := let y := y - 1 in y * 365 + y / 4 - y / 100 + y / 400.

(** [_DAYS_BEFORE_MONTH] *)
Definition days_before_month_common (m : Z) : Z :=
  match m with
  | 1 => 0 | 2 => 31 | 3 => 59 | 4 => 90 | 5 => 120 | 6 => 151
  | 7 => 181 | 8 => 212 | 9 => 243 | 10 => 273 | 11 => 304 | _ => 334
  end.
(** [_days_before_month] *)
Definition days_before_month (y m : Z) : Z :=
  days_before_month_common m + (if (2 <? m) && is_leap y then 1 else 0).

(** [_ymd2ord] *)
Definition ymd2ord (d : pydate) : Z :=
  days_before_year (d_year d) + days_before_month (d_year d) (d_month d) + d_day d.

(** Days in 400 years. (runtime) *)
Definition DI400Y : Z := 146097.
(** Days in 100 years. (runtime) *)
Definition DI100Y : Z := 36524.
(** Days in 4 years. (runtime) *)
Definition DI4Y : Z := 1461.

(** [_ord2ymd] *)
Definition ord2ymd (n0 : Z) : pydate :=
  let n := n0 - 1 in
  let n400 := n / DI400Y in
  let n := n mod DI400Y in
  let year := n400 * 400 + 1 in
  let n100 := n / DI100Y in
  let n := n mod DI100Y in
  let n4 := n / DI4Y in
  let n := n mod DI4Y in
  let n1 := n / 365 in
  let n := n mod 365 in
  let year := year + n100 * 100 + n4 * 4 + n1 in
  if (n1 =? 4) || (n100 =? 4) then PyDate (year - 1) 12 31
  else
    let leapyear := (n1 =? 3) && (negb (n4 =? 24) || (n100 =? 3)) in
    let month := (n + 50) / 32 in
    let preceding := days_before_month_common month + (if (2 <? month) && leapyear then 1 else 0) in
    if n <? preceding then
      let month := month - 1 in
      let dim := if (month =? 2) && leapyear then 29
                 else if month =? 2 then 28
                 else if (month =? 4) || (month =? 6) || (month =? 9) || (month =? 11) then 30 else 31 in
      PyDate year month (n - (preceding - dim) + 1)
    else PyDate year month (n - preceding + 1).

(** [_check_date_fields], [_check_time_fields]: otherwise ValueError. *)
Definition valid_date (d : pydate) : bool :=
  (MINYEAR <=? d_year d) && (d_year d <=? MAXYEAR) && (1 <=? d_month d) && (d_month d <=? 12) &&
  (1 <=? d_day d) && (d_day d <=? days_in_month (d_year d) (d_month d)).
(** The arguments [datetime.time] accepts. (runtime) *)
Definition valid_time (t : pytime) : bool :=
  (0 <=? t_hour t) && (t_hour t <=? 23) && (0 <=? t_minute t) && (t_minute t <=? 59) &&
  (0 <=? t_second t) && (t_second t <=? 59) && (0 <=? t_micro t) && (t_micro t <=? 999999).

(** Microseconds since midnight, and since 0000-12-31. *)
Definition time_us (t : pytime) : Z :=
  ((t_hour t * 60 + t_minute t) * 60 + t_second t) * 1000000 + t_micro t.
(** Microseconds of a day. (runtime) *)
Definition day_us : Z := 86400000000.
(** Microseconds since 0000-12-31; differences of datetimes, base.py 976-977. (runtime) *)
Definition stamp (d : pydate) (t : pytime) : Z := ymd2ord d * day_us + time_us t.

(** The time of day from microseconds. *)
Definition us_time (n : Z) : pytime :=
  PyTime (n / 3600000000) (n / 60000000 mod 60) (n / 1000000 mod 60) (n mod 1000000).

(** [datetime + timedelta]: OverflowError outside of years 1 to 9999. *)
Definition add_us (d : pydate) (t : pytime) (us : Z) : res (pydate * pytime) :=
  let n := stamp d t + us in
  let day := n / day_us in
  if (0 <? day) && (day <=? MAXORDINAL) then Ok (ord2ymd day, us_time (n mod day_us))
  else Raise (XPy EOverflowError).

(** The instant an aware datetime denotes, in microseconds. *)
Definition instant (d : pydate) (t : pytime) (off : Z) : Z := stamp d t - off * 1000000.
