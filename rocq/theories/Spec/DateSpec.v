(** Specification of the date and time types. *)
From Verif.Model Require Import Py Core Text Types Calendar DateTime.
Local Open Scope N_scope.

(** A decimal digit: ASCII, or one of the Unicode table. *)
Definition decimal_digit (U : unicode) (c : N) (v : Z) : Prop :=
  (48 <= c <= 57 /\ v = Z.of_N (c - 48)) \/ (128 <= c /\ exists d, un_digit U c = Some d /\ v = Z.of_N (d mod 10)).
(** The digits [l] continue the number [acc] to [n]. *)
Inductive number (U : unicode) : Z -> list N -> Z -> Prop :=
| nm_end acc : number U acc [] acc
| nm_digit acc c v l n : decimal_digit U c v -> number U (acc * 10 + v)%Z l n -> number U acc (c :: l) n.
(** Exactly [k] digits. *)
Definition digits (U : unicode) (k : nat) (l : list N) (n : Z) : Prop := length l = k /\ number U 0 l n.

(** Nothing, [:ss], [:ss.f] or [:ss,f] with one to six digits. *)
Inductive iso_seconds (U : unicode) : list N -> Z -> Z -> Prop :=
| is_none : iso_seconds U [] 0 0
| is_whole l s : digits U 2 l s -> iso_seconds U (58 :: l) s 0
| is_frac l s p k f n : digits U 2 l s -> p = 46 \/ p = 44 -> (1 <= k <= 6)%nat -> digits U k f n ->
    iso_seconds U (58 :: l ++ p :: f) s (n * 10 ^ Z.of_nat (6 - k)).
(** A sign: plus, minus (hyphen or U+2212). *)
Definition zone_sign (c : N) (s : Z) : Prop := (c = 43 /\ s = 1%Z) \/ ((c = 45 \/ c = 8722) /\ s = (-1)%Z).
(** Nothing, [Z], or hours and minutes of the offset; offset in seconds. *)
Inductive iso_zone (U : unicode) : list N -> option Z -> Prop :=
| iz_none : iso_zone U [] None
| iz_z : iso_zone U [90] (Some 0%Z)
| iz_hours c s l h colon : zone_sign c s -> digits U 2 l h -> colon = [] \/ colon = [58] ->
    iso_zone U (c :: l ++ colon) (Some (s * (h * 3600))%Z)
| iz_minutes c s l h colon l' m : zone_sign c s -> digits U 2 l h -> colon = [] \/ colon = [58] -> digits U 2 l' m ->
    iso_zone U (c :: l ++ colon ++ l') (Some (s * (h * 3600 + m * 60))%Z).
(** [YYYY-MM-DDThh:mm[:ss[.f]][zone]], a blank in place of T, possibly a final newline. *)
Definition iso_text (U : unicode) (s : pstr) (d : pydate) (t : pytime) (z : option Z) : Prop :=
  exists ys ms ds sep hs mins secs zs e,
    s = (ys ++ 45 :: ms ++ 45 :: ds ++ sep :: hs ++ 58 :: mins ++ secs ++ zs ++ e)%list /\
    digits U 4 ys (d_year d) /\ digits U 2 ms (d_month d) /\ digits U 2 ds (d_day d) /\ (sep = 84 \/ sep = 32) /\
    digits U 2 hs (t_hour t) /\ digits U 2 mins (t_minute t) /\ iso_seconds U secs (t_second t) (t_micro t) /\
    iso_zone U zs z /\ (e = [] \/ e = [10]).

(** The year is written with four digits. *)
Definition four_digits (R : runtime) (y : Z) : Prop := rt_pad_year R = true \/ (1000 <= y)%Z.
(** No offset, or one of whole minutes, less than a day. *)
Definition whole_minutes (z : option Z) : Prop := forall off, z = Some off -> (Z.abs off < 86400)%Z /\ (off mod 60 = 0)%Z.

(** The datetime a value stands for: itself, or what the parser of the field reads. *)
Definition is_datetime (v : pyval) : Prop := exists d t z, v = VDateTime d t z.
Definition reads (R : runtime) (o : dt_opts) (v : pyval) (d : pydate) (t : pytime) (z : option Z) : Prop :=
  v = VDateTime d t z \/ (~ is_datetime v /\ dt_read R (dt_how o) v = Ok (d, t, z)).

(** The date and time types. *)
Inductive date_leaf (R : runtime) : leaf -> Prop :=
| dl_date fmts : date_leaf R (date_type R fmts)
| dl_datetime o e : date_leaf R (dt_type R o e)
| dl_delta p : date_leaf R (delta_type R p).

(** The Gregorian calendar. *)
Definition leap_year (y : Z) : Prop := (4 | y)%Z /\ (~ (100 | y)%Z \/ (400 | y)%Z).
Inductive month_length (y : Z) : Z -> Z -> Prop :=
| ml_long m : In m [1; 3; 5; 7; 8; 10; 12]%Z -> month_length y m 31
| ml_short m : In m [4; 6; 9; 11]%Z -> month_length y m 30
| ml_leap : leap_year y -> month_length y 2 29
| ml_common : ~ leap_year y -> month_length y 2 28.
Definition calendar_date (d : pydate) : Prop :=
  (1 <= d_year d <= 9999)%Z /\ exists n, month_length (d_year d) (d_month d) n /\ (1 <= d_day d <= n)%Z.
(** A time of day, to the microsecond, without leap seconds. *)
Definition clock_time (t : pytime) : Prop :=
  (0 <= t_hour t < 24 /\ 0 <= t_minute t < 60 /\ 0 <= t_second t < 60 /\ 0 <= t_micro t < 1000000)%Z.

(** The texts read as dates: [YYYY-MM-DD], where month and day may lack the leading zero, or the day have a blank
    instead of it. *)
Inductive month_text : list N -> Z -> Prop :=
| mt_one c : 49 <= c <= 57 -> month_text [c] (Z.of_N (c - 48))
| mt_zero c : 49 <= c <= 57 -> month_text [48; c] (Z.of_N (c - 48))
| mt_ten c : 48 <= c <= 50 -> month_text [49; c] (10 + Z.of_N (c - 48))%Z.
Inductive day_text (U : unicode) : list N -> Z -> Prop :=
| dy_one c : 49 <= c <= 57 -> day_text U [c] (Z.of_N (c - 48))
| dy_zero c : 49 <= c <= 57 -> day_text U [48; c] (Z.of_N (c - 48))
| dy_blank c : 49 <= c <= 57 -> day_text U [32; c] (Z.of_N (c - 48))
| dy_tens t c v : 49 <= t <= 50 -> decimal_digit U c v -> day_text U [t; c] (10 * Z.of_N (t - 48) + v)%Z
| dy_thirty c : 48 <= c <= 49 -> day_text U [51; c] (30 + Z.of_N (c - 48))%Z.
Definition date_text (U : unicode) (s : pstr) (d : pydate) : Prop :=
  exists ys ms ds, s = (ys ++ 45 :: ms ++ 45 :: ds)%list /\
    digits U 4 ys (d_year d) /\ month_text ms (d_month d) /\ day_text U ds (d_day d).
