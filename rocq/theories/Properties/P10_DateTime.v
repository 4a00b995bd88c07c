(** C33-C35, C60-C62: dates, times, timestamps and durations.

    [R : runtime] is what the model leaves open of the interpreter: the Unicode tables, and whether [strftime] pads the
    year to four digits.  [four_digits R y]: it writes the year [y] with four digits.  [reads R o v d t z]: the value [v]
    is the datetime [(d, t, z)], or the parser of the field with options [o] reads it as that; [z] is the offset from UTC
    in seconds, [None] for a naive datetime.  [instant d t off]: microseconds on the UTC time line. *)
From Verif.Model Require Import Py Core Num Calendar Text Types DateTime.
From Verif.Spec Require Import TextSpec TypeSpec DateSpec FloatSpec.
From Verif.Proofs Require Import CalendarLemmas DateText DateTimeLemmas IsoText FloatTime DateErrors DateMore DateAccepts MicroFacts.
From Verif.Conformance Require Import TypeSample.
Open Scope string_scope.
Open Scope list_scope.

Definition leap_day : pydate := PyDate 2024 2 29.
Definition noonish : pytime := PyTime 12 34 56 7.

(** ** C33: the text of a datetime *)
Theorem C33_text_round_trip :
  forall R d t z, valid_date d = true -> valid_time t = true -> four_digits R (d_year d) -> whole_minutes z ->
    exists s, lf_prim (dt_type R plain_opts XIso) (VDateTime d t z) = Ok (VStr s) /\ lf_native (dt_type R plain_opts XIso) (VStr s) = Ok (VDateTime d t z).
Proof. exact dt_round. Qed.
Print Assumptions C33_text_round_trip.

Theorem C33_text_is_injective :
  forall R d t z d' t' z' s,
    valid_date d = true -> valid_time t = true -> four_digits R (d_year d) -> whole_minutes z ->
    valid_date d' = true -> valid_time t' = true -> four_digits R (d_year d') -> whole_minutes z' ->
    lf_prim (dt_type R plain_opts XIso) (VDateTime d t z) = Ok s -> lf_prim (dt_type R plain_opts XIso) (VDateTime d' t' z') = Ok s -> d = d' /\ t = t' /\ z = z'.
Proof. exact dt_inj. Qed.
Print Assumptions C33_text_is_injective.

(** A date assigned to a datetime field is exported as midnight, without a zone; a timestamp field fails. *)
Theorem C33_dates_are_exported_as_midnight :
  forall R o d,
    (exists s, lf_prim (dt_type R o XIso) (VDate d) = Ok (VStr s) /\ lf_prim (dt_type R o XIso) (VDateTime d (PyTime 0 0 0 0) None) = Ok (VStr s)) /\
    (exists s, lf_prim (dt_type R o XIsoZ) (VDate d) = Ok (VStr s) /\ lf_prim (dt_type R o XIsoZ) (VDateTime d (PyTime 0 0 0 0) None) = Ok (VStr s)) /\
    lf_prim (dt_type R o XTimestamp) (VDate d) = Raise (XPy EAttributeError).
Proof. exact date_in_datetime_field. Qed.
Print Assumptions C33_dates_are_exported_as_midnight.
Example C33_midnight_case :
  lf_prim (dt_type rt0 plain_opts XIso) (VDate leap_day) = Ok (VStr (u "2024-02-29T00:00:00.000000")) /\
  lf_prim (utc_type rt0) (VDate leap_day) = Ok (VStr (u "2024-02-29T00:00:00.000000Z")).
Proof. split; reflexivity. Qed.

(** The text a UTC field exports says that it is UTC: other fields read it as such. *)
Theorem C33_utc_text_round_trip :
  forall R d t, valid_date d = true -> valid_time t = true -> four_digits R (d_year d) ->
    exists s, lf_prim (utc_type R) (VDateTime d t None) = Ok (VStr s) /\ lf_native (utc_type R) (VStr s) = Ok (VDateTime d t None) /\
      lf_native (dt_type R plain_opts XIso) (VStr s) = Ok (VDateTime d t (Some 0%Z)).
Proof. exact utc_round. Qed.
Print Assumptions C33_utc_text_round_trip.

(** An offset with seconds is written, but never read back. *)
Theorem C33_offsets_with_seconds_are_not_read_back :
  forall R d t off, valid_date d = true -> valid_time t = true -> four_digits R (d_year d) ->
    (Z.abs off < 86400)%Z -> (off mod 60)%Z <> 0%Z ->
    exists s, lf_prim (dt_type R plain_opts XIso) (VDateTime d t (Some off)) = Ok (VStr s) /\ lf_native (dt_type R plain_opts XIso) (VStr s) = conv_err "parse".
Proof. exact seconds_lost. Qed.
Print Assumptions C33_offsets_with_seconds_are_not_read_back.

Example C33_case : valid_date leap_day = true /\ valid_time noonish = true /\ four_digits rt0 (d_year leap_day) /\
  whole_minutes (Some (-12600)%Z) /\
  dt_prim rt0 XIso (VDateTime leap_day noonish (Some (-12600)%Z)) = Ok (VStr (u "2024-02-29T12:34:56.000007-0330")).
Proof.
  split; [reflexivity|]. split; [reflexivity|]. split; [right; cbn; discriminate|]. split; [|reflexivity].
  intros off [= <-]. vm_compute. split; reflexivity.
Qed.

(** ** C34: the time zone policy *)
Theorem C34_results_obey_the_policy :
  forall R o v w, dt_native R o v = Ok w -> exists d t z, w = VDateTime d t z /\
    (dt_drop o = true -> z = None) /\ (dt_policy o = Reject_tz -> z = None) /\
    (dt_policy o = Require_tz \/ dt_policy o = Utc_tz -> dt_drop o = false -> z <> None) /\
    (dt_convert o = true -> z = None \/ z = Some 0%Z).
Proof. exact native_shape. Qed.
Print Assumptions C34_results_obey_the_policy.

Theorem C34_results_pass_validation : forall R o v w, dt_native R o v = Ok w -> validate_tz o w = None.
Proof. exact native_validates. Qed.
Print Assumptions C34_results_pass_validation.

Theorem C34_conversion_keeps_the_instant :
  forall R o v d t off w, reads R o v d t (Some off) -> valid_date d = true -> valid_time t = true ->
    dt_convert o = true -> dt_native R o v = Ok w ->
    exists d' t', w = VDateTime d' t' (if dt_drop o then None else Some 0%Z) /\ instant d' t' 0 = instant d t off /\
      valid_date d' = true /\ valid_time t' = true.
Proof. exact convert_keeps_instant. Qed.
Print Assumptions C34_conversion_keeps_the_instant.

Theorem C34_without_conversion_the_clock_is_kept :
  forall R o v d t off w, reads R o v d t (Some off) -> dt_convert o = false -> dt_native R o v = Ok w ->
    w = VDateTime d t (if dt_drop o then None else Some off).
Proof. exact keep_zone. Qed.
Print Assumptions C34_without_conversion_the_clock_is_kept.

Theorem C34_naive_datetimes_keep_the_clock :
  forall R o v d t w, reads R o v d t None -> dt_native R o v = Ok w ->
    w = VDateTime d t (match dt_policy o with Utc_tz => if dt_drop o then None else Some 0%Z | _ => None end).
Proof. exact native_naive. Qed.
Print Assumptions C34_naive_datetimes_keep_the_clock.

Theorem C34_naive_is_accepted_iff :
  forall R o v d t, reads R o v d t None ->
    ((exists w, dt_native R o v = Ok w) <-> (dt_policy o = Require_tz -> dt_drop o = true /\ is_datetime v)).
Proof. exact accepts_naive. Qed.
Print Assumptions C34_naive_is_accepted_iff.

Theorem C34_aware_is_accepted_iff :
  forall R o v d t off, reads R o v d t (Some off) -> valid_date d = true -> valid_time t = true ->
    ((exists w, dt_native R o v = Ok w) <->
     dt_policy o <> Reject_tz /\
     (dt_convert o = true -> (off = 0%Z \/ (Z.abs off < 86400)%Z) /\
        exists d' t', valid_date d' = true /\ valid_time t' = true /\ instant d' t' 0 = instant d t off)).
Proof. exact accepts_aware. Qed.
Print Assumptions C34_aware_is_accepted_iff.

(** Validation on its own: which datetimes it lets pass; they are those that conversion would not change. *)
Theorem C34_what_validation_accepts :
  forall o d t z, validate_tz o (VDateTime d t z) = None <->
    match z with
    | None => dt_drop o = true \/ dt_policy o = Allow_tz \/ dt_policy o = Reject_tz
    | Some off => dt_drop o = false /\ dt_policy o <> Reject_tz /\ (dt_convert o = true -> off = 0%Z)
    end.
Proof. exact validate_iff. Qed.
Print Assumptions C34_what_validation_accepts.

Theorem C34_validation_accepts_what_conversion_keeps :
  forall R o d t z, validate_tz o (VDateTime d t z) = None <-> dt_native R o (VDateTime d t z) = Ok (VDateTime d t z).
Proof. exact validate_fixed. Qed.
Print Assumptions C34_validation_accepts_what_conversion_keeps.

Theorem C34_validation_fails_with_a_validation_error :
  forall o d t z e, validate_tz o (VDateTime d t z) = Some e -> exists m, e = XValid false [m].
Proof. exact validate_fails. Qed.
Print Assumptions C34_validation_fails_with_a_validation_error.
(** A value that is no datetime, which validation meets when conversion is switched off, is not reported but raises AttributeError. *)
Theorem C34_validation_of_others_refuted :
  forall o v, (forall d t z, v <> VDateTime d t z) -> validate_tz o v = Some (XPy EAttributeError).
Proof. exact validate_others. Qed.
Print Assumptions C34_validation_of_others_refuted.

(** The UTC and timestamp types: naive results in UTC, and which naive input a timestamp field takes. *)
Theorem C34_utc_fields_hold_naive_datetimes :
  forall R v w, lf_native (utc_type R) v = Ok w -> exists d t, w = VDateTime d t None.
Proof. exact utc_fields. Qed.
Print Assumptions C34_utc_fields_hold_naive_datetimes.

Theorem C34_utc_fields_keep_the_instant :
  forall R v d t off w, reads R utc_opts v d t (Some off) -> valid_date d = true -> valid_time t = true ->
    lf_native (utc_type R) v = Ok w -> exists d' t', w = VDateTime d' t' None /\ instant d' t' 0 = instant d t off.
Proof. exact utc_instant. Qed.
Print Assumptions C34_utc_fields_keep_the_instant.

Theorem C34_timestamp_fields_and_naive_datetimes :
  forall R drop v d t, reads R (timestamp_opts drop) v d t None ->
    ((exists w, lf_native (timestamp_type R drop) v = Ok w) <-> drop = true /\ is_datetime v).
Proof. exact timestamp_fields. Qed.
Print Assumptions C34_timestamp_fields_and_naive_datetimes.

Theorem C34_timestamp_fields_are_in_utc :
  forall R drop v w, lf_native (timestamp_type R drop) v = Ok w ->
    exists d t, w = VDateTime d t (if drop then None else Some 0%Z).
Proof. exact timestamp_fields_utc. Qed.
Print Assumptions C34_timestamp_fields_are_in_utc.

Example C34_case_types :
  let s := VStr (u "2024-02-29T23:30+01:00") in
  dt_native rt0 utc_opts s = Ok (VDateTime (PyDate 2024 2 29) (PyTime 22 30 0 0) None) /\
  dt_native rt0 (timestamp_opts false) s = Ok (VDateTime (PyDate 2024 2 29) (PyTime 22 30 0 0) (Some 0%Z)) /\
  dt_native rt0 (timestamp_opts false) (VDateTime leap_day noonish None) = conv_err "tzd_require" /\
  dt_native rt0 (timestamp_opts true) (VDateTime leap_day noonish None) = Ok (VDateTime leap_day noonish None).
Proof. cbv zeta. repeat split; vm_compute; reflexivity. Qed.

Example C34_case_validation :
  validate_tz (DtOpts Allow_tz true false PBuiltin) (VDateTime leap_day noonish (Some 3600%Z)) = valid_err "validate_utc_wrong" /\
  validate_tz (DtOpts Allow_tz true false PBuiltin) (VDateTime leap_day noonish (Some 0%Z)) = None /\
  validate_tz (DtOpts Allow_tz false false PBuiltin) (VDateTime leap_day noonish (Some 3600%Z)) = None.
Proof. repeat split. Qed.

Example C34_case :
  let s := VStr (u "2024-02-29T23:30+01:00") in let o := DtOpts Require_tz true false PBuiltin in
  reads rt0 o s (PyDate 2024 2 29) (PyTime 23 30 0 0) (Some 3600%Z) /\
  dt_native rt0 o s = Ok (VDateTime (PyDate 2024 2 29) (PyTime 22 30 0 0) (Some 0%Z)) /\
  dt_native rt0 (DtOpts Reject_tz true false PBuiltin) s = conv_err "parse_tzd_reject" /\
  dt_native rt0 o (VStr (u "2024-02-29T23:30")) = conv_err "parse_tzd_require".
Proof. cbv zeta. repeat split. right. split; [|reflexivity]. intros (? & ? & ? & ?). discriminate. Qed.

(** ** C35: the text of a date *)
Theorem C35_text_round_trip :
  forall R fmts d, valid_date d = true -> four_digits R (d_year d) -> fmts = [] ->
    exists s, lf_prim (date_type R fmts) (VDate d) = Ok (VStr s) /\ lf_native (date_type R fmts) (VStr s) = Ok (VDate d).
Proof. exact date_round. Qed.
Print Assumptions C35_text_round_trip.

(** Where [strftime] does not pad years, no date before the year 1000 is read back. *)
Theorem C35_short_years_are_not_read_back :
  forall R d, valid_date d = true -> ~ four_digits R (d_year d) ->
    exists s, lf_prim (date_type R []) (VDate d) = Ok (VStr s) /\ lf_native (date_type R []) (VStr s) = conv_err "parse".
Proof. exact date_short. Qed.
Print Assumptions C35_short_years_are_not_read_back.

(** Dates stay, datetimes lose their time. *)
Theorem C35_dates_and_datetimes :
  forall R fmts d t z, lf_native (date_type R fmts) (VDate d) = Ok (VDate d) /\ lf_native (date_type R fmts) (VDateTime d t z) = Ok (VDate d).
Proof. exact (fun R fmts d t z => conj (date_given R fmts d) (date_of_datetime R fmts d t z)). Qed.
Print Assumptions C35_dates_and_datetimes.

(** Without formats given: the texts that are read, and that nothing else is. *)
Theorem C35_accepted_texts :
  forall R s w, lf_native (date_type R []) (VStr s) = Ok w <->
    exists d, date_text (rt_uni R) s d /\ valid_date d = true /\ w = VDate d.
Proof. exact date_accepts. Qed.
Print Assumptions C35_accepted_texts.

Theorem C35_everything_else_is_refused :
  forall R v, (forall d, v <> VDate d) -> ~ is_datetime v ->
    (lf_native (date_type R []) v = conv_err "parse" <->
     forall s d, v = VStr s -> date_text (rt_uni R) s d -> valid_date d = false).
Proof. exact date_refuses. Qed.
Print Assumptions C35_everything_else_is_refused.

(** A datetime is exported as its date. *)
Theorem C35_datetimes_are_exported_as_dates :
  forall R d t z, date_prim R (VDateTime d t z) = date_prim R (VDate d).
Proof. exact date_export. Qed.
Print Assumptions C35_datetimes_are_exported_as_dates.

Example C35_case_texts :
  date_text (rt_uni rt0) (u "2024-2- 9") (PyDate 2024 2 9) /\
  date_native rt0 [] (VStr (u "2024-2- 9")) = Ok (VDate (PyDate 2024 2 9)) /\
  date_native rt0 [] (VStr (u "2024-00-09")) = conv_err "parse" /\
  date_native rt0 [] (VStr (u "2024-02-09 ")) = conv_err "parse".
Proof.
  split; [|repeat split]. exists (u "2024"), (u "2"), (u " 9"). split; [reflexivity|].
  split; [|split; [apply (mt_one 50); vm_compute; split; discriminate|apply (dy_blank _ 57); vm_compute; split; discriminate]].
  destruct (digits_of_take (rt_uni rt0) 4 (u "2024") 2024 [] eq_refl) as (l & E & D). rewrite app_nil_r in E. rewrite E. exact D.
Qed.

(** With formats given, a value is read by the first of them that reads it. *)
Theorem C35_first_format_that_fits :
  forall R f fmts v w, (forall d, v <> VDate d) -> ~ is_datetime v ->
    (date_native R (f :: fmts) v = Ok w <->
     exists pre g post d, f :: fmts = pre ++ g :: post /\ (forall h, In h pre -> h v = None) /\ g v = Some d /\ w = VDate d).
Proof. exact date_first. Qed.
Print Assumptions C35_first_format_that_fits.

Theorem C35_no_format_fits :
  forall R f fmts v, (forall d, v <> VDate d) -> ~ is_datetime v ->
    (date_native R (f :: fmts) v = conv_err "parse" <-> forall h, In h (f :: fmts) -> h v = None).
Proof. exact date_none. Qed.
Print Assumptions C35_no_format_fits.

Example C35_case_formats :
  let f (v : pyval) := match v with VStr _ => Some (PyDate 1 1 1) | _ => None end in
  let g (v : pyval) := match v with VInt _ => Some (PyDate 2 2 2) | VStr _ => Some (PyDate 3 3 3) | _ => None end in
  date_native rt0 [f; g] (VStr []) = Ok (VDate (PyDate 1 1 1)) /\ date_native rt0 [f; g] (VInt 0) = Ok (VDate (PyDate 2 2 2)) /\
  date_native rt0 [f; g] VNone = conv_err "parse".
Proof. repeat split. Qed.

(** The dates and times of these theorems are those of the Gregorian calendar, years 1 to 9999. *)
Theorem C35_dates_of_the_calendar : forall d, valid_date d = true <-> calendar_date d.
Proof. exact valid_date_iff. Qed.
Print Assumptions C35_dates_of_the_calendar.
Theorem C33_times_of_the_day : forall t, valid_time t = true <-> clock_time t.
Proof. exact valid_time_iff. Qed.
Print Assumptions C33_times_of_the_day.

Example C35_case : valid_date leap_day = true /\ four_digits rt0 (d_year leap_day) /\
  date_prim rt0 (VDate leap_day) = Ok (VStr (u "2024-02-29")) /\ valid_date (PyDate 2023 2 29) = false /\
  valid_date (PyDate 999 1 1) = true /\ ~ four_digits rt0 999.
Proof. repeat split; try reflexivity; try (right; cbn; discriminate). intros [H|H]; [discriminate|apply H; reflexivity]. Qed.

(** ** C60: failures of the date and time types *)
Theorem C60_errors_of_date_and_time_conversion :
  forall R l v e, date_leaf R l -> lf_native l v = Raise e -> field_error e \/
    (e = XPy EOverflowError /\ numeric R v) \/
    (e = XPy ETypeError /\ exists b, v = VBytes b) \/
    (exists o x d t off, l = dt_type R o x /\ dt_convert o = true /\ reads R o v d t (Some off) /\
       ((e = XPy EValueError /\ (86400 <= Z.abs off)%Z) \/
        (e = XPy EOverflowError /\ off <> 0%Z /\ (Z.abs off < 86400)%Z))).
Proof. exact date_errors. Qed.
Print Assumptions C60_errors_of_date_and_time_conversion.

(** Each of these exceptions occurs. *)
(** Export reports values of other types with an AttributeError, unless the format is a function. *)
Theorem C60_export_of_unfit_dates :
  forall R fmts o e v, (forall d, v <> VDate d) -> ~ is_datetime v -> (forall f, e <> XCustom f) ->
    lf_prim (date_type R fmts) v = Raise (XPy EAttributeError) /\ lf_prim (dt_type R o e) v = Raise (XPy EAttributeError).
Proof. intros R fmts o e v A B C. exact (conj (date_unfit R fmts v A B) (dt_unfit R o e v A B C)). Qed.
Print Assumptions C60_export_of_unfit_dates.
Theorem C60_export_of_unfit_durations :
  forall R p v, (forall us, v <> VTimedelta us) -> lf_prim (delta_type R p) v = Raise (XPy EAttributeError).
Proof. exact delta_unfit. Qed.
Print Assumptions C60_export_of_unfit_durations.
Example C60_case_unfit : (forall d, VStr (u "2024-02-29") <> VDate d) /\ ~ is_datetime (VStr (u "2024-02-29")) /\
  (forall f, XIso <> XCustom f) /\ (forall us, VInt 5 <> VTimedelta us).
Proof. repeat split; try discriminate. intros (? & ? & ? & ?). discriminate. Qed.

Theorem C60_day_long_offsets_are_not_caught :
  forall R, dt_native R (DtOpts Allow_tz true false PBuiltin) (VStr (u "2020-01-01T00:00+99:99")) = Raise (XPy EValueError).
Proof. exact offset_escapes. Qed.
Print Assumptions C60_day_long_offsets_are_not_caught.

Theorem C60_instants_before_year_one_are_not_caught :
  forall R, dt_native R (DtOpts Allow_tz true false PBuiltin) (VStr (u "0001-01-01T00:00+01:00")) = Raise (XPy EOverflowError).
Proof. exact year_escapes. Qed.
Print Assumptions C60_instants_before_year_one_are_not_caught.

Theorem C60_infinite_timestamps_are_not_caught :
  forall R o s, dt_how o = PBuiltin -> dt_native R o (VFloat (S754_infinity s)) = Raise (XPy EOverflowError).
Proof. exact infinity_escapes. Qed.
Print Assumptions C60_infinite_timestamps_are_not_caught.

Theorem C60_bytes_are_not_caught :
  forall R o, dt_how o = PBuiltin -> dt_native R o (VBytes (u "2020-01-01T00:00")) = Raise (XPy ETypeError).
Proof. exact bytes_escape. Qed.
Print Assumptions C60_bytes_are_not_caught.

Theorem C60_infinite_durations_are_not_caught :
  forall R p s, delta_native R p (VFloat (S754_infinity s)) = Raise (XPy EOverflowError).
Proof. exact delta_infinity. Qed.
Print Assumptions C60_infinite_durations_are_not_caught.

Example C60_date_case : date_leaf rt0 (delta_type rt0 Hours) /\
  lf_native (delta_type rt0 Hours) (VStr (u "nan")) = Raise (XConv [u "convert"]) /\
  lf_native (date_type rt0 []) (VStr (u "2023-02-29")) = Raise (XConv [u "parse"]).
Proof. repeat split; try reflexivity. constructor. Qed.

(** ** C61: numbers for instants and durations *)
Theorem C61_timestamp_round_trip :
  forall R drop d t, valid_date d = true -> valid_time t = true ->
    (Z.abs (stamp d t - EPOCH) < 2 ^ 33 * 1000000)%Z \/ t_micro t = 0%Z ->
    exists f, lf_prim (timestamp_type R drop) (VDateTime d t (stored drop)) = Ok (VFloat f) /\
              lf_native (timestamp_type R drop) (VFloat f) = Ok (VDateTime d t (stored drop)).
Proof. exact timestamp_round. Qed.
Print Assumptions C61_timestamp_round_trip.

(** A datetime with another offset is exported as the timestamp of its instant. *)
Theorem C61_timestamp_of_the_instant :
  forall R drop d t off d' t', valid_date d = true -> valid_time t = true -> (Z.abs off < 86400)%Z ->
    valid_date d' = true -> valid_time t' = true -> instant d' t' 0 = instant d t off ->
    lf_prim (timestamp_type R drop) (VDateTime d t (Some off)) = Ok (VFloat (total_seconds (instant d t off - EPOCH))) /\
    lf_prim (timestamp_type R drop) (VDateTime d' t' None) = Ok (VFloat (total_seconds (instant d t off - EPOCH))).
Proof. exact (fun R drop => timestamp_aware R). Qed.
Print Assumptions C61_timestamp_of_the_instant.

Theorem C61_timestamps_of_aware_datetimes_keep_the_instant :
  forall R drop d t off d' t', valid_date d = true -> valid_time t = true -> (Z.abs off < 86400)%Z ->
    valid_date d' = true -> valid_time t' = true -> instant d' t' 0 = instant d t off ->
    (Z.abs (instant d t off - EPOCH) < 2 ^ 33 * 1000000)%Z \/ t_micro t' = 0%Z ->
    exists f, lf_prim (timestamp_type R drop) (VDateTime d t (Some off)) = Ok (VFloat f) /\
              lf_native (timestamp_type R drop) (VFloat f) = Ok (VDateTime d' t' (stored drop)).
Proof. exact timestamp_aware_round. Qed.
Print Assumptions C61_timestamps_of_aware_datetimes_keep_the_instant.

Example C61_case_aware :
  instant (PyDate 2024 2 29) (PyTime 23 30 0 0) 0 = instant (PyDate 2024 3 1) (PyTime 1 30 0 0) 7200 /\
  dt_prim rt0 XTimestamp (VDateTime (PyDate 2024 3 1) (PyTime 1 30 0 0) (Some 7200%Z)) = Ok (VFloat (total_seconds 1709249400000000)).
Proof. split; vm_compute; reflexivity. Qed.

(** Farther from 1970 a microsecond may be lost. *)
Theorem C61_far_timestamps_refuted :
  exists d t, valid_date d = true /\ valid_time t = true /\ forall R,
    exists f t', lf_prim (timestamp_type R false) (VDateTime d t (Some 0%Z)) = Ok (VFloat f) /\
      lf_native (timestamp_type R false) (VFloat f) = Ok (VDateTime d t' (Some 0%Z)) /\ t' <> t.
Proof. exact far_lost. Qed.
Print Assumptions C61_far_timestamps_refuted.

(** Whole numbers of seconds, minutes, hours, days or weeks, up to the limit of durations. *)
Theorem C61_duration_round_trip :
  forall R p s n, unit_s p = Some s -> (-999999999 <= n * Zpos (unit_us p) / day_us <= 999999999)%Z ->
    lf_prim (delta_type R p) (VTimedelta (n * Zpos (unit_us p))) = Ok (VInt n) /\
    lf_native (delta_type R p) (VInt n) = Ok (VTimedelta (n * Zpos (unit_us p))).
Proof. exact delta_round. Qed.
Print Assumptions C61_duration_round_trip.

(** Booleans are read as the numbers 0 and 1. *)
Theorem C61_booleans_are_numbers :
  forall R, (forall p b, lf_native (delta_type R p) (VBool b) = lf_native (delta_type R p) (VInt (if b then 1 else 0))) /\
    (forall drop b, lf_native (timestamp_type R drop) (VBool b) = lf_native (timestamp_type R drop) (VInt (if b then 1 else 0))).
Proof. exact (fun R => conj (bool_durations R) (bool_timestamps R)). Qed.
Print Assumptions C61_booleans_are_numbers.

(** A number of microseconds is rounded to the nearest whole one, of two to the even one. *)
Theorem C61_microseconds_are_rounded :
  forall R s m e us, canonical m e ->
    (lf_native (delta_type R Microseconds) (VFloat (S754_finite s m e)) = Ok (VTimedelta us) <->
     nearest_whole (float_value s m e) us /\ (-999999999 <= us / day_us <= 999999999)%Z).
Proof. exact micro_rounded. Qed.
Print Assumptions C61_microseconds_are_rounded.

Example C61_case_rounded : canonical 6755399441055744 (-52) /\
  nearest_whole (float_value false 6755399441055744 (-52)) 2 /\
  lf_native (delta_type rt0 Microseconds) (VStr (u "1.5")) = Ok (VTimedelta 2) /\
  lf_native (delta_type rt0 Microseconds) (VStr (u "2.5")) = Ok (VTimedelta 2) /\
  lf_native (delta_type rt0 Microseconds) (VStr (u "-0.5")) = Ok (VTimedelta 0).
Proof.
  split; [repeat split; try (vm_compute; congruence); left; vm_compute; congruence|].
  split; [right; split; reflexivity|]. repeat split; vm_compute; reflexivity.
Qed.

(** With finer units whole numbers are not kept. *)
Theorem C61_milliseconds_refuted :
  exists us, forall R, (us mod 1000 = 0)%Z /\ lf_prim (delta_type R Milliseconds) (VTimedelta us) = Ok (VInt (us / 1000 - 1)).
Proof. exact (match ms_lost with ex_intro _ us H => ex_intro _ us (fun R => H) end). Qed.
Print Assumptions C61_milliseconds_refuted.
Theorem C61_microseconds_refuted :
  exists us, forall R, lf_prim (delta_type R Microseconds) (VTimedelta us) = Ok (VInt (us - 1)).
Proof. exact (match us_lost with ex_intro _ us H => ex_intro _ us (fun R => H) end). Qed.
Print Assumptions C61_microseconds_refuted.

Example C61_case : valid_date leap_day = true /\ valid_time noonish = true /\
  (Z.abs (stamp leap_day noonish - EPOCH) < 2 ^ 33 * 1000000)%Z /\ t_micro noonish = 7%Z /\
  unit_s Weeks = Some 604800%positive /\ unit_s Milliseconds = None /\
  lf_native (delta_type rt0 Hours) (VStr (u "1.5")) = Ok (VTimedelta 5400000000).
Proof. repeat split; vm_compute; reflexivity. Qed.

(** ** C62: the texts that are read as datetimes *)
Theorem C62_accepted_texts :
  forall U, un_digit U 8722 = None -> forall s d t z,
    dt_parse U s = Some (d, t, z) <-> iso_text U s d t z /\ valid_date d = true /\ valid_time t = true.
Proof. exact iso_text_iff. Qed.
Print Assumptions C62_accepted_texts.

(** A text that is no number is read by this parser. *)
Theorem C62_texts_that_are_no_numbers :
  forall R o s x, dt_how o = PBuiltin -> py_float R (VStr s) = Ok None ->
    (dt_read R (dt_how o) (VStr s) = Ok x <-> dt_parse (rt_uni R) s = Some x).
Proof. exact text_read. Qed.
Print Assumptions C62_texts_that_are_no_numbers.

(** With formats given, the first one that fits reads the value. *)
Theorem C62_first_format_that_fits :
  forall R o f r v x, dt_how o = PFormats f r ->
    (dt_read R (dt_how o) v = Ok x <->
     exists pre g post, f :: r = pre ++ g :: post /\ (forall h, In h pre -> h v = None) /\ g v = Some x).
Proof. exact dt_first. Qed.
Print Assumptions C62_first_format_that_fits.

(** A parser given by the user is the only one that is asked. *)
Theorem C62_external_parser :
  forall R o f v, dt_how o = PExternal f ->
    (forall x, dt_read R (dt_how o) v = Ok x <-> f v = Some x) /\
    (dt_read R (dt_how o) v = conv_err "parse_external" <-> f v = None).
Proof. exact external_parser. Qed.
Print Assumptions C62_external_parser.

Example C62_case_external :
  let o := DtOpts Allow_tz false false (PExternal (fun v => match v with VInt _ => Some (leap_day, noonish, None) | _ => None end)) in
  dt_native rt0 o (VInt 5) = Ok (VDateTime leap_day noonish None) /\
  dt_native rt0 o (VStr (u "2024-02-29T12:34")) = conv_err "parse_external".
Proof. split; reflexivity. Qed.

Example C62_case : un_digit (rt_uni rt0) 8722 = None /\
  dt_parse (rt_uni rt0) (u "2024-02-29 23:59,5") = None /\
  dt_parse (rt_uni rt0) (u "2024-02-29 23:59:01,5+01") = Some (leap_day, PyTime 23 59 1 500000, Some 3600%Z) /\
  dt_parse (rt_uni rt0) (u "2023-02-29T23:59") = None.
Proof. repeat split. Qed.
