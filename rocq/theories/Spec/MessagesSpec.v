(** The texts of error messages. *)
From Verif.Model Require Import Py Core Num Text Types DateTime Enum Net Url Mongo Equality Messages.

Section Renders.
  Context (U : unicode) (fmt : pyval -> pstr) (args : list pyval).
  (** The number that digits write, after [acc]. *)
  Inductive reads : N -> pstr -> N -> Prop :=
  | rd_end acc : reads acc [] acc
  | rd_digit acc c d s n : udigit U c = Some d -> reads (acc * 10 + d)%N s n -> reads acc (c :: s) n.
  (** [renders st template text]: braces are written twice; a number in braces stands for the argument at that index; empty
      braces stand for the arguments in turn; one template does not do both.  The arguments are not looked into. *)
  Inductive renders : numbering -> pstr -> pstr -> Prop :=
  | rn_nil st : renders st [] []
  | rn_char st c s t : c <> 123%N -> c <> 125%N -> renders st s t -> renders st (c :: s) (c :: t)
  | rn_open st s t : renders st s t -> renders st (123%N :: 123%N :: s) (123%N :: t)
  | rn_close st s t : renders st s t -> renders st (125%N :: 125%N :: s) (125%N :: t)
  | rn_index st ds i v s t : st = Undecided \/ st = Manual -> ds <> [] -> reads 0 ds i -> nth_error args (N.to_nat i) = Some v ->
      renders Manual s t -> renders st (123%N :: ds ++ 125%N :: s) (fmt v ++ t)
  | rn_first v s t : nth_error args 0 = Some v -> renders (Auto 1) s t -> renders Undecided (123%N :: 125%N :: s) (fmt v ++ t)
  | rn_next n v s t : nth_error args n = Some v -> renders (Auto (S n)) s t -> renders (Auto n) (123%N :: 125%N :: s) (fmt v ++ t).
End Renders.

(** The template in force: the one given to the field, else that of the class. *)
Definition in_force (T : mtype) (given : list (key * pstr)) (x : string) (tpl : pstr) : Prop :=
  dget (k x) given = Some tpl \/ dget (k x) given = None /\ dget (k x) (mt_defaults T) = Some tpl.

(** Types whose conversion errors with a key quote the value, followed by more arguments. *)
Inductive quoting : leaf -> mtype -> string -> (pyval -> Prop) -> list pyval -> Prop :=
| qu_uuid R : quoting (uuid_type R) uuid_m "convert" (fun _ => True) []
| qu_string T : In T [string_m; ip_m IPany; ip_m IPv4; ip_m IPv6; mac_m; url_m; email_m] ->
    quoting string_leaf T "convert" (fun _ => True) []
| qu_decode T : In T [string_m; ip_m IPany; ip_m IPv4; ip_m IPv6; mac_m; url_m; email_m] ->
    quoting string_leaf T "decode" (fun _ => True) []
| qu_hash R n : quoting (hash_type R n) hash_m "convert" (fun _ => True) []
| qu_hash_decode R n : quoting (hash_type R n) hash_m "decode" (fun _ => True) []
| qu_int R strict lo hi : quoting (int_type R strict) (int_m lo hi) "number_coerce" (fun _ => True) [VStr (u "int")]
| qu_float R lo hi : quoting (float_type R) (float_m lo hi) "number_coerce" (fun _ => True) [VStr (u "float")]
| qu_decimal R lo hi : quoting (decimal_type R) (decimal_m lo hi) "number_coerce" (fun _ => True) [VStr (u "decimal")]
| qu_timedelta R p : quoting (delta_type R p) timedelta_m "convert" (fun _ => True) []
| qu_enum R c b cls : quoting (enum_type R c b) (enum_m cls) "convert" (fun _ => True) [cls]
| qu_formats R o e fs : quoting (dt_type R o e) (datetime_m R (dt_how o) fs) "parse_formats" (fun _ => True) [VStr fs]
| qu_external R o e fs : quoting (dt_type R o e) (datetime_m R (dt_how o) fs) "parse_external" (fun _ => True) []
| qu_given R o e fs x : In x ["tzd_require"; "tzd_reject"]%string ->
    quoting (dt_type R o e) (datetime_m R (dt_how o) fs) x (fun _ => True) []
| qu_parse R o e fs x : In x ["parse"; "parse_tzd_require"; "parse_tzd_reject"]%string ->
    quoting (dt_type R o e) (datetime_m R (dt_how o) fs) x
      (fun v => dt_how o = PBuiltin -> forall f, py_float R v <> Ok (Some f)) [].

(** Validators whose errors with a key have arguments that depend on the value. *)
Inductive judging : vldr -> mtype -> string -> (pyval -> list pyval -> Prop) -> Prop :=
| ju_min name low lo hi : judging (validate_range (Some lo) hi) (number_m name low (Some lo) hi) "number_min"
    (fun _ a => a = [VStr (u name); lo])
| ju_max name low lo hi : judging (validate_range lo (Some hi)) (number_m name low lo (Some hi)) "number_max"
    (fun _ a => a = [VStr (u name); hi])
| ju_choices E n l d str_of sl : judging (validate_choices E n (Some l)) (choices_m d str_of sl) "choices"
    (fun v a => a = [VStr (str_of v); VStr sl])
| ju_point_min : judging geo_range geo_m "point_min" (fun v a => exists lat lon, geo_normalize v = Ok [lat; lon] /\
    (py_lt lat (VInt (-90)) = Ok true /\ a = [VStr (u "Latitude"); lat; VStr (u "-90")] \/
     py_lt lat (VInt (-90)) = Ok false /\ py_lt lon (VInt (-180)) = Ok true /\ a = [VStr (u "Longitude"); lon; VInt (-180)]))
| ju_point_max : judging geo_range geo_m "point_max" (fun v a => exists lat lon, geo_normalize v = Ok [lat; lon] /\
    (py_lt (VInt 90) lat = Ok true /\ a = [VStr (u "Latitude"); lat; VStr (u "90")] \/
     py_lt (VInt 90) lat = Ok false /\ py_lt (VInt 180) lon = Ok true /\ a = [VStr (u "Longitude"); lon; VInt 180]))
| ju_locale_long lo hi re lre : judging (multi_length lo hi) (multi_m lo hi re lre) "max_length" (fun v a => exists d1 x w d2,
    v = VDict (d1 ++ (x, w) :: d2) /\ multi_length lo hi (VDict d1) = None /\
    multi_length lo hi (VDict [(x, w)]) <> None /\ a = [key_val x])
| ju_locale_short lo hi re lre : judging (multi_length lo hi) (multi_m lo hi re lre) "min_length" (fun v a => exists d1 x w d2,
    v = VDict (d1 ++ (x, w) :: d2) /\ multi_length lo hi (VDict d1) = None /\
    multi_length lo hi (VDict [(x, w)]) <> None /\ a = [key_val x])
| ju_locale_text lo hi re lre x0 : In x0 ["regex_localized"; "regex_locale"]%string ->
    judging (multi_regex re lre) (multi_m lo hi re lre) x0 (fun v a => exists d1 x w d2,
    v = VDict (d1 ++ (x, w) :: d2) /\ multi_regex re lre (VDict d1) = None /\
    multi_regex re lre (VDict [(x, w)]) <> None /\ a = [key_val x]).

(** Validators whose messages take no arguments: the template is the text. *)
Inductive plainly : vldr -> mtype -> string -> Prop :=
| pl_length lo hi T x : In T [string_m; hash_m; ip_m IPany; ip_m IPv4; ip_m IPv6; mac_m; url_m; email_m] ->
    In x ["max_length"; "min_length"]%string -> plainly (validate_length lo hi) T x
| pl_regex re T : In T [string_m; hash_m; ip_m IPany; ip_m IPv4; ip_m IPv6; mac_m; url_m; email_m] ->
    plainly (validate_regex re) T "regex"
| pl_email U : plainly (validate_email U) email_m "email"
| pl_url idna fqdn : plainly (validate_url idna fqdn) url_m "invalid_url"
| pl_zone R o fs x : In x ["validate_tzd_require"; "validate_tzd_reject"; "validate_utc_none"; "validate_utc_wrong"]%string ->
    plainly (validate_tz o) (datetime_m R (dt_how o) fs) x.

(** The types of the library with their messages. *)
Inductive library : leaf -> mtype -> Prop :=
| li_uuid R : library (uuid_type R) uuid_m
| li_string T : In T [string_m; ip_m IPany; ip_m IPv4; ip_m IPv6; mac_m; url_m; email_m] -> library string_leaf T
| li_int R strict lo hi : library (int_type R strict) (int_m lo hi)
| li_float R lo hi : library (float_type R) (float_m lo hi)
| li_decimal R lo hi : library (decimal_type R) (decimal_m lo hi)
| li_hash R n : library (hash_type R n) hash_m
| li_bool : library bool_type bool_m
| li_date R fs f : library (date_type R fs) (date_m f)
| li_datetime R o e fs : library (dt_type R o e) (datetime_m R (dt_how o) fs)
| li_timedelta R p : library (delta_type R p) timedelta_m
| li_geo : library geo_type geo_m
| li_multi c d lo hi re lre : library (multi_type c d) (multi_m lo hi re lre)
| li_enum R c b cls : library (enum_type R c b) (enum_m cls)
| li_objectid R B : library (objectid_type R B) objectid_m.
