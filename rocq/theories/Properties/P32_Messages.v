(** C85: the texts of error messages.  [fmt] is how Python formats a value; [other] stands for template fields with
    attributes, subscripts, conversions or formats: the theorems are about templates in which these fail. *)
From Verif.Model Require Import Py Core Num Text Types DateTime Enum Net Url Mongo Equality Messages.
From Verif.Spec Require Import MessagesSpec.
From Verif.Proofs Require Import MessagesFacts.
From Verif.Conformance Require Import Sample TypeSample.

(** ** C85 *)
(** A template with arguments gives exactly the text that it describes. *)
Theorem C85_format :
  forall U fmt other args, (forall a s t, other a s <> Ok t) ->
  forall template t, str_format U fmt other args template = Ok t <-> renders U fmt args Undecided template t.
Proof. exact format_iff. Qed.
Print Assumptions C85_format.

(** Any other template is a Python exception. *)
Theorem C85_format_raises :
  forall U fmt other args, (forall a s e, other a s = Raise e -> exists x, e = XPy x) ->
  forall template e, str_format U fmt other args template = Raise e -> exists x, e = XPy x.
Proof. exact (fun U fmt other args H s => format_raises U fmt other args H s InText Undecided). Qed.
Print Assumptions C85_format_raises.

(** Namely ValueError, IndexError or KeyError, or one that comes from a field with a format specification or an attribute. *)
Theorem C85_format_exceptions :
  forall U fmt other args template e, str_format U fmt other args template = Raise e ->
    In e [XPy EValueError; XPy EIndexError; XPy EKeyError] \/ exists r, other args r = Raise e.
Proof. exact (fun U fmt other args s => format_raises_kind U fmt other args s InText Undecided). Qed.
Print Assumptions C85_format_exceptions.

(** A failed conversion says the template of the field, or else of the class, about the value that was given. *)
Theorem C85_conversion_texts :
  forall U fmt other, (forall a s, exists x, other a s = Raise (XPy x)) ->
  forall l T x ok extra given template v t, quoting l T x ok extra -> ok v -> NoDup (dkeys given) -> in_force T given x template ->
    lf_native l v = Raise (XConv [u x]) ->
    (native_text U fmt other T given l v = Raise (XConv [t]) <-> renders U fmt (v :: extra) Undecided template t).
Proof. exact quoted. Qed.
Print Assumptions C85_conversion_texts.

(** A failed validation says the template about what was wrong: the bound, the choices, the coordinate, or the first bad locale. *)
Theorem C85_validation_texts :
  forall U fmt other, (forall a s, exists x, other a s = Raise (XPy x)) ->
  forall f T x about given template v stop, judging f T x about -> NoDup (dkeys given) -> in_force T given x template ->
    f v = Some (XValid stop [u x]) ->
    exists args, about v args /\
      forall t, validator_text U fmt other T given f v = Some (XValid stop [t]) <-> renders U fmt args Undecided template t.
Proof. exact judged. Qed.
Print Assumptions C85_validation_texts.

(** Messages about lengths, patterns, addresses and time zones are used as they are, braces included. *)
Theorem C85_plain_texts :
  forall U fmt other f T x given template v stop, plainly f T x -> NoDup (dkeys given) -> in_force T given x template ->
    f v = Some (XValid stop [u x]) -> validator_text U fmt other T given f v = Some (XValid stop [template]).
Proof. exact plain. Qed.
Print Assumptions C85_plain_texts.

Theorem C85_export_texts :
  forall U fmt other c d lo hi re lre given x template v, NoDup (dkeys given) -> in_force (multi_m lo hi re lre) given x template ->
    lf_prim (multi_type c d) v = Raise (XConv [u x]) -> In x ["no_locale"; "locale_not_found"; "convert"]%string ->
    prim_text U fmt other (multi_m lo hi re lre) given (multi_type c d) v = Raise (XConv [template]).
Proof. exact multi_export. Qed.
Print Assumptions C85_export_texts.

(** With the messages of the library a failed conversion never fails to say so. *)
Theorem C85_default_texts :
  forall U fmt other l T v e, library l T -> lf_native l v = Raise e -> (exists x, e = XPy x) \/
    (exists t, native_text U fmt other T [] l v = Raise (XConv [t])) \/
    exists stop t, native_text U fmt other T [] l v = Raise (XValid stop [t]).
Proof. exact defaults_format. Qed.
Print Assumptions C85_default_texts.

(** It is not so that every type looks at the messages of the field: DateType does not. *)
Theorem C85_date_messages_refuted :
  forall U fmt other R fs f given v,
    native_text U fmt other (date_m f) given (date_type R fs) v = native_text U fmt other (date_m f) [] (date_type R fs) v.
Proof. exact date_ignores. Qed.
Print Assumptions C85_date_messages_refuted.

(** It is not so that bad data always gives a conversion error: with a template that names a missing argument it is IndexError. *)
Theorem C85_custom_template_refuted :
  forall U fmt other l T x ok extra v, quoting l T x ok extra -> ok v -> lf_native l v = Raise (XConv [u x]) ->
    native_text U fmt other T [(k x, u "Not {9}")] l v = Raise (XPy EIndexError).
Proof. exact missing_argument. Qed.
Print Assumptions C85_custom_template_refuted.

(** It is not so that a DateTimeType always quotes what it was given: a timestamp is shown as a float. *)
Theorem C85_timestamp_texts_refuted :
  forall U fmt other R o e fs v f, dt_how o = PBuiltin -> py_float R v = Ok (Some f) ->
    lf_native (dt_type R o e) v = Raise (XConv [u "parse_tzd_reject"]) ->
    native_text U fmt other (datetime_m R (dt_how o) fs) [] (dt_type R o e) v =
    Raise (XConv [u "Could not parse " ++ fmt (VFloat f) ++ u ". Time zone offset not allowed."]).
Proof. exact timestamp_shown. Qed.
Print Assumptions C85_timestamp_texts_refuted.

Definition sample_fmt (v : pyval) : pstr := match v with VStr s => s | VInt z => dec_text z | VFloat _ => u "5.0" | _ => [] end.
Definition no_other (a : list pyval) (s : pstr) : res pstr := Raise (XPy EKeyError).
Definition stamp_opts : dt_opts := DtOpts Reject_tz false false PBuiltin.
Example C85_case :
  let U := rt_uni rt0 in
  let text := native_text U sample_fmt no_other in
  str_format U sample_fmt no_other [VStr (u "{1}"); VInt 7] (u "{1} {{{0}}}") = Ok (u "7 {{1}}") /\
  str_format U sample_fmt no_other [VInt 7] (u "a } b") = Raise (XPy EValueError) /\
  str_format U sample_fmt no_other [VInt 7; VInt 8] (u "{0}{}") = Raise (XPy EValueError) /\
  str_format U sample_fmt no_other [VInt 7; VInt 8] (u "{}{}{}") = Raise (XPy EIndexError) /\
  str_format U sample_fmt no_other [VInt 7; VInt 8] (u "{x}") = Raise (XPy EKeyError) /\
  quoting (int_type rt0 false) (int_m None None) "number_coerce" (fun _ => True) [VStr (u "int")] /\
  in_force (int_m None None) [] "number_coerce" (u "Value '{0}' is not {1}.") /\
  lf_native (int_type rt0 false) (VStr (u "x")) = Raise (XConv [u "number_coerce"]) /\
  text (int_m None None) [] (int_type rt0 false) (VStr (u "x")) = Raise (XConv [u "Value 'x' is not int."]) /\
  text (int_m None None) [(k "number_coerce", u "{0}?")] (int_type rt0 false) (VStr (u "{0}")) = Raise (XConv [u "{0}?"]) /\
  validate_range (Some (VInt 3)) None (VInt 2) = Some (XValid false [u "number_min"]) /\
  validator_text U sample_fmt no_other (int_m (Some (VInt 3)) None) [] (validate_range (Some (VInt 3)) None) (VInt 2) =
    Some (XValid false [u "Int value should be greater than or equal to 3."]) /\
  geo_range (VTuple [VInt 0; VInt (-200)]) = Some (XValid false [u "point_min"]) /\
  validator_text U sample_fmt no_other geo_m [] geo_range (VTuple [VInt 0; VInt (-200)]) =
    Some (XValid false [u "Longitude value -200 should be greater than or equal to -180."]) /\
  validator_text U sample_fmt no_other (multi_m None (Some 1%Z) None None) [] (multi_length None (Some 1%Z))
    (VDict [(k "en", VStr (u "a")); (k "fr", VStr (u "bb"))]) = Some (XValid false [u "String value in locale fr is too long."]) /\
  validator_text U sample_fmt no_other string_m [(k "max_length", u "{0} {")] (validate_length None (Some 1%Z)) (VStr (u "ab")) =
    Some (XValid false [u "{0} {"]) /\
  prim_text U sample_fmt no_other (multi_m None None None None) [] (multi_type LNone LNone) (VDict []) =
    Raise (XConv [u "No default or explicit locales were given."]) /\
  text (date_m None) [(k "parse", u "no date")] (date_type rt0 []) (VStr (u "x")) =
    Raise (XConv [u "Could not parse x. Should be ISO 8601 (YYYY-MM-DD)."]) /\
  lf_native (dt_type rt0 stamp_opts XIso) (VStr (u "5")) = Raise (XConv [u "parse_tzd_reject"]) /\
  (exists f, py_float rt0 (VStr (u "5")) = Ok (Some f)) /\
  text (datetime_m rt0 PBuiltin []) [] (dt_type rt0 stamp_opts XIso) (VStr (u "5")) =
    Raise (XConv [u "Could not parse 5.0. Time zone offset not allowed."]).
Proof.
  cbv zeta. do 5 (split; [reflexivity|]). split; [constructor|]. split; [right; split; reflexivity|].
  repeat (split; [reflexivity|]). split; [eexists; reflexivity|]. reflexivity.
Qed.
(** The templates of the library, and the keys under which the other theorems know the messages for required fields and unions. *)
Theorem C85_templates_of_the_library : forall rt pm fs lo hi mn mx ls rx,
  let of T x := dget (k x) (mt_defaults T) in let dt := datetime_m rt pm fs in
  let int := int_m lo hi in let multi := multi_m mn mx ls rx in
  m_required = u "required" /\ m_union = u "convert" /\
  (forall T, In T [string_m; dt; int; multi; uuid_m; hash_m; bool_m; date_m None; timedelta_m; geo_m; enum_m VNone; objectid_m; mac_m; url_m; email_m] ->
     of T "required" = Some (u "This field is required.") /\ of T "choices" = Some (u "Value ({0}) must be one of {1}.")) /\
  (forall T, In T [string_m; hash_m; mac_m; url_m; email_m; ip_m IPany] ->
     of T "convert" = Some (u "Couldn't interpret '{0}' as string.") /\ of T "decode" = Some (u "Invalid UTF-8 data.") /\
     of T "max_length" = Some (u "String value is too long.") /\ of T "min_length" = Some (u "String value is too short.") /\
     of T "regex" = Some (u "String value did not match validation regex.")) /\
  of uuid_m "convert" = Some (u "Couldn't interpret '{0}' value as UUID.") /\
  of int "number_coerce" = Some (u "Value '{0}' is not {1}.") /\
  of int "number_min" = Some (u "{0} value should be greater than or equal to {1}.") /\
  of int "number_max" = Some (u "{0} value should be less than or equal to {1}.") /\
  of hash_m "hash_length" = Some (u "Hash value is wrong length.") /\ of hash_m "hash_hex" = Some (u "Hash value is not hexadecimal.") /\
  of (date_m None) "parse" = Some (u "Could not parse {0}. Should be ISO 8601 (YYYY-MM-DD).") /\
  of (date_m None) "parse_formats" = Some (u "Could not parse {0}. Valid formats: {1}") /\
  of dt "parse" = Some (u "Could not parse {0}. Should be ISO 8601 or timestamp.") /\
  of dt "parse_formats" = Some (u "Could not parse {0}. Valid formats: {1}") /\ of dt "parse_external" = Some (u "Could not parse {0}.") /\
  of dt "parse_tzd_require" = Some (u "Could not parse {0}. Time zone offset required.") /\
  of dt "parse_tzd_reject" = Some (u "Could not parse {0}. Time zone offset not allowed.") /\
  of dt "tzd_require" = Some (u "Could not convert {0}. Time zone required but not found.") /\
  of dt "tzd_reject" = Some (u "Could not convert {0}. Time zone offsets not allowed.") /\
  of dt "validate_tzd_require" = Some (u "Time zone information required but not found.") /\
  of dt "validate_tzd_reject" = Some (u "Time zone information not allowed.") /\
  of dt "validate_utc_none" = Some (u "Time zone must be UTC but was None.") /\
  of dt "validate_utc_wrong" = Some (u "Time zone must be UTC.") /\
  of timedelta_m "convert" = Some (u "Couldn't interpret '{0}' value as Timedelta.") /\
  of geo_m "point_min" = Some (u "{0} value {1} should be greater than or equal to {2}.") /\
  of geo_m "point_max" = Some (u "{0} value {1} should be less than or equal to {2}.") /\
  of multi "convert" = Some (u "Couldn't interpret value as string.") /\
  of multi "max_length" = Some (u "String value in locale {0} is too long.") /\
  of multi "min_length" = Some (u "String value in locale {0} is too short.") /\
  of multi "locale_not_found" = Some (u "No requested locale was available.") /\
  of multi "no_locale" = Some (u "No default or explicit locales were given.") /\
  of multi "regex_locale" = Some (u "Name of locale {0} did not match validation regex.") /\
  of multi "regex_localized" = Some (u "String value in locale {0} did not match validation regex.") /\
  of (enum_m VNone) "convert" = Some (u "Couldn't interpret '{0}' as member of {1}.") /\
  of objectid_m "convert" = Some (u "Couldn't interpret value as an ObjectId.") /\
  of url_m "invalid_url" = Some (u "Not a well-formed URL.") /\ of url_m "not_found" = Some (u "URL could not be retrieved.") /\
  of email_m "email" = Some (u "Not a well-formed email address.").
Proof.
  intros. cbv zeta. do 2 (split; [reflexivity|]).
  split; [intros T HT; repeat (destruct HT as [<-|HT]; [repeat split; vm_compute; reflexivity|]); destruct HT|].
  split; [intros T HT; repeat (destruct HT as [<-|HT]; [repeat split; vm_compute; reflexivity|]); destruct HT|].
  repeat (split; [vm_compute; reflexivity|]). vm_compute. reflexivity.
Qed.
Print Assumptions C85_templates_of_the_library.
