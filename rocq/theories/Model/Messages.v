(** The texts of error messages: [str.format] and the places in schematics/types that raise.  The other models name a
    message by its key; here the key becomes the text.  Parameters: [fmt v] is [format(v, '')]; [other] gives the text of
    a template from a field with attributes, subscripts, a conversion or a format on.
    Simplified: a number of more digits than an index can have is out of range instead of an error of its own. *)
From Verif.Model Require Import Py Core Num Text Types DateTime Enum Net Url Mongo Equality.
Local Open Scope string_scope.
Local Open Scope list_scope.

(** Whether a template has numbered its fields so far. (runtime) *)
Inductive numbering := Undecided | Auto (next : nat) | Manual.
(** In the text of a template, or in a field after these characters. (runtime) *)
Inductive place := InText | InField (name : pstr).

Section Format.
  Context (U : unicode) (fmt : pyval -> pstr) (other : list pyval -> pstr -> res pstr).
  (** The arguments; there are no keyword arguments in base.py. *)
  Context (args : list pyval).
  (** An index, if the name of a field is a number. (runtime) *)
  Fixpoint number_name (acc : N) (s : pstr) : option N :=
    match s with
    | [] => Some acc
    | c :: r => match udigit U c with Some d => number_name (acc * 10 + d)%N r | None => None end
    end.
  (** The argument at an index; IndexError if there is none. (runtime) *)
  Definition arg_at (i : nat) : res pyval :=
    match nth_error args i with Some v => Ok v | None => Raise (XPy EIndexError) end.
  (** The value of a field with this name, and the numbering after it. (runtime) *)
  Definition field_value (st : numbering) (name : pstr) : res (numbering * pyval) :=
    match name with
    | [] => match st with
            | Manual => Raise (XPy EValueError)
            | Undecided => rbind (arg_at 0) (fun v => Ok (Auto 1, v))
            | Auto n => rbind (arg_at n) (fun v => Ok (Auto (S n), v))
            end
    | _ => match number_name 0 name with
           | None => Raise (XPy EKeyError)
           | Some i => match st with
                       | Auto _ => Raise (XPy EValueError)
                       | _ => rbind (arg_at (N.to_nat i)) (fun v => Ok (Manual, v))
                       end
           end
    end.
  (** [template.format( *args)] from a place on. (runtime) *)
  Fixpoint format_from (p : place) (st : numbering) (s : pstr) : res pstr :=
    match p, s with
    | InText, [] => Ok []
    | InText, c :: r =>
        if (c =? 123)%N then
          match r with
          | [] => Raise (XPy EValueError)
          | d :: r' => if (d =? 123)%N then rbind (format_from InText st r') (fun t => Ok (c :: t))
                       else format_from (InField []) st r
          end
        else if (c =? 125)%N then
          match r with
          | [] => Raise (XPy EValueError)
          | d :: r' => if (d =? 125)%N then rbind (format_from InText st r') (fun t => Ok (c :: t)) else Raise (XPy EValueError)
          end
        else rbind (format_from InText st r) (fun t => Ok (c :: t))
    | InField _, [] => Raise (XPy EValueError)
    | InField name, c :: r =>
        if (c =? 125)%N then
          rbind (field_value st name) (fun '(st', v) => rbind (format_from InText st' r) (fun t => Ok (fmt v ++ t)))
        else if (c =? 123)%N then Raise (XPy EValueError)
        else if existsb (N.eqb c) [33; 46; 58; 91]%N then other args (name ++ s)
        else format_from (InField (name ++ [c])) st r
    end.
  (** [template.format( *args)]. (runtime) *)
  Definition str_format (template : pstr) : res pstr := format_from InText Undecided template.
End Format.

(** How a place that raises gets its text: [self.messages[k].format( *args)], [self.MESSAGES[k].format( *args)],
    [self.messages[k]], or a text of its own. *)
Inductive site :=
| Formatted (k : string) (args : list pyval)
| OfClass (k : string) (args : list pyval)
| Unformatted (k : string)
| Fixed (s : string).

(** What a type contributes: the messages of its class (base.py 174-177, 204), and which place raised, by the key that the other
    models use and the value concerned. *)
Record mtype := MType { mt_defaults : list (key * pstr); mt_site : pstr -> pyval -> option site }.

Section Text.
  Context (U : unicode) (fmt : pyval -> pstr) (other : list pyval -> pstr -> res pstr).
  (** [d[k]]. (runtime) *)
  Definition message_at (d : list (key * pstr)) (x : string) : res pstr :=
    match dget (k x) d with Some s => Ok s | None => Raise (XPy EKeyError) end.
  (** The text of a place; [given] is the option [messages] of the field (base.py 204). *)
  Definition site_text (T : mtype) (given : list (key * pstr)) (s : site) : res pstr :=
    match s with
    | Formatted x args => rbind (message_at (dupdate (mt_defaults T) given) x) (str_format U fmt other args)
    | OfClass x args => rbind (message_at (mt_defaults T) x) (str_format U fmt other args)
    | Unformatted x => message_at (dupdate (mt_defaults T) given) x
    | Fixed t => Ok (u t)
    end.
  (** The exception with its text instead of its key: raising may fail itself. *)
  Definition with_text (T : mtype) (given : list (key * pstr)) (v : pyval) (e : exn) : exn :=
    let text x (mk : emsg -> exn) :=
      match mt_site T x v with
      | Some s => match site_text T given s with Ok t => mk t | Raise e' => e' end
      | None => e
      end in
    match e with
    | XConv [x] => text x (fun t => XConv [t])
    | XValid stop [x] => text x (fun t => XValid stop [t])
    | _ => e
    end.
  (** A conversion and a validator that raise texts. *)
  Definition native_text (T : mtype) (given : list (key * pstr)) (l : leaf) (v : pyval) : res pyval :=
    match lf_native l v with Ok w => Ok w | Raise e => Raise (with_text T given v e) end.
  (** The same for an export (base.py 296-299). *)
  Definition prim_text (T : mtype) (given : list (key * pstr)) (l : leaf) (v : pyval) : res pyval :=
    match lf_prim l v with Ok w => Ok w | Raise e => Raise (with_text T given v e) end.
  (** The same for a validator (base.py 323-334). *)
  Definition validator_text (T : mtype) (given : list (key * pstr)) (f : vldr) (v : pyval) : option exn :=
    match f v with None => None | Some e => Some (with_text T given v e) end.
End Text.

(** The places of one type, by their keys. *)
Fixpoint sites (l : list (string * site)) (x : pstr) : option site :=
  match l with
  | [] => None
  | (y, s) :: r => if pstr_eqb (u y) x then Some s else sites r x
  end.

(** BaseType.MESSAGES, base.py 174-177. *)
Definition base_messages : list (key * pstr) :=
  [(k "required", u "This field is required."); (k "choices", u "Value ({0}) must be one of {1}.")].
(** The messages of a subclass of BaseType (base.py 97-110). *)
Definition own (l : list (string * string)) : list (key * pstr) := dupdate base_messages (map (fun p => (k (fst p), u (snd p))) l).

(** UUIDType, base.py 361-363 and 377. *)
Definition uuid_m : mtype := MType (own [("convert", "Couldn't interpret '{0}' value as UUID.")])
  (fun x v => sites [("convert", Formatted "convert" [v])] x).
(** StringType.MESSAGES, base.py 392-398. *)
Definition string_messages : list (string * string) :=
  [("convert", "Couldn't interpret '{0}' as string."); ("decode", "Invalid UTF-8 data."); ("max_length", "String value is too long.");
   ("min_length", "String value is too short."); ("regex", "String value did not match validation regex.")].
(** base.py 420, 425, 430, 433, 437. *)
Definition string_sites (v : pyval) : list (string * site) :=
  [("decode", Formatted "decode" [v]); ("convert", Formatted "convert" [v]); ("max_length", Unformatted "max_length");
   ("min_length", Unformatted "min_length"); ("regex", Unformatted "regex")].
(** StringType, base.py 384-437. *)
Definition string_m : mtype := MType (own string_messages) (fun x v => sites (string_sites v) x).
(** NumberType, base.py 447-453, 487-488, 492-493, 496-497, 554-555; [name] is [number_type], [low] is [number_type.lower()];
    a bound of None is not compared with. *)
Definition number_m (name low : string) (lo hi : option pyval) : mtype :=
  let bound o := match o with Some b => b | None => VNone end in
  MType (own [("number_coerce", "Value '{0}' is not {1}."); ("number_min", "{0} value should be greater than or equal to {1}.");
              ("number_max", "{0} value should be less than or equal to {1}.")])
    (fun x v => sites [("number_coerce", Formatted "number_coerce" [v; VStr (u low)]);
                       ("number_min", Formatted "number_min" [VStr (u name); bound lo]);
                       ("number_max", Formatted "number_max" [VStr (u name); bound hi])] x).
(** IntType and FloatType and DecimalType, base.py 509, 526, 540. *)
Definition int_m := number_m "Int" "int".
(** FloatType, base.py 526. *)
Definition float_m := number_m "Float" "float".
(** DecimalType, base.py 540. *)
Definition decimal_m := number_m "Decimal" "decimal".
(** HashType, base.py 562-579. *)
Definition hash_m : mtype :=
  MType (own (string_messages ++ [("hash_length", "Hash value is wrong length."); ("hash_hex", "Hash value is not hexadecimal.")]))
    (fun x v => sites (string_sites v ++ [("hash_length", Unformatted "hash_length"); ("hash_hex", Unformatted "hash_hex")]) x).
(** BooleanType, base.py 632. *)
Definition bool_m : mtype := MType (own []) (fun x _ => sites [("Must be either true or false.", Fixed "Must be either true or false.")] x).
(** DateType, base.py 646-659 and 684; [formats] are those given, joined. *)
Definition date_m (formats : option pstr) : mtype :=
  MType (own [("parse", "Could not parse {0}. Should be ISO 8601 (YYYY-MM-DD)."); ("parse_formats", "Could not parse {0}. Valid formats: {1}")])
    (fun x v => sites [("parse", match formats with
                                 | None => OfClass "parse" [v; VStr (u "%Y-%m-%d")]
                                 | Some f => OfClass "parse_formats" [v; VStr f]
                                 end)] x).
(** What [value] is after base.py 863: texts and numbers that [float] reads are floats. *)
Definition shown (R : runtime) (how : dt_parser) (v : pyval) : pyval :=
  match how with
  | PBuiltin => match py_float R v with Ok (Some f) => VFloat f | _ => v end
  | _ => v
  end.
(** DateTimeType, base.py 742-754 and 832-880, 928-937. *)
Definition datetime_m (R : runtime) (how : dt_parser) (formats : pstr) : mtype :=
  MType (own [("parse", "Could not parse {0}. Should be ISO 8601 or timestamp."); ("parse_formats", "Could not parse {0}. Valid formats: {1}");
              ("parse_external", "Could not parse {0}."); ("parse_tzd_require", "Could not parse {0}. Time zone offset required.");
              ("parse_tzd_reject", "Could not parse {0}. Time zone offset not allowed.");
              ("tzd_require", "Could not convert {0}. Time zone required but not found.");
              ("tzd_reject", "Could not convert {0}. Time zone offsets not allowed.");
              ("validate_tzd_require", "Time zone information required but not found.");
              ("validate_tzd_reject", "Time zone information not allowed.");
              ("validate_utc_none", "Time zone must be UTC but was None."); ("validate_utc_wrong", "Time zone must be UTC.")])
    (fun x v => sites [("parse", Formatted "parse" [shown R how v]); ("parse_formats", Formatted "parse_formats" [v; VStr formats]);
                       ("parse_external", Formatted "parse_external" [v]);
                       ("parse_tzd_require", Formatted "parse_tzd_require" [shown R how v]);
                       ("parse_tzd_reject", Formatted "parse_tzd_reject" [shown R how v]);
                       ("tzd_require", Formatted "tzd_require" [v]); ("tzd_reject", Formatted "tzd_reject" [v]);
                       ("validate_tzd_require", Unformatted "validate_tzd_require");
                       ("validate_tzd_reject", Unformatted "validate_tzd_reject");
                       ("validate_utc_none", Unformatted "validate_utc_none");
                       ("validate_utc_wrong", Unformatted "validate_utc_wrong")] x).
(** TimedeltaType, base.py 988-990 and 1019. *)
Definition timedelta_m : mtype := MType (own [("convert", "Couldn't interpret '{0}' value as Timedelta.")])
  (fun x v => sites [("convert", Formatted "convert" [v])] x).
(** The arguments of the messages of GeoPointType.validate_range, base.py 1064-1079. *)
Definition geo_args (x : pstr) (v : pyval) : list pyval :=
  match geo_normalize v with
  | Ok [lat; lon] =>
      if pstr_eqb x (u "point_min") then
        match py_lt lat (VInt (-90)) with
        | Ok true => [VStr (u "Latitude"); lat; VStr (u "-90")]
        | _ => [VStr (u "Longitude"); lon; VInt (-180)]
        end
      else
        match py_lt (VInt 90) lat with
        | Ok true => [VStr (u "Latitude"); lat; VStr (u "90")]
        | _ => [VStr (u "Longitude"); lon; VInt 180]
        end
  | _ => []
  end.
(** GeoPointType, base.py 1034-1037 and 1054-1079. *)
Definition geo_m : mtype :=
  MType (own [("point_min", "{0} value {1} should be greater than or equal to {2}."); ("point_max", "{0} value {1} should be less than or equal to {2}.")])
    (fun x v => sites [("GeoPointType can only accept tuples, lists, or dicts", Fixed "GeoPointType can only accept tuples, lists, or dicts");
                       ("Value must be a two-dimensional point", Fixed "Value must be a two-dimensional point");
                       ("Both values in point must be float or int", Fixed "Both values in point must be float or int");
                       ("point_min", Formatted "point_min" (geo_args x v)); ("point_max", Formatted "point_max" (geo_args x v))] x).
(** The locale that a message of MultilingualStringType names (base.py 1178-1198): that of the first item that [check] refuses. *)
Definition bad_locale (check : list (key * pyval) -> option exn) (v : pyval) : list pyval :=
  match v with
  | VDict d => match find (fun p => match check [p] with Some _ => true | None => false end) d with
               | Some p => [key_val (fst p)]
               | None => []
               end
  | _ => []
  end.
(** MultilingualStringType, base.py 1099-1107, 1128, 1157, 1164, 1173 and 1177-1198. *)
Definition multi_m (lo hi : option Z) (re lre : option (pstr -> bool)) : mtype :=
  MType (own [("convert", "Couldn't interpret value as string."); ("max_length", "String value in locale {0} is too long.");
              ("min_length", "String value in locale {0} is too short."); ("locale_not_found", "No requested locale was available.");
              ("no_locale", "No default or explicit locales were given."); ("regex_locale", "Name of locale {0} did not match validation regex.");
              ("regex_localized", "String value in locale {0} did not match validation regex.")])
    (fun x v => sites [("Value must be a dict or None", Fixed "Value must be a dict or None"); ("convert", Unformatted "convert");
                       ("locale_not_found", Unformatted "locale_not_found"); ("no_locale", Unformatted "no_locale");
                       ("max_length", Formatted "max_length" (bad_locale (multi_length_items lo hi) v));
                       ("min_length", Formatted "min_length" (bad_locale (multi_length_items lo hi) v));
                       ("regex_localized", Formatted "regex_localized" (bad_locale (multi_regex_items re lre) v));
                       ("regex_locale", Formatted "regex_locale" (bad_locale (multi_regex_items re lre) v))] x).
(** EnumType, enum_type.py 32-34 and 56; [cls] stands for the enumeration class. *)
Definition enum_m (cls : pyval) : mtype := MType (own [("convert", "Couldn't interpret '{0}' as member of {1}.")])
  (fun x v => sites [("convert", Formatted "convert" [v; cls])] x).
(** ObjectIdType, mongo.py 26-28 and 39. *)
Definition objectid_m : mtype := MType (own [("convert", "Couldn't interpret value as an ObjectId.")])
  (fun x _ => sites [("convert", Unformatted "convert")] x).
(** IPAddressType, IPv4Type, IPv6Type, net.py 56, 65, 74, 84. *)
Definition ip_m (v : ip_version) : mtype :=
  MType (own string_messages)
    (fun x w => sites (string_sites w ++ [("Invalid IP address", Fixed match v with IPany => "Invalid IP address" | IPv4 => "Invalid IPv4 address"
                                                                       | IPv6 => "Invalid IPv6 address" end)]) x).
(** MACAddressType, net.py 113. *)
Definition mac_m : mtype := MType (own string_messages)
  (fun x v => sites (string_sites v ++ [("Invalid MAC address", Fixed "Invalid MAC address")]) x).
(** URLType, net.py 169-172 and 244. *)
Definition url_m : mtype :=
  MType (own (string_messages ++ [("invalid_url", "Not a well-formed URL."); ("not_found", "URL could not be retrieved.")]))
    (fun x v => sites (string_sites v ++ [("invalid_url", Unformatted "invalid_url")]) x).
(** EmailType, net.py 264-266 and 284. *)
Definition email_m : mtype :=
  MType (own (string_messages ++ [("email", "Not a well-formed email address.")]))
    (fun x v => sites (string_sites v ++ [("email", Unformatted "email")]) x).
(** The message for choices of any type with these messages, base.py 343; [str_of] is [str], [shown_choices] is [str(self.choices)]. *)
Definition choices_m (defaults : list (key * pstr)) (str_of : pyval -> pstr) (shown_choices : pstr) : mtype :=
  MType defaults (fun x v => sites [("choices", Formatted "choices" [VStr (str_of v); VStr shown_choices])] x).
