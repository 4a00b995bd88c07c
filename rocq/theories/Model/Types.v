(** The leaf types of schematics/types/base.py: conversions, exports and validators.
    Messages are represented by the key of the message template (Messages.v has the texts). *)
From Verif.Model Require Import Py Core Num Text.
Local Open Scope N_scope.

(** The part of the runtime that stays open: the Unicode tables, and [str(x)] of values that are neither text, integer
    nor Decimal (base.py 381, 543, 550), and whether [strftime] pads the year to four digits (depends on the version of
    CPython and on the platform; base.py 687, 922). *)
Record runtime := Runtime { rt_uni : unicode; rt_str : pyval -> pstr; rt_pad_year : bool }.

(** A conversion or a validation error with this message key. *)
Definition conv_err {A} (m : string) : res A := Raise (XConv [u m]).
(** The same for a validation error. *)
Definition valid_err (m : string) : option exn := Some (XValid false [u m]).

(** [len(value)]: TypeError for values without length. (runtime)  Simplification: instances, which have one
    (models.py 405-406), count as without; they are no text. *)
Definition py_len (v : pyval) : res Z :=
  match v with
  | VStr s => Ok (Z.of_nat (length s))
  | VBytes s => Ok (Z.of_nat (length s))
  | VList l => Ok (Z.of_nat (length l))
  | VTuple l => Ok (Z.of_nat (length l))
  | VDict d => Ok (Z.of_nat (length d))
  | _ => Raise (XPy ETypeError)
  end.

(** ** StringType, base.py 384-437 *)

(** to_native, base.py 412-425: integers and UTF-8 data are cast, booleans are not. *)
Definition string_native (v : pyval) : res pyval :=
  match v with
  | VStr _ => Ok v
  | VBytes b => match utf8_decode b with Some s => Ok (VStr s) | None => conv_err "decode" end
  | VInt z => Ok (VStr (dec_text z))
  | _ => conv_err "convert"
  end.
(** StringType has BaseType's to_primitive, base.py 296-299. *)
Definition string_leaf : leaf := Leaf string_native (fun v => Ok v).

(** validate_length, base.py 427-433. *)
Definition validate_length (lo hi : option Z) : vldr := fun v =>
  match py_len v with
  | Raise e => Some e
  | Ok n =>
      if match hi with Some m => (m <? n)%Z | None => false end then valid_err "max_length"
      else if match lo with Some m => (n <? m)%Z | None => false end then valid_err "min_length"
      else None
  end.
(** validate_regex, base.py 435-437; the pattern is the predicate [pattern.match(text) is not None]. *)
Definition validate_regex (re : option (pstr -> bool)) : vldr := fun v =>
  match re with
  | None => None
  | Some p => match v with
              | VStr s => if p s then None else valid_err "regex"
              | _ => Some (XPy ETypeError)
              end
  end.

(** ** NumberType, base.py 440-499 *)

(** [int(value)]: ValueError and TypeError are [None] (both are caught, base.py 477).  An infinite float raises
    OverflowError, which is not.  Simplification: instances of other classes have no [__int__]. *)
Definition py_int (R : runtime) (v : pyval) : res (option Z) :=
  match v with
  | VBool b => Ok (Some (if b then 1 else 0)%Z)
  | VInt z => Ok (Some z)
  | VStr s => Ok (int_text (rt_uni R) 10 s)
  | VBytes s => Ok (int_text (Unicode (fun _ => false) (fun _ => None)) 10 s)
  | VFloat (S754_infinity _) => Raise (XPy EOverflowError)
  | VFloat f => Ok (num_trunc (float_num f))
  | VDecimal c e => Ok (num_trunc (decimal_num c e))
  | VUUID n => Ok (Some (Z.of_N n))
  | _ => Ok None
  end.
(** [native_value == value] for an integer and a value. (runtime) *)
Definition int_equals (z : Z) (v : pyval) : bool :=
  match num_of v with Some n => num_eqb (NFin z 1) n | None => false end.
(** IntType: to_native, base.py 470-488 with native_type = int (base.py 502-516). *)
Definition int_native (R : runtime) (strict : bool) (v : pyval) : res pyval :=
  let v := match v with VBool b => VInt (if b then 1 else 0) | _ => v end in
  match v with
  | VInt _ => Ok v
  | _ => rbind (py_int R v) (fun o =>
         match o with
         | None => conv_err "number_coerce"
         | Some z =>
             if negb strict && int_equals z v then Ok (VInt z)
             else match v with VStr _ => Ok (VInt z) | _ => conv_err "number_coerce" end
         end)
  end.
(** IntType, base.py 502-516. *)
Definition int_type (R : runtime) (strict : bool) : leaf := Leaf (int_native R strict) (fun v => Ok v).

(** [float(value)] as for [py_int]. *)
Definition py_float (R : runtime) (v : pyval) : res (option spec_float) :=
  match v with
  | VBool b => Ok (Some (if b then S754_finite false 4503599627370496 (-52) else S754_zero false))
  | VInt z => rbind (float_of_int z) (fun f => Ok (Some f))
  | VFloat f => Ok (Some f)
  | VStr s => Ok (float_text (rt_uni R) s)
  | VBytes s => Ok (float_ascii s)
  | VDecimal c e => Ok (Some (float_of_dec (c <? 0)%Z (Z.abs_N c) e))
  | _ => Ok None
  end.
(** FloatType: base.py 470-488 with native_type = float (base.py 519-530); [strict] plays no role (line 480). *)
Definition float_native (R : runtime) (v : pyval) : res pyval :=
  let v := match v with VBool b => VInt (if b then 1 else 0) | _ => v end in
  match v with
  | VFloat _ => Ok v
  | _ => rbind (py_float R v) (fun o =>
         match o with Some f => Ok (VFloat f) | None => conv_err "number_coerce" end)
  end.
(** FloatType, base.py 519-530. *)
Definition float_type (R : runtime) : leaf := Leaf (float_native R) (fun v => Ok v).

(** DecimalType: to_native, base.py 545-557.  Simplification: [VObj 0] stands for every Decimal that is not finite. *)
Definition decimal_native (R : runtime) (v : pyval) : res pyval :=
  match v with
  | VDecimal _ _ | VObj 0 => Ok v
  | VBool b => Ok (VDecimal (if b then 1 else 0) 0)
  | _ =>
      let s := match v with VStr s => s | VInt z => dec_text z | _ => rt_str R v end in
      match decimal_text (rt_uni R) s with
      | Some (DFin c e) => Ok (VDecimal c e)
      | Some DSpecial => Ok (VObj 0)
      | None => conv_err "number_coerce"
      end
  end.
(** to_primitive: [str(value)], base.py 542-543. *)
Definition decimal_prim (R : runtime) (v : pyval) : res pyval :=
  match v with
  | VDecimal c e => Ok (VStr (decimal_str c e))
  | VStr _ => Ok v
  | VInt z => Ok (VStr (dec_text z))
  | _ => Ok (VStr (rt_str R v))
  end.
(** DecimalType, base.py 533-557. *)
Definition decimal_type (R : runtime) : leaf := Leaf (decimal_native R) (decimal_prim R).

(** NumberType.validate_range, base.py 490-499. *)
Definition validate_range (lo hi : option pyval) : vldr := fun v =>
  match match lo with Some m => py_lt v m | None => Ok false end with
  | Raise e => Some e
  | Ok true => valid_err "number_min"
  | Ok false =>
      match match hi with Some m => py_lt m v | None => Ok false end with
      | Raise e => Some e
      | Ok true => valid_err "number_max"
      | Ok false => None
      end
  end.

(** ** HashType, base.py 560-595 *)

(** to_native, base.py 570-579; [len] is the digest length (MD5 32, SHA1 40). *)
Definition hash_native (R : runtime) (len : nat) (v : pyval) : res pyval :=
  rbind (string_native v) (fun w =>
    match w with
    | VStr s =>
        if Nat.eqb (length s) len then
          match int_text (rt_uni R) 16 s with Some _ => Ok w | None => conv_err "hash_hex" end
        else Raise (XValid false [u "hash_length"])
    | _ => Ok w
    end).
(** HashType, base.py 560-579. *)
Definition hash_type (R : runtime) (len : nat) : leaf := Leaf (hash_native R len) (fun v => Ok v).

(** ** BooleanType, base.py 598-634 *)

(** TRUE_VALUES and FALSE_VALUES, base.py 611-612. *)
Definition true_texts : list pstr := [u "True"; u "true"; u "1"].
(** FALSE_VALUES, base.py 612. *)
Definition false_texts : list pstr := [u "False"; u "false"; u "0"].
(** to_native, base.py 621-634. *)
Definition bool_native (v : pyval) : res pyval :=
  match v with
  | VStr s => if existsb (pstr_eqb s) true_texts then Ok (VBool true)
              else if existsb (pstr_eqb s) false_texts then Ok (VBool false)
              else conv_err "Must be either true or false."
  | VInt z => if Z.eqb z 0 then Ok (VBool false) else if Z.eqb z 1 then Ok (VBool true)
              else conv_err "Must be either true or false."
  | VBool _ => Ok v
  | _ => conv_err "Must be either true or false."
  end.
(** BooleanType, base.py 598-634. *)
Definition bool_type : leaf := Leaf bool_native (fun v => Ok v).

(** ** UUIDType, base.py 353-381 *)

(** uuid.UUID(hex=text) (CPython Lib/uuid.py 175-217); [None] is ValueError. *)
Definition uuid_text (U : unicode) (s : pstr) : option N :=
  let s := remove_text (u "urn:") 0 s in
  let s := remove_text (u "uuid:") 0 s in
  let s := strip (fun c => (c =? 123) || (c =? 125)) s in
  let s := filter (fun c => negb (c =? 45)) s in
  if Nat.eqb (length s) 32 then
    match int_text U 16 s with
    | Some z => if (0 <=? z)%Z && (z <? 2 ^ 128)%Z then Some (Z.to_N z) else None
    | None => None
    end
  else None.
(** str(uuid) (Lib/uuid.py 279-282). *)
Definition uuid_str (n : N) : pstr :=
  let h := padded 32 16 n in
  (firstn 8 h ++ 45 :: firstn 4 (skipn 8 h) ++ 45 :: firstn 4 (skipn 12 h) ++ 45 :: firstn 4 (skipn 16 h)
     ++ 45 :: skipn 20 h)%list.
(** to_native, base.py 372-378.  Values without a method [replace] raise AttributeError, which is not caught. *)
Definition uuid_native (R : runtime) (v : pyval) : res pyval :=
  match v with
  | VUUID _ => Ok v
  | VStr s => match uuid_text (rt_uni R) s with Some n => Ok (VUUID n) | None => conv_err "convert" end
  | VNone | VBytes _ | VDate _ | VDateTime _ _ _ => conv_err "convert"
  | _ => Raise (XPy EAttributeError)
  end.
(** to_primitive: [str(value)], base.py 380-381. *)
Definition uuid_prim (R : runtime) (v : pyval) : res pyval :=
  match v with
  | VUUID n => Ok (VStr (uuid_str n))
  | VStr _ => Ok v
  | _ => Ok (VStr (rt_str R v))
  end.
(** UUIDType, base.py 353-381. *)
Definition uuid_type (R : runtime) : leaf := Leaf (uuid_native R) (uuid_prim R).

(** ** GeoPointType, base.py 1026-1079 *)

(** [_normalize] of the accepted kinds of values, base.py 1042-1048. *)
Definition geo_elems (v : pyval) : option (list pyval) :=
  match v with
  | VTuple l | VList l => Some l
  | VDict d => Some (map snd d)
  | _ => None
  end.
(** [isinstance(v, (float, int))]; bool is a subclass of int. *)
Definition is_float_or_int (v : pyval) : bool :=
  match v with VFloat _ | VInt _ | VBool _ => true | _ => false end.
(** to_native, base.py 1050-1060. *)
Definition geo_native (v : pyval) : res pyval :=
  match geo_elems v with
  | None => conv_err "GeoPointType can only accept tuples, lists, or dicts"
  | Some l =>
      if negb (Nat.eqb (length l) 2) then conv_err "Value must be a two-dimensional point"
      else if negb (forallb is_float_or_int l) then conv_err "Both values in point must be float or int"
      else Ok v
  end.
(** GeoPointType, base.py 1026-1079. *)
Definition geo_type : leaf := Leaf geo_native (fun v => Ok v).
(** One comparison of validate_range: raise [m] if it holds. *)
Definition geo_check (r : res bool) (m : string) (next : option exn) : option exn :=
  match r with Raise e => Some e | Ok true => valid_err m | Ok false => next end.
(** [_normalize] of any value, base.py 1042-1048; [list(value)] raises TypeError for what cannot be iterated.
    Simplification: the names of an instance of a model are taken for other than two. *)
Definition geo_normalize (v : pyval) : res (list pyval) :=
  match v with
  | VTuple l | VList l => Ok l
  | VDict d => Ok (map snd d)
  | VStr s => Ok (map (fun c => VStr [c]) s)
  | VBytes b => Ok (map (fun c => VInt (Z.of_N c)) b)
  | VModel _ _ => Ok []
  | _ => Raise (XPy ETypeError)
  end.
(** validate_range, base.py 1062-1079; unpacking anything but two elements raises ValueError. *)
Definition geo_range : vldr := fun v =>
  match geo_normalize v with
  | Raise e => Some e
  | Ok [lat; lon] =>
      geo_check (py_lt lat (VInt (-90))) "point_min"
     (geo_check (py_lt (VInt 90) lat) "point_max"
     (geo_check (py_lt lon (VInt (-180))) "point_min"
     (geo_check (py_lt (VInt 180) lon) "point_max" None)))
  | _ => Some (XPy EValueError)
  end.

(** ** MultilingualStringType, base.py 1082-1198 *)

(** A locale setting: none, one name, or several (base.py 1147-1154). A false one (empty text or list) is skipped. *)
Inductive locales := LNone | LOne (s : pstr) | LMany (l : list key).
(** The names in a setting (base.py 1147-1154). *)
Definition locale_list (l : locales) : list key :=
  match l with LNone => [] | LOne [] => [] | LOne s => [KStr s] | LMany l => l end.
(** to_native, base.py 1124-1130. *)
Definition multi_native (v : pyval) : res pyval :=
  match v with VNone | VDict _ => Ok v | _ => conv_err "Value must be a dict or None" end.
(** The first locale that is available, base.py 1159-1164. *)
Fixpoint pick_locale (d : list (key * pyval)) (ls : list key) : option pyval :=
  match ls with
  | [] => None
  | x :: r => match dget x d with Some v => Some v | None => pick_locale d r end
  end.
(** The cast of the localized value, base.py 1166-1173.  Undecodable data raises UnicodeDecodeError, a ValueError. *)
Definition multi_cast (v : pyval) : res pyval :=
  match v with
  | VStr _ => Ok v
  | VBytes b => match utf8_decode b with Some s => Ok (VStr s) | None => Raise (XPy EValueError) end
  | VInt z => Ok (VStr (dec_text z))
  | VBool b => Ok (VStr (if b then u "True" else u "False"))
  | _ => conv_err "convert"
  end.
(** to_primitive, base.py 1132-1175; [ctx] is [context.app_data['locale']], [dflt] is [default_locale].
    Simplification: a value that is not a dict raises TypeError. *)
Definition multi_prim (ctx dflt : locales) (v : pyval) : res pyval :=
  match v with
  | VNone => Ok VNone
  | VDict d =>
      match (locale_list ctx ++ locale_list dflt)%list with
      | [] => conv_err "no_locale"
      | ls => match pick_locale d ls with
              | Some w => multi_cast w
              | None => conv_err "locale_not_found"
              end
      end
  | _ => match (locale_list ctx ++ locale_list dflt)%list with [] => conv_err "no_locale" | _ => Raise (XPy ETypeError) end
  end.
(** MultilingualStringType, base.py 1082-1198. *)
Definition multi_type (ctx dflt : locales) : leaf := Leaf multi_native (multi_prim ctx dflt).

(** [len(localized) if localized else 0], base.py 1179. *)
Definition local_len (v : pyval) : res Z := if truthy v then py_len v else Ok 0%Z.
(** validate_length, base.py 1177-1185. *)
Fixpoint multi_length_items (lo hi : option Z) (d : list (key * pyval)) : option exn :=
  match d with
  | [] => None
  | (_, v) :: r =>
      match local_len v with
      | Raise e => Some e
      | Ok n =>
          if match hi with Some m => (m <? n)%Z | None => false end then valid_err "max_length"
          else if match lo with Some m => (n <? m)%Z | None => false end then valid_err "min_length"
          else multi_length_items lo hi r
      end
  end.
(** validate_length, base.py 1177-1185. *)
Definition multi_length (lo hi : option Z) : vldr := fun v =>
  match v with VDict d => multi_length_items lo hi d | _ => Some (XPy EAttributeError) end.

(** [pattern.match(x) is None] raises TypeError unless [x] is text. (runtime) *)
Definition no_match (re : option (pstr -> bool)) (v : pyval) (m : string) (next : option exn) : option exn :=
  match re with
  | None => next
  | Some p => match v with
              | VStr s => if p s then next else valid_err m
              | _ => Some (XPy ETypeError)
              end
  end.
(** validate_regex, base.py 1187-1198. *)
Fixpoint multi_regex_items (re lre : option (pstr -> bool)) (d : list (key * pyval)) : option exn :=
  match d with
  | [] => None
  | (x, v) :: r =>
      no_match re v "regex_localized"
     (no_match lre (key_val x) "regex_locale"
     (multi_regex_items re lre r))
  end.
(** validate_regex, base.py 1187-1198. *)
Definition multi_regex (re lre : option (pstr -> bool)) : vldr := fun v =>
  match re, lre with
  | None, None => None
  | _, _ => match v with VDict d => multi_regex_items re lre d | _ => Some (XPy EAttributeError) end
  end.

(** [$] in a pattern: the end, or before a final newline. (runtime) *)
Definition at_end (l : list N) : bool :=
  match l with [] => true | [c] => c =? 10 | _ => false end.
(** [a-z], base.py 1109. *)
Definition is_lower (c : N) : bool := (97 <=? c) && (c <=? 122).
(** [A-Z], base.py 1109. *)
Definition is_upper (c : N) : bool := (65 <=? c) && (c <=? 90).
(** LOCALE_REGEX, base.py 1109: two lower case letters, then optionally a colon (optional), an underscore and two
    upper case letters. *)
Definition locale_ok (s : pstr) : bool :=
  match s with
  | a :: b :: r =>
      is_lower a && is_lower b &&
      (at_end r ||
       (let r := match r with c :: r' => if c =? 58 then r' else r | [] => r end in
        match r with
        | us :: x :: y :: r' => (us =? 95) && is_upper x && is_upper y && at_end r'
        | _ => false
        end))
  | _ => false
  end.
