(** Text operations of the CPython runtime used by the types of schematics/types/base.py: [int(text, base)], [str(int)],
    the decimal notation of [float(text)] and [Decimal(text)], UTF-8, [str.replace] and [str.strip].
    (No line in /repo except where cited.) *)
From Verif.Model Require Import Py Num.
Local Open Scope N_scope.

(** ** Characters *)

(** The Unicode database beyond ASCII: [str.isspace] and the value of decimal digits (Py_UNICODE_ISSPACE,
    Py_UNICODE_TODECIMAL).  Every theorem holds for all such tables. *)
Record unicode := Unicode { un_space : N -> bool; un_digit : N -> option N }.

(** Py_ISSPACE: tab, newline, vertical tab, form feed, carriage return, space. *)
Definition is_ws (c : N) : bool := ((9 <=? c) && (c <=? 13)) || (c =? 32).
(** Py_UNICODE_ISSPACE: the ASCII part is fixed. *)
Definition is_space (U : unicode) (c : N) : bool :=
  if c <? 128 then is_ws c || ((28 <=? c) && (c <=? 31)) else un_space U c.
(** Py_UNICODE_TODECIMAL: the ASCII part is fixed.  A digit is below ten. *)
Definition udigit (U : unicode) (c : N) : option N :=
  if c <? 128 then if (48 <=? c) && (c <=? 57) then Some (c - 48) else None
  else match un_digit U c with Some v => Some (v mod 10) | None => None end.

(** _PyUnicode_TransformDecimalAndSpaceToASCII for one character; 63 is the question mark, which no number
    contains.  (The original stops at the first such character.) *)
Definition to_ascii (U : unicode) (c : N) : N :=
  if c <? 127 then c
  else if is_space U c then 32
  else match udigit U c with Some v => 48 + v | None => 63 end.

(** _PyLong_DigitValue: 0-9, a-z, A-Z. *)
Definition digit_val (c : N) : option N :=
  if (48 <=? c) && (c <=? 57) then Some (c - 48)
  else if (97 <=? c) && (c <=? 122) then Some (c - 87)
  else if (65 <=? c) && (c <=? 90) then Some (c - 55)
  else None.
(** The digit is valid in this base. *)
Definition base_digit (base c : N) : option N :=
  match digit_val c with Some v => if v <? base then Some v else None | None => None end.
(** The character of a digit, lower case. *)
Definition digit_char (v : N) : N := if v <? 10 then 48 + v else 87 + v.

(** Remove characters from the front, from both ends ([str.lstrip], [str.strip]). *)
Fixpoint drop (p : N -> bool) (l : list N) : list N :=
  match l with [] => [] | c :: r => if p c then drop p r else l end.
(** Both ends ([str.strip]). (runtime) *)
Definition strip (p : N -> bool) (l : list N) : list N := rev (drop p (rev (drop p l))).

(** ** [int(text, base)] (PyLong_FromUnicodeObject, PyLong_FromString) *)

(** Digits with single underscores between them; [us]: the previous character was an underscore. *)
Fixpoint scan (base : N) (l : list N) (acc : N) (us : bool) : option (N * list N) :=
  match l with
  | [] => if us then None else Some (acc, [])
  | c :: r =>
      if c =? 95 then if us then None else scan base r acc true
      else match base_digit base c with
           | Some v => scan base r (acc * base + v) false
           | None => if us then None else Some (acc, l)
           end
  end.

(** The optional sign. *)
Definition take_sign (l : list N) : bool * list N :=
  match l with
  | c :: r => if c =? 43 then (false, r) else if c =? 45 then (true, r) else (false, l)
  | [] => (false, [])
  end.
(** For base 16: an optional prefix 0x and one underscore after it. *)
Definition take_prefix (base : N) (l : list N) : list N :=
  match l with
  | c :: x :: r =>
      if (base =? 16) && (c =? 48) && ((x =? 120) || (x =? 88))
      then match r with c' :: r' => if c' =? 95 then r' else r | [] => r end
      else l
  | _ => l
  end.
(** The number starts with a digit and extends to the end except for blanks. *)
Definition scan_all (base : N) (l : list N) : option N :=
  match l with
  | [] => None
  | c :: _ =>
      match base_digit base c with
      | None => None
      | Some _ => match scan base l 0 false with
                  | Some (n, rest) => match drop is_ws rest with [] => Some n | _ => None end
                  | None => None
                  end
      end
  end.
(** [None] is ValueError.  Simplification: no limit on the number of digits ([sys.set_int_max_str_digits]). *)
Definition int_text (U : unicode) (base : N) (s : pstr) : option Z :=
  let '(neg, l) := take_sign (drop is_ws (map (to_ascii U) s)) in
  match scan_all base (take_prefix base l) with
  | Some n => Some (if neg then - Z.of_N n else Z.of_N n)%Z
  | None => None
  end.

(** ** [str(int)], [format(n, 'x')] *)

(** Digits of [n], most significant first; [fuel] at least the number of binary digits. *)
Fixpoint digits_of (fuel : nat) (base n : N) : list N :=
  match fuel with
  | O => []
  | S m => if n <? base then [digit_char n] else digits_of m base (n / base) ++ [digit_char (n mod base)]
  end.
(** A number in the given base without leading zeros. (runtime) *)
Definition nat_text (base n : N) : pstr := digits_of (S (N.size_nat n)) base n.
(** [str(z)] *)
Definition dec_text (z : Z) : pstr :=
  match z with Zneg p => 45 :: nat_text 10 (Npos p) | _ => nat_text 10 (Z.to_N z) end.
(** [w] digits with leading zeros ([%0wd], [%0wx]) of a number below [base ^ w]. *)
Fixpoint padded (w : nat) (base n : N) : pstr :=
  match w with O => [] | S w' => padded w' base (n / base) ++ [digit_char (n mod base)] end.

(** ** Decimal notation *)

(** ASCII digits at the front. *)
Definition is_digit (c : N) : bool := (48 <=? c) && (c <=? 57).
(** The longest prefix with a property, and the rest. (runtime) *)
Fixpoint span (p : N -> bool) (l : list N) : list N * list N :=
  match l with
  | [] => ([], [])
  | c :: r => if p c then let '(a, b) := span p r in (c :: a, b) else ([], l)
  end.
(** The number written by digits. *)
Definition digits_val (l : list N) : N := fold_left (fun acc c => acc * 10 + (c - 48)) l 0.

(** The exponent part: nothing, or e, an optional sign, digits. *)
Definition take_exp (l : list N) : option Z :=
  match l with
  | [] => Some 0%Z
  | c :: r =>
      if (c =? 101) || (c =? 69) then
        let '(neg, r) := take_sign r in
        match span is_digit r with
        | ((_ :: _) as ds, []) => Some (if neg then - Z.of_N (digits_val ds) else Z.of_N (digits_val ds))%Z
        | _ => None
        end
      else None
  end.
(** Sign, digits with an optional point, exponent: sign, coefficient, exponent (_Py_dg_strtod, mpd_qset_string). *)
Definition dec_parse (l : list N) : option (bool * N * Z) :=
  let '(neg, l) := take_sign l in
  let '(ip, l) := span is_digit l in
  let '(fp, l) := match l with
                  | c :: r => if c =? 46 then span is_digit r else ([], l)
                  | [] => ([], l)
                  end in
  match (ip ++ fp)%list with
  | [] => None
  | ds => match take_exp l with
          | Some e => Some (neg, digits_val ds, (e - Z.of_nat (length fp))%Z)
          | None => None
          end
  end.

(** Lower case of ASCII letters. *)
Definition lower (c : N) : N := if (65 <=? c) && (c <=? 90) then c + 32 else c.
(** The word is one of these, ignoring case. *)
Definition word_in (ws : list string) (l : list N) : bool :=
  existsb (fun w => pstr_eqb (u w) (map lower l)) ws.

(** ** [float(text)] (PyFloat_FromString) *)

(** Underscores only between digits; removes them (_Py_string_to_number_with_underscores). *)
Fixpoint strip_us (prev : N) (l : list N) : option (list N) :=
  match l with
  | [] => if prev =? 95 then None else Some []
  | c :: r =>
      if c =? 95 then if is_digit prev then strip_us c r else None
      else if (prev =? 95) && negb (is_digit c) then None
      else match strip_us c r with Some r' => Some (c :: r') | None => None end
  end.
(** The float nearest to [(-1)^neg * c * 10^e], ties to even. *)
Definition float_of_dec (neg : bool) (c : N) (e : Z) : spec_float :=
  match c with
  | 0 => S754_zero neg
  | Npos p =>
      if (0 <=? e)%Z
      then binary_normalize 53 1024 (if neg then - (Zpos p * 10 ^ e) else Zpos p * 10 ^ e)%Z 0 neg
      else let '(q, e', l) := SFdiv_core_binary 53 1024 (Zpos p) 0 (10 ^ (- e)) 0 in
           binary_round_aux 53 1024 neg q e' l
  end.
(** The ASCII part. [None] is ValueError. *)
Definition float_ascii (l : list N) : option spec_float :=
  match strip_us 0 (strip is_ws l) with
  | None => None
  | Some l =>
      match dec_parse l with
      | Some (neg, c, e) => Some (float_of_dec neg c e)
      | None =>
          let '(neg, w) := take_sign l in
          if word_in ["inf"; "infinity"]%string w then Some (S754_infinity neg)
          else if word_in ["nan"]%string w then Some S754_nan
          else None
      end
  end.
(** [float(text)]. (runtime; base.py 476) *)
Definition float_text (U : unicode) (s : pstr) : option spec_float := float_ascii (map (to_ascii U) s).

(** ** [Decimal(text)] and [str(Decimal)] (_decimal.c numeric_as_ascii, mpd_qset_string, mpd_to_sci) *)

(** One character; a character that is neither ASCII, blank nor digit makes the whole text invalid. *)
Definition dec_char (U : unicode) (c : N) : N :=
  if (0 <? c) && (c <=? 127) then c
  else if is_space U c then 32
  else match udigit U c with Some v => 48 + v | None => 63 end.
(** Result of reading a Decimal: finite, or infinity / not a number. *)
Inductive dec_value := DFin (coef exp : Z) | DSpecial.
(** sNaN and NaN may carry digits. *)
Definition dec_special (l : list N) : bool :=
  let w := snd (take_sign l) in
  let '(a, ds) := span (fun c => negb (is_digit c)) w in
  (word_in ["inf"; "infinity"]%string a && match ds with [] => true | _ => false end)
  || (word_in ["nan"; "snan"]%string a && forallb is_digit ds).
(** [None] is InvalidOperation.  Simplification: the sign of zero is dropped; no limit on the exponent
    (the library rejects exponents of more than 18 digits). *)
Definition decimal_text (U : unicode) (s : pstr) : option dec_value :=
  let l := map (dec_char U) (filter (fun c => negb (c =? 95)) (strip (is_space U) s)) in
  match dec_parse l with
  | Some (neg, c, e) => Some (DFin (if neg then - Z.of_N c else Z.of_N c)%Z e)
  | None => if dec_special l then Some DSpecial else None
  end.

(** [w] characters of zeros. *)
Definition zeros (w : Z) : pstr := repeat 48 (Z.to_nat w).
(** [str(Decimal)]: digits and exponent to plain or scientific notation. *)
Definition sci_text (ds : pstr) (e : Z) : pstr :=
  let n := Z.of_nat (length ds) in
  let left := (e + n)%Z in
  let dot := if (e <=? 0)%Z && (-6 <? left)%Z then left else 1%Z in
  let body :=
    if (dot <=? 0)%Z then 48 :: 46 :: zeros (- dot) ++ ds
    else if (n <=? dot)%Z then ds ++ zeros (dot - n)
    else firstn (Z.to_nat dot) ds ++ 46 :: skipn (Z.to_nat dot) ds in
  let ex := (left - dot)%Z in
  if (ex =? 0)%Z then body
  else body ++ 69 :: (if (0 <? ex)%Z then 43 :: dec_text ex else dec_text ex).
(** [str(Decimal)] of coefficient and exponent. (runtime; base.py 543) *)
Definition decimal_str (c e : Z) : pstr :=
  match c with
  | Zneg p => 45 :: sci_text (nat_text 10 (Npos p)) e
  | _ => sci_text (nat_text 10 (Z.to_N c)) e
  end.

(** ** UTF-8 *)

(** Encoding of a code point; surrogates and numbers above 0x10FFFF cannot be encoded (UnicodeEncodeError). *)
Definition utf8_char (c : N) : option (list N) :=
  if c <? 128 then Some [c]
  else if c <? 2048 then Some [192 + c / 64; 128 + c mod 64]
  else if c <? 65536 then
    if (55296 <=? c) && (c <? 57344) then None
    else Some [224 + c / 4096; 128 + c / 64 mod 64; 128 + c mod 64]
  else if c <? 1114112 then Some [240 + c / 262144; 128 + c / 4096 mod 64; 128 + c / 64 mod 64; 128 + c mod 64]
  else None.
(** [text.encode('utf-8')] *)
Fixpoint utf8_encode (s : pstr) : option (list N) :=
  match s with
  | [] => Some []
  | c :: r => match utf8_char c, utf8_encode r with Some a, Some b => Some (a ++ b) | _, _ => None end
  end.
(** A continuation byte. *)
Definition cont (b : N) : bool := (128 <=? b) && (b <? 192).
(** [str(data, 'utf-8')]: [None] is UnicodeDecodeError (stringlib/codecs.h utf8_decode: the second byte is checked
    against overlong forms, surrogates and the upper limit). *)
Fixpoint utf8_decode (l : list N) : option pstr :=
  match l with
  | [] => Some []
  | a :: r =>
      if a <? 128 then option_map (cons a) (utf8_decode r)
      else if a <? 194 then None
      else if a <? 224 then
        match r with
        | b :: r' => if cont b then option_map (cons ((a - 192) * 64 + (b - 128))) (utf8_decode r') else None
        | _ => None
        end
      else if a <? 240 then
        match r with
        | b :: c :: r' =>
            if cont b && cont c && negb ((a =? 224) && (b <? 160)) && negb ((a =? 237) && (160 <=? b))
            then option_map (cons ((a - 224) * 4096 + (b - 128) * 64 + (c - 128))) (utf8_decode r')
            else None
        | _ => None
        end
      else if a <? 245 then
        match r with
        | b :: c :: d :: r' =>
            if cont b && cont c && cont d && negb ((a =? 240) && (b <? 144)) && negb ((a =? 244) && (144 <=? b))
            then option_map (cons ((a - 240) * 262144 + (b - 128) * 4096 + (c - 128) * 64 + (d - 128))) (utf8_decode r')
            else None
        | _ => None
        end
      else None
  end.

(** ** [text.replace(old, '')] for a non-empty [old] *)

(** Whether the text starts with this one, and what follows. *)
Fixpoint take_text (w l : list N) : option (list N) :=
  match w, l with
  | [], _ => Some l
  | x :: w', y :: l' => if x =? y then take_text w' l' else None
  | _, [] => None
  end.
(** Leftmost occurrences, not overlapping; [skip] characters of an occurrence are still to be dropped. *)
Fixpoint remove_text (w : list N) (skip : nat) (l : list N) : list N :=
  match l with
  | [] => []
  | c :: r =>
      match skip with
      | S m => remove_text w m r
      | O => match take_text w l with
             | Some _ => remove_text w (length w - 1) r
             | None => c :: remove_text w 0 r
             end
      end
  end.
