(** The types of schematics/types/net.py. *)
From Verif.Model Require Import Py Core Text Types Regex.
Local Open Scope N_scope.

(** ** Characters, net.py 28-30 *)

(** [0-9]. *)
Definition dig : N -> bool := in_range 48 57.
(** [0-9A-F] with re.I (net.py 28); no other character has one of these letters as its case variant. *)
Definition hex (c : N) : bool := dig c || in_range 65 70 c || in_range 97 102 c.
(** [A-Z] with re.I (net.py 29): the letters, U+0130, U+0131 (case variants of I), U+017F (of S), U+212A (of K). *)
Definition alpha (c : N) : bool :=
  in_range 65 90 c || in_range 97 122 c || (c =? 304) || (c =? 305) || (c =? 383) || (c =? 8490).

(** ** IP addresses, net.py 35-92 *)

(** IPV4_OCTET, net.py 35. *)
Definition ipv4_octet : re :=
  ralt (rseq [rc 50; rc 53; RChr (in_range 48 53)])
      [rseq [rc 50; RChr (in_range 48 52); RChr dig];
       rseq [ropt (RChr (in_range 48 49)); RRep (RChr dig) 1 (Some 2%nat)]].
(** IPV4, net.py 36. *)
Definition ipv4 : re := RSeq (RRep (RSeq ipv4_octet (rc 46)) 3 (Some 3%nat)) ipv4_octet.
(** IPV6_H16, net.py 38. *)
Definition h16 : re := RRep (RChr hex) 1 (Some 4%nat).
(** IPV6_L32, net.py 39. *)
Definition l32 : re := RAlt (rseq [h16; rc 58; h16]) ipv4.
(** [(h16:){n}]. *)
Definition h16s (n : nat) : re := RRep (RSeq h16 (rc 58)) n (Some n).
(** [((h16:){,n}h16)?]. *)
Definition h16_opt (n : nat) : re := ropt (RSeq (RRep (RSeq h16 (rc 58)) 0 (Some n)) h16).
(** [::]. *)
Definition colons : re := RSeq (rc 58) (rc 58).
(** IPV6, net.py 40-50. *)
Definition ipv6 : re :=
  ralt (RSeq (h16s 6) l32)
      [rseq [colons; h16s 5; l32];
       rseq [ropt h16; colons; h16s 4; l32];
       rseq [h16_opt 1; colons; h16s 3; l32];
       rseq [h16_opt 2; colons; h16s 2; l32];
       rseq [h16_opt 3; colons; h16s 1; l32];
       rseq [h16_opt 4; colons; l32];
       rseq [h16_opt 5; colons; h16];
       rseq [h16_opt 6; colons]].
(** The three classes, net.py 57, 75, 85: [^IPV4|IPV6$], [^IPV4$], [^IPV6$]. *)
Inductive ip_version := IPany | IPv4 | IPv6.
(** REGEX of the three classes, net.py 57, 75, 85. *)
Definition ip_regex (v : ip_version) : re :=
  match v with
  | IPany => RAlt (RSeq RBol ipv4) (RSeq ipv6 REol)
  | IPv4 => rseq [RBol; ipv4; REol]
  | IPv6 => rseq [RBol; ipv6; REol]
  end.
(** valid_ip, net.py 59-61. *)
Definition valid_ip (v : ip_version) (s : pstr) : bool := re_test (ip_regex v) s.
(** A validator that tests a text; [re.match] of anything else raises TypeError. *)
Definition text_validator (stop : bool) (p : pstr -> bool) (msg : string) : vldr := fun v =>
  match v with
  | VStr s => if p s then None else Some (XValid stop [u msg])
  | _ => Some (XPy ETypeError)
  end.
(** validate_, net.py 63-65. *)
Definition validate_ip (v : ip_version) : vldr := text_validator false (valid_ip v) "Invalid IP address".

(** ** MAC addresses, net.py 95-117 *)

(** REGEX, net.py 98-106; the third alternative has no end. *)
Definition mac_regex : re :=
  let hexes n := RRep (RChr hex) n (Some n) in
  ralt (rseq [RBol; RRep (RSeq (hexes 2%nat) (rc 45)) 5 (Some 5%nat); hexes 2%nat; REol])
      [rseq [RBol; RRep (RSeq (hexes 2%nat) (rc 58)) 5 (Some 5%nat); hexes 2%nat; REol];
       rseq [RBol; hexes 12%nat];
       rseq [RBol; hexes 6%nat; RChr (fun c => (c =? 45) || (c =? 58)); hexes 6%nat; REol];
       rseq [RBol; hexes 4%nat; RRep (RSeq (rc 46) (hexes 4%nat)) 2 (Some 2%nat); REol]].
(** validate_, net.py 111-113. *)
Definition valid_mac (s : pstr) : bool := re_test mac_regex s.
(** validate_, net.py 111-113. *)
Definition validate_mac : vldr := text_validator false valid_mac "Invalid MAC address".
(** [':'.join(value[i:i+2] for i in range(0, len(value), 2))]. *)
Fixpoint pairs (s : pstr) : pstr :=
  match s with
  | a :: b :: [] => [a; b]
  | a :: b :: r => a :: b :: 58 :: pairs r
  | _ => s
  end.
(** [value.replace(':', '').replace('.', '').replace('-', '')]. *)
Definition mac_strip (s : pstr) : pstr := filter (fun c => negb ((c =? 58) || (c =? 46) || (c =? 45))) s.
(** to_primitive, net.py 115-117; other values have no [replace] taking text. *)
Definition mac_prim (v : pyval) : res pyval :=
  match v with
  | VStr s => Ok (VStr (pairs (mac_strip s)))
  | VBytes _ => Raise (XPy ETypeError)
  | _ => Raise (XPy EAttributeError)
  end.
(** The class, net.py 95-117. *)
Definition mac_type : leaf := Leaf (lf_native string_leaf) mac_prim.

(** ** Email addresses, net.py 259-284 *)

(** [atext], net.py 272. *)
Definition atext (c : N) : bool := alpha c || dig c || existsb (N.eqb c) (u "-!#$%&'*+/=?^_`{|}~").
(** [qtext] and white space, net.py 269, 273: all printable ASCII except the quote and the backslash, and with re.I the
    case variants of the letters. *)
Definition qtext (U : unicode) (c : N) : bool := (c =? 33) || in_range 35 91 c || in_range 93 126 c || alpha c || is_space U c.
(** [vchar] and white space, net.py 269, 274; the case variants of the letters as well. *)
Definition vtext (U : unicode) (c : N) : bool := in_range 33 126 c || alpha c || is_space U c.
(** [A-Z0-9-], net.py 270. *)
Definition ldh (c : N) : bool := alpha c || dig c || (c =? 45).
(** EMAIL_REGEX, net.py 268-276. *)
Definition email_regex (U : unicode) : re :=
  rseq [RBol;
        RAlt (RSeq (RRep (RChr atext) 1 None) (RRep (RSeq (rc 46) (RRep (RChr atext) 1 None)) 0 None))
             (rseq [rc 34; RRep (RAlt (RChr (qtext U)) (RSeq (rc 92) (RChr (vtext U)))) 0 None; rc 34]);
        rc 64;
        RRep (rseq [RNotNext 45; RRep (RChr ldh) 1 (Some 63%nat); RNotPrev 45; rc 46]) 1 None;
        RRep (RChr alpha) 2 (Some 63%nat);
        REol].
(** validate_email, net.py 282-284. *)
Definition valid_email (U : unicode) (s : pstr) : bool := re_test (email_regex U) s.
(** validate_email, net.py 282-284: StopValidationError. *)
Definition validate_email (U : unicode) : vldr := text_validator true (valid_email U) "email".
