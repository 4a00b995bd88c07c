(** Specification of the notations for network addresses. *)
From Verif.Model Require Import Py Text.
Local Open Scope N_scope.

(** Characters. *)
Definition dec_digit (c : N) : Prop := 48 <= c <= 57.
Definition hex_digit (c : N) : Prop := 48 <= c <= 57 \/ 65 <= c <= 70 \/ 97 <= c <= 102.
(** The number a text of decimal digits writes. *)
Definition dec_value (l : pstr) : N := fold_left (fun a c => a * 10 + (c - 48)) l 0.

(** A text, possibly followed by one newline. *)
Definition line (P : pstr -> Prop) (s : pstr) : Prop := exists t, P t /\ (s = t \/ s = t ++ [10])%list.

(** One to three digits, at most 255. *)
Definition octet (l : pstr) : Prop := (1 <= length l <= 3)%nat /\ Forall dec_digit l /\ dec_value l <= 255.
(** Four octets separated by dots. *)
Definition ipv4_text (s : pstr) : Prop :=
  exists a b c d, octet a /\ octet b /\ octet c /\ octet d /\ s = (a ++ 46 :: b ++ 46 :: c ++ 46 :: d)%list.

(** One to four hexadecimal digits: 16 bits. *)
Definition group16 (l : pstr) : Prop := (1 <= length l <= 4)%nat /\ Forall hex_digit l.
(** [n] groups separated by colons. *)
Inductive groups : nat -> pstr -> Prop :=
| gr_none : groups 0 []
| gr_one g : group16 g -> groups 1 g
| gr_more g n l : group16 g -> groups (S n) l -> groups (S (S n)) (g ++ 58 :: l).
(** [n] times 16 bits, where the last 32 may be written as an IPv4 address. *)
Inductive units : nat -> pstr -> Prop :=
| un_groups n l : groups n l -> units n l
| un_ipv4 l : ipv4_text l -> units 2 l
| un_more g n l : group16 g -> units (S n) l -> units (S (S n)) (g ++ 58 :: l).
(** 128 bits in eight groups, or with one double colon for at least one group of zeros. *)
Definition ipv6_text (s : pstr) : Prop :=
  units 8 s \/ exists i j a b, groups i a /\ units j b /\ (i + j <= 7)%nat /\ s = (a ++ 58 :: 58 :: b)%list.

(** The 12 hexadecimal digits [ds] written as a MAC address: six pairs with dashes or colons, no separator, two halves
    with a dash or a colon, three parts of four digits with dots. *)
Inductive mac_text : pstr -> pstr -> Prop :=
| mt_pairs sep a b c d e f : sep = 45 \/ sep = 58 ->
    Forall (fun g => length g = 2%nat /\ Forall hex_digit g) [a; b; c; d; e; f] ->
    mac_text (a ++ sep :: b ++ sep :: c ++ sep :: d ++ sep :: e ++ sep :: f) (a ++ b ++ c ++ d ++ e ++ f)
| mt_plain l : length l = 12%nat -> Forall hex_digit l -> mac_text l l
| mt_halves sep a b : sep = 45 \/ sep = 58 -> Forall (fun g => length g = 6%nat /\ Forall hex_digit g) [a; b] ->
    mac_text (a ++ sep :: b) (a ++ b)
| mt_dots a b c : Forall (fun g => length g = 4%nat /\ Forall hex_digit g) [a; b; c] ->
    mac_text (a ++ 46 :: b ++ 46 :: c) (a ++ b ++ c).

(** Email addresses.  A letter is an ASCII letter or one of the four characters that differ from one only by case. *)
Definition letter (c : N) : Prop := 65 <= c <= 90 \/ 97 <= c <= 122 \/ In c [304; 305; 383; 8490].
Definition atom_char (c : N) : Prop := letter c \/ dec_digit c \/ In c (u "!#$%&'*+-/=?^_`{|}~").
(** Atoms separated by dots. *)
Inductive dot_atom : pstr -> Prop :=
| da_one l : l <> [] -> Forall atom_char l -> dot_atom l
| da_more l r : l <> [] -> Forall atom_char l -> dot_atom r -> dot_atom (l ++ 46 :: r).
(** The inside of a quoted string. *)
Inductive quoted (U : unicode) : pstr -> Prop :=
| qu_end : quoted U []
| qu_char c l : ((33 <= c <= 126 /\ c <> 34 /\ c <> 92) \/ letter c \/ is_space U c = true) -> quoted U l -> quoted U (c :: l)
| qu_escape c l : (33 <= c <= 126 \/ letter c \/ is_space U c = true) -> quoted U l -> quoted U (92 :: c :: l).
(** A label of a domain name: letters, digits and dashes, no dash at the ends. *)
Definition label (l : pstr) : Prop :=
  (1 <= length l <= 63)%nat /\ Forall (fun c => letter c \/ dec_digit c \/ c = 45) l /\ hd 0 l <> 45 /\ last l 0 <> 45.
(** Labels, each followed by a dot, then two to 63 letters. *)
Inductive domain : pstr -> Prop :=
| dm_last l t : label l -> (2 <= length t <= 63)%nat -> Forall letter t -> domain (l ++ 46 :: t)
| dm_more l r : label l -> domain r -> domain (l ++ 46 :: r).
Definition email_text (U : unicode) (s : pstr) : Prop :=
  exists loc dom, (dot_atom loc \/ exists q, quoted U q /\ loc = (34 :: q ++ [34])%list) /\ domain dom /\ s = (loc ++ 64 :: dom)%list.
