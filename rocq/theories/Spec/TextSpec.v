(** Specification of number texts, independent of the scanners of the model. *)
From Verif.Model Require Import Py Text.
Local Open Scope N_scope.

(** A blank: an ASCII blank, or a Unicode space beyond ASCII. *)
Definition blank (U : unicode) (c : N) : Prop :=
  (9 <= c <= 13) \/ c = 32 \/ (128 <= c /\ un_space U c = true).
(** The character stands for the digit [v]. *)
Inductive denotes (U : unicode) : N -> N -> Prop :=
| dn_ascii c v : c = 48 + v -> v < 10 -> denotes U c v
| dn_lower c v : c = 97 + (v - 10) -> 10 <= v < 36 -> denotes U c v
| dn_upper c v : c = 65 + (v - 10) -> 10 <= v < 36 -> denotes U c v
| dn_other c v d : 128 <= c -> un_space U c = false -> un_digit U c = Some d -> v = d mod 10 -> denotes U c v.
(** Digits of the base, single underscores allowed between them, and the number written. *)
Inductive run (U : unicode) (base : N) : list N -> N -> Prop :=
| run_one c v : denotes U c v -> v < base -> run U base [c] v
| run_more s n c v : run U base s n -> denotes U c v -> v < base -> run U base (s ++ [c]) (n * base + v)
| run_under s n c v : run U base s n -> denotes U c v -> v < base -> run U base (s ++ [95; c]) (n * base + v).
(** An optional sign. *)
Inductive sign : list N -> bool -> Prop :=
| sg_none : sign [] false
| sg_plus : sign [43] false
| sg_minus : sign [45] true.
(** An optional prefix of hexadecimal numbers: a zero and an x, then possibly an underscore. *)
Inductive prefix (U : unicode) (base : N) : list N -> Prop :=
| px_none : prefix U base []
| px_0x o x : base = 16 -> denotes U o 0 -> x = 120 \/ x = 88 -> prefix U base [o; x]
| px_0x_ o x : base = 16 -> denotes U o 0 -> x = 120 \/ x = 88 -> prefix U base [o; x; 95].
(** The texts [int(text, base)] accepts, and their value. *)
Definition int_literal (U : unicode) (base : N) (s : pstr) (z : Z) : Prop :=
  exists b1 sg neg px body n b2,
    s = (b1 ++ sg ++ px ++ body ++ b2)%list /\
    Forall (blank U) b1 /\ sign sg neg /\ prefix U base px /\ run U base body n /\ Forall (blank U) b2 /\
    z = (if neg then - Z.of_N n else Z.of_N n)%Z.

(** Upper and lower case hexadecimal digits. *)
Definition hex_digit (c : N) : Prop := 48 <= c <= 57 \/ 97 <= c <= 102 \/ 65 <= c <= 70.
