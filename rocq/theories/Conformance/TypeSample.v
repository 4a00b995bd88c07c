(** Samples for the leaf types. *)
From Verif.Model Require Import Py Core Num Text Types Enum.
Open Scope string_scope.
Open Scope list_scope.

(** A runtime whose Unicode tables are empty beyond ASCII. *)
Definition rt0 : runtime := Runtime (Unicode (fun _ => false) (fun _ => None)) (fun _ => []) false.
(** class Color(Enum): RED = 1; GREEN = "g"; CRIMSON = 1 (an alias) *)
Definition color : enum_class :=
  EnumClass 7 [ (u "RED", (u "RED", KInt 1)); (u "GREEN", (u "GREEN", k "g")); (u "CRIMSON", (u "RED", KInt 1)) ].
(** class Swap(Enum): A = "B"; B = "A" *)
Definition swap : enum_class := EnumClass 8 [ (u "A", (u "A", k "B")); (u "B", (u "B", k "A")) ].
(** 0x followed by 30 zeros. *)
Definition odd_hash : pstr := u "0x000000000000000000000000000000".
Definition half : pyval := VFloat (S754_finite false 1 (-1)).
Definition two : pyval := VFloat (S754_finite false 4503599627370496 (-51)).
