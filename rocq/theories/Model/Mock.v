(** Mock data, schematics/types/base.py 43-82.  The random choices are arguments. *)
From Verif.Model Require Import Py Core Num Types.
Local Open Scope Z_scope.

(** get_range_endpoints, base.py 52-70; [None] is MockCreationError. *)
Definition range_endpoints (lo hi : option Z) (padding required : Z) : option (Z * Z) :=
  let l := match lo with None => 0 | Some l => l end in
  let h := match hi with None => Z.max (l * 2) 16 | Some h => h end in
  let h := if padding =? 0 then h else h - padding in
  let l := if padding =? 0 then l else Z.max (l - padding) 0 in
  if h <? required then None
  else
    let l := Z.max l required in
    if h <? l then None else Some (l, h).
(** get_value_in, base.py 73-75: [draw a b] is [random.randint(a, b)]. *)
Definition value_in (draw : Z -> Z -> Z) (lo hi : option Z) (padding required : Z) : option Z :=
  match range_endpoints lo hi padding required with Some (a, b) => Some (draw a b) | None => None end.
(** random_string, base.py 78-82: [pick i] is the [i]-th random character. *)
Definition random_string (pick : nat -> N) (n : Z) : pstr := map pick (seq 0 (Z.to_nat n)).
(** fill_template, base.py 43-49: the template is [before%safter]. *)
Definition fill_template (draw : Z -> Z -> Z) (pick : nat -> N) (before after : pstr) (lo hi : option Z) : option pstr :=
  match value_in draw lo hi (Z.of_nat (length before + length after)) 1 with
  | Some n => Some (before ++ random_string pick n ++ after)%list
  | None => None
  end.
(** StringType._mock, base.py 409-410. *)
Definition string_mock (draw : Z -> Z -> Z) (pick : nat -> N) (lo hi : option Z) : option pstr :=
  match value_in draw lo hi 0 0 with Some n => Some (random_string pick n) | None => None end.
(** IntType: NumberType._mock, base.py 464-468; [uniform a b] is the result of [random.uniform(a, b)], here as a
    fraction. *)
Definition int_mock (uniform : Z -> Z -> Z * positive) (lo hi : option Z) : option Z :=
  match range_endpoints lo hi 0 0 with
  | Some (a, b) => let '(n, d) := uniform a b in Some (Z.quot n (Zpos d))
  | None => None
  end.
(** ListType._mock, compound.py 205-208; [elem i] is the mock of the [i]-th element. *)
Definition list_mock (draw : Z -> Z -> Z) (elem : nat -> pyval) (lo hi : option Z) : option (list pyval) :=
  match value_in draw lo hi 0 0 with Some n => Some (map elem (seq 0 (Z.to_nat n))) | None => None end.
