(** Numbers: exact comparison across int, bool, float and Decimal; conversions between them. (CPython runtime) *)
From Verif.Model Require Import Py.

(** The mathematical value of a number: a fraction, an infinity, or not a number. *)
Inductive num := NFin (n : Z) (d : positive) | NInf (neg : bool) | NNan.

(** [m * 2 ^ e]. *)
Definition dyadic (m e : Z) : num :=
  if (0 <=? e)%Z then NFin (m * 2 ^ e) 1 else NFin m (Z.to_pos (2 ^ (- e))).
(** [c * 10 ^ e], a finite Decimal. *)
Definition decimal_num (c e : Z) : num :=
  if (0 <=? e)%Z then NFin (c * 10 ^ e) 1 else NFin c (Z.to_pos (10 ^ (- e))).

(** The number denoted by a float. *)
Definition float_num (f : spec_float) : num :=
  match f with
  | S754_zero _ => NFin 0 1
  | S754_infinity s => NInf s
  | S754_nan => NNan
  | S754_finite s m e => dyadic (if s then Zneg m else Zpos m) e
  end.

(** The number denoted by a value, if it is one (a bool is an int). *)
Definition num_of (v : pyval) : option num :=
  match v with
  | VBool b => Some (NFin (if b then 1 else 0) 1)
  | VInt z => Some (NFin z 1)
  | VFloat f => Some (float_num f)
  | VDecimal c e => Some (decimal_num c e)
  | _ => None
  end.

(** [a == b] and [a < b] on numbers.  (Comparing a Decimal NaN signals; only finite Decimals are modelled.) *)
Definition num_eqb (a b : num) : bool :=
  match a, b with
  | NFin n d, NFin m e => (n * Zpos e =? m * Zpos d)%Z
  | NInf s, NInf t => Bool.eqb s t
  | _, _ => false
  end.
(** [a < b] for numbers. (runtime; base.py 490-499) *)
Definition num_ltb (a b : num) : bool :=
  match a, b with
  | NFin n d, NFin m e => (n * Zpos e <? m * Zpos d)%Z
  | NInf s, NFin _ _ => s
  | NFin _ _, NInf t => negb t
  | NInf s, NInf t => s && negb t
  | _, _ => false
  end.

(** [int(x)] for a number: truncation towards zero; infinities and NaN have none. *)
Definition num_trunc (a : num) : option Z :=
  match a with NFin n d => Some (Z.quot n (Zpos d)) | _ => None end.

(** [v < w] and [v > w]: numbers; TypeError for other operands.  Simplification: ordering of texts,
    sequences and dates is not modelled (bounds of number types are numbers). *)
Definition py_lt (v w : pyval) : res bool :=
  match num_of v, num_of w with
  | Some a, Some b => Ok (num_ltb a b)
  | _, _ => Raise (XPy ETypeError)
  end.

(** [float(z)] for an integer: round half even, OverflowError when too large (IEEE binary64). *)
Definition float_of_int (z : Z) : res spec_float :=
  match binary_normalize 53 1024 z 0 false with
  | S754_infinity _ => Raise (XPy EOverflowError)
  | f => Ok f
  end.
