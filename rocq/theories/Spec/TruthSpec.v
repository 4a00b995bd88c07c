(** The objects that count as false where Python asks. *)
From Verif.Model Require Import Py.

Inductive false_value : pyval -> Prop :=
| fv_none : false_value VNone
| fv_undef : false_value VUndef
| fv_false : false_value (VBool false)
| fv_zero : false_value (VInt 0)
| fv_float s : false_value (VFloat (S754_zero s))
| fv_decimal e : false_value (VDecimal 0 e)
| fv_timedelta : false_value (VTimedelta 0)
| fv_str : false_value (VStr [])
| fv_bytes : false_value (VBytes [])
| fv_list : false_value (VList [])
| fv_tuple : false_value (VTuple [])
| fv_dict : false_value (VDict [])
(** An instance that holds no data. *)
| fv_model c h : false_value (VModel c (MD [] [] [] h)).
