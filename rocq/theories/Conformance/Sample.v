(** A small program using the library, for the examples that accompany the theorems. *)
From Verif.Model Require Import Py Core Export Api.
Open Scope string_scope.
Open Scope list_scope.

(** [BaseType()]: identity conversions (base.py 303-312). *)
Definition any_leaf : leaf := Leaf (fun v => Ok v) (fun v => Ok v).
(** A user defined type that accepts integers only. *)
Definition int_leaf : leaf :=
  Leaf (fun v => match v with VInt _ => Ok v | VBool b => Ok (VInt (if b then 1 else 0)) | _ => Raise (XConv [u "number_coerce"]) end)
       (fun v => Ok v).

(** Default options of a field of class [c]. *)
Definition o0 (c : cid) : fopts := FO true false VUndef None [] [] None (Some c).
Definition o_req (o : fopts) := FO (fo_named o) true (fo_default o) (fo_sname o) (fo_dfrom o) (fo_validators o) (fo_level o) (fo_owner o).
Definition o_def (v : pyval) (o : fopts) := FO (fo_named o) (fo_required o) v (fo_sname o) (fo_dfrom o) (fo_validators o) (fo_level o) (fo_owner o).
Definition o_sname (s : string) (o : fopts) := FO (fo_named o) (fo_required o) (fo_default o) (Some (k s)) (fo_dfrom o) (fo_validators o) (fo_level o) (fo_owner o).
Definition o_from (l : list string) (o : fopts) := FO (fo_named o) (fo_required o) (fo_default o) (fo_sname o) (map k l) (fo_validators o) (fo_level o) (fo_owner o).
Definition o_val (l : list vldr) (o : fopts) := FO (fo_named o) (fo_required o) (fo_default o) (fo_sname o) (fo_dfrom o) l (fo_level o) (fo_owner o).
Definition o_lvl (l : Z) (o : fopts) := FO (fo_named o) (fo_required o) (fo_default o) (fo_sname o) (fo_dfrom o) (fo_validators o) (Some l) (fo_owner o).
Definition o_inner (o : fopts) := FO false (fo_required o) (fo_default o) (fo_sname o) (fo_dfrom o) (fo_validators o) (fo_level o) (fo_owner o).
Definition fld (s : string) (o : fopts) (t : ftype) : key * field := (k s, Fld (FS o t) None None).

(** class Address: street = BaseType(required=True); zip = Int(serialized_name="ZIP", deserialize_from="postcode") *)
Definition Address : mclass :=
  MC [ fld "street" (o_req (o0 0)) (TLeaf any_leaf);
       fld "zip" (o_from ["postcode"] (o_sname "ZIP" (o0 0))) (TLeaf int_leaf) ]
     [] [] DEFAULT None.

(** A validator rejecting negative numbers. *)
Definition non_negative : vldr := fun v =>
  match v with VInt z => if (z <? 0)%Z then Some (XValid false [u "negative"]) else None | _ => None end.

(** class Person: name (required), age = Int(default=18, validators=[non_negative]), tags = List(Int), home = Model(Address) *)
Definition Person : mclass :=
  MC [ fld "name" (o_req (o0 1)) (TLeaf any_leaf);
       fld "age" (o_val [non_negative] (o_def (VInt 18) (o0 1))) (TLeaf int_leaf);
       fld "tags" (o0 1) (TList (FS (o_inner (o0 1)) (TLeaf int_leaf)));
       fld "home" (o0 1) (TModel 0) ]
     [] [(k "public", fun n _ => key_eqb n (k "age"))] DEFAULT None.

(** A member of a union: no name, no owner. *)
Definition member_of (l : leaf) (vs : list vldr) : fspec := FS (FO false false VUndef None [] vs None None) (TLeaf l).

(** class Signup: name = BaseType(serialized_name="login"); pin = Int(validators=[non_negative]); pin2 = Int;
    code = Union(Int with non_negative, BaseType); validate_pin2 checks that both agree. *)
Definition same_pin : mvalidator := fun _ data v =>
  (data, match dget (k "pin") data, v with
         | Some (VInt a), VInt b => if Z.eqb a b then None else Some (XValid false [u "pins differ"])
         | _, _ => Some (XValid false [u "no pin"])
         end).
Definition Signup : mclass :=
  MC [ fld "name" (o_sname "login" (o0 2)) (TLeaf any_leaf);
       fld "pin" (o_val [non_negative] (o0 2)) (TLeaf int_leaf);
       fld "pin2" (o0 2) (TLeaf int_leaf);
       fld "code" (o0 2) (TUnion [member_of int_leaf [non_negative]; member_of any_leaf []]) ]
     [(k "pin2", same_pin)] [] DEFAULT None.

(** class Nothing: pass *)
Definition Nothing : mclass := MC [] [] [] DEFAULT None.

Definition Esample : env :=
  Env (fun c => match c with 0%N => Address | 1%N => Person | 2%N => Signup | _ => Nothing end)
      N.eqb (fun _ => []).

Definition lib (n : nat) : conv := conv_at Esample n.

(** The defaults of [Model(...)]: init, partial, strict (models.py 221-224). *)
Definition kw0 : kwargs := KW no_mapping true true true true true false false.
(** The defaults of [import_data(...)] and [validate()] (models.py 240, 268; transforms.py 25-28). *)
Definition kw1 : kwargs := KW no_mapping false false false false true false false.
Definition kwv : kwargs := KW no_mapping false false false false true true false.

Definition alice : list (key * pyval) :=
  [(k "name", VStr (u "Alice")); (k "tags", VList [VInt 1; VBool true]);
   (k "home", VDict [(k "street", VStr (u "Main")); (k "postcode", VInt 123)])].

(** The instance made from [alice]. *)
Example alice_imports : model_init Esample (lib 10) 1 (VDict alice) (VDict []) kw0
  = Ok (MD [] [(k "name", VStr (u "Alice")); (k "age", VInt 18); (k "tags", VList [VInt 1; VInt 1]);
               (k "home", VModel 0 (MD [] [(k "street", VStr (u "Main")); (k "zip", VInt 123)] [] None))]
           [] None).
Proof. reflexivity. Qed.
