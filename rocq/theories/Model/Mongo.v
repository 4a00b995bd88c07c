(** ObjectIdType: schematics/contrib/mongo.py.  The package bson is a parameter: which objects are ObjectIds and which texts
    denote them.  Simplified: an ObjectId is an opaque object; [ObjectId(text)] fails with InvalidId only. *)
From Verif.Model Require Import Py Core Types.

(** bson.objectid. (runtime) *)
Record bson := Bson { bs_is_id : N -> bool; bs_parse : pstr -> option N }.
(** ObjectIdType.to_native (mongo.py 34-40). *)
Definition objectid_native (R : runtime) (B : bson) (v : pyval) : res pyval :=
  let parse v := match bs_parse B (rt_str R v) with Some n => Ok (VObj n) | None => conv_err "convert" end in
  match v with
  | VObj n => if bs_is_id B n then Ok v else parse v
  | _ => parse v
  end.
(** ObjectIdType.to_primitive (mongo.py 42-43). *)
Definition objectid_prim (R : runtime) (v : pyval) : res pyval := Ok (VStr (rt_str R v)).
(** The type as a leaf of models (mongo.py 17-43). *)
Definition objectid_type (R : runtime) (B : bson) : leaf := Leaf (objectid_native R B) (objectid_prim R).
