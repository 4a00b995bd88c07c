(** What a machine of the ordinary kind goes through. *)
From Verif.Model Require Import Py Core Export Api Machine.

(** The steps and the states, in their order. *)
Definition steps : list key := [k "convert"; k "validate"; k "serialize"].
Definition states : list key := [k "raw"; k "converted"; k "validated"; k "serialized"].

(** [calls table cbs m names m' done]: calling the methods [names] of machine [m] one after the other, whatever they
    raise, ends in [m']; [done] are those that raised nothing. *)
Inductive calls {A} (table : list transition) (cbs : list (key * callback A)) : machine A -> list key -> machine A -> list key -> Prop :=
| ca_end : forall m, calls table cbs m [] m []
| ca_done : forall m n m1 ns m2 l, machine_trigger table cbs m (Some n) = (m1, None) ->
    calls table cbs m1 ns m2 l -> calls table cbs m (n :: ns) m2 (n :: l)
| ca_failed : forall m n m1 e ns m2 l, machine_trigger table cbs m (Some n) = (m1, Some e) ->
    calls table cbs m1 ns m2 l -> calls table cbs m (n :: ns) m2 l.

(** Callbacks that leave the data they are given alone. *)
Definition tidy {A} (cbs : list (key * callback A)) : Prop := forall n cb d, In (n, cb) cbs -> fst (cb d) = d.

(** What the steps taken make of the data. *)
Inductive made {A} (cbs : list (key * callback A)) : A -> list key -> A -> Prop :=
| mk_end : forall d, made cbs d [] d
| mk_step : forall d n cb d1 ns d2, dget n cbs = Some cb -> snd (cb d) = Ok d1 -> made cbs d1 ns d2 -> made cbs d (n :: ns) d2
| mk_skip : forall d n ns d2, dget n cbs = None -> made cbs d ns d2 -> made cbs d (n :: ns) d2.

(** A transition of the table from one state to another; one without a source state is left out. *)
Definition leads (table : list transition) (a : key) (b : key) : Prop :=
  exists t, In t table /\ tr_from t = Some a /\ tr_to t = b.

(** How the steps call the functions: convert(schema, data, partial=True), validate(schema, data, convert=False, partial=False),
    to_primitive(schema, data). *)
Definition convert_args : kwargs := KW no_mapping true false false false true false false.
Definition validate_args : kwargs := KW no_mapping false false false false false true false.
Definition primitive_output : ectx := ECtx Primitive NoRole true None.
