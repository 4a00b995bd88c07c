(** Lines of inheritance (C74). *)
From Verif.Model Require Import Py Core Meta.
From Verif.Spec Require Import CompoundSpec MetaSpec.

(** A way from class [d] up to class [c]: each class in the list is followed by one of its bases. *)
Inductive line (P : program) (c : cid) : list cid -> cid -> Prop :=
| line_self : line P c [c] c
| line_up d b k l : class_at P d = Some k -> In b (cl_bases k) -> line P c l b -> line P c (d :: l) d.

(** No class has two bases. *)
Definition single (P : program) : Prop := forall c k, class_at P c = Some k -> length (cl_bases k) <= 1.

(** A polymorphic field for a class and those derived from it. *)
Definition poly_of (c : cid) : polyspec := Poly [c] true None.

(** Every claim hook in the family of [b] answers. *)
Definition hooks_answer (P : program) (b : cid) (v : pyval) : Prop :=
  forall c cl, class_at P c <> None -> derived P c b -> mc_claim (e_class (env_of P) c) = Some cl ->
    exists a, cl v = Ok a.
