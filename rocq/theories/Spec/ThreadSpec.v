(** What threads are asked to do, for C86. *)
From Verif.Model Require Import Py Core Cyclic Threads.

(** A thread and the two objects it compares. *)
Definition job : Type := nat * hval * hval.
Definition job_thread (j : job) : nat := fst (fst j).
(** All threads at the beginning of their comparisons. *)
Definition start (h : heap) (aeq : nat -> nat -> res bool) (n : nat) (j : job) : mprog :=
  let '(th, x, y) := j in eq_prog h aeq th n x y Done.
