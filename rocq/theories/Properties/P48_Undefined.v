(** C101: there is one Undefined. *)
From Verif.Model Require Import Py Undefined.
From Verif.Spec Require Import UndefinedSpec.
From Verif.Proofs Require Import UndefinedFacts.

Theorem C101_one_object : forall mro, descend mro -> forall es, Forall plain_event es ->
  undefined_run mro (undefined_loaded mro) es = (undefined_loaded mro, map expected es).
Proof. exact run_loaded. Qed.
Print Assumptions C101_one_object.

(** Whatever else a program does, the type called without arguments gives the one object. *)
Theorem C101_call_always : forall mro, descend mro -> forall es, Forall (fun e => forall own, e <> UDefine 0 own) es ->
  snd (undefined_call mro (fst (undefined_run mro (undefined_loaded mro) es)) 0 0) = Ok the_undefined.
Proof. exact call_always. Qed.
Print Assumptions C101_call_always.

(** Loading the library gives it. *)
Theorem C101_loaded : forall mro, descend mro -> snd (undefined_load mro) = Ok the_undefined.
Proof. exact load_gives. Qed.
Print Assumptions C101_loaded.

(** It has no place in any order: it cannot be compared with anything, and nothing can be compared with it that does not know how; *)
Theorem C101_no_order : forall answer op x,
  compare_as answer the_undefined op x = Raise (XPy ETypeError) /\
  (answer x op the_undefined = None -> compare_as answer x op the_undefined = Raise (XPy ETypeError)).
Proof. exact no_order. Qed.
Print Assumptions C101_no_order.
(** so min() of any two or more objects with it among them fails, wherever it stands. *)
Theorem C101_no_least : forall answer l a, (forall x, answer x Lt the_undefined = None) ->
  (forall x op y e, answer x op y = Some (Raise e) -> e = XPy ETypeError) ->
  In the_undefined (a :: l) -> l <> [] -> least answer a l = Raise (XPy ETypeError).
Proof. exact least_fails. Qed.
Print Assumptions C101_no_least.

(** Objects that are ordered by number and know nothing of Undefined. *)
Definition by_number (x : N) (op : ordering) (y : N) : option (res bool) :=
  if N.eqb y the_undefined then None else Some (Ok (match op with Lt => N.ltb x y | Gt => N.ltb y x | Le => N.leb x y | Ge => N.leb y x end)).
Example C101_order_case : (forall x, by_number x Lt the_undefined = None) /\
  (forall x op y e, by_number x op y = Some (Raise e) -> e = XPy ETypeError) /\
  least by_number 5 [3; 4]%N = Ok 3%N /\ In the_undefined [5; 3; the_undefined; 4]%N /\ least by_number 5 [3; the_undefined; 4]%N = Raise (XPy ETypeError).
Proof.
  split; [reflexivity|]. split; [intros x op y e; unfold by_number; destruct (N.eqb y the_undefined); discriminate|].
  split; [reflexivity|]. split; [right; right; left; reflexivity|reflexivity].
Qed.

(** A class 7 that descends from UndefinedType, and the type itself. *)
Definition two_classes (c : N) : list N := if N.eqb c 0 then [0%N] else [c; 0%N].

Example C101_case : descend two_classes /\
  Forall plain_event [UCall 0 0; UDefine 7 false; UCall 7 0; UCopy 0; UPickle 2 0; UCall 0 1] /\
  snd (undefined_run two_classes (undefined_loaded two_classes)
    [UCall 0 0; UDefine 7 false; UCall 7 0; UCopy 0; UPickle 2 0; UCall 0 1]) =
  [Some (Ok the_undefined); None; Some (Raise (XPy ETypeError)); Some (Ok the_undefined); Some (Ok the_undefined); Some (Raise (XPy ETypeError))].
Proof.
  split; [|split; [|reflexivity]].
  - split; [exists []; reflexivity|]. intros c. unfold two_classes.
    destruct (N.eqb c 0); cbn [In]; [left; reflexivity|right; left; reflexivity].
  - do 6 (constructor; [cbn [plain_event]; first [exact Logic.I|reflexivity|split; [apply le_n|reflexivity]]|]). constructor.
Qed.

(** With the protocols 0 and 1 (the default of Python 2) reading a pickle back makes a second object, which does not equal Undefined. *)
Theorem C101_old_pickles_refuted : exists mro o, descend mro /\
  snd (undefined_run mro (undefined_loaded mro) [UPickle 0 the_undefined]) = [Some (Ok o)] /\ undefined_eq o the_undefined = false.
Proof.
  exists two_classes, 1%N. split; [exact (proj1 C101_case)|split; reflexivity].
Qed.
Print Assumptions C101_old_pickles_refuted.

(** A class that puts [_instance = None] in its body can be called, once. *)
Theorem C101_own_instance_refuted : exists mro o, descend mro /\
  snd (undefined_run mro (undefined_loaded mro) [UDefine 7 true; UCall 7 0; UCall 7 0]) = [None; Some (Ok o); Some (Raise (XPy ETypeError))] /\
  undefined_eq o the_undefined = false.
Proof.
  exists two_classes, 1%N. split; [exact (proj1 C101_case)|split; reflexivity].
Qed.
Print Assumptions C101_own_instance_refuted.
