(** Concrete class hierarchies. *)
From Verif.Model Require Import Py Core Export Meta.
From Verif.Spec Require Import MetaSpec.
From Verif.Proofs Require Import DictLemmas MetaHeap MetaClass MetaFacts MetaOrder MetaOthers.
From Verif.Conformance Require Import Sample.

(** ** Checking that a class statement can be written *)
Definition schema_objs (P : program) : list addr :=
  flat_map (fun k => map (fun p => en_type (snd p)) (cl_fields k)) (p_classes P).
Definition element_objs (P : program) : list addr :=
  flat_map (fun o => match inner_of (ob_kind o) with Some i => [i] | None => [] end) (p_heap P).
Definition declared_objs (attrs : list (key * attr)) : list addr :=
  flat_map (fun p => match declared_obj (snd p) with Some a => [a] | None => [] end) attrs.

Fixpoint nodupb {A} (eq : A -> A -> bool) (l : list A) : bool :=
  match l with [] => true | a :: r => negb (existsb (eq a) r) && nodupb eq r end.

Definition body_ok (P : program) (attrs : list (key * attr)) : bool :=
  nodupb key_eqb (map fst attrs) && nodupb Nat.eqb (declared_objs attrs) &&
  forallb (fun a => match nth_error (p_heap P) a with
                    | Some o => Z.eqb (ob_pos o) (Z.of_nat a)
                    | None => false
                    end && negb (existsb (Nat.eqb a) (schema_objs P)) && negb (existsb (Nat.eqb a) (element_objs P)))
          (declared_objs attrs).

Lemma nodupb_NoDup {A} (eq : A -> A -> bool) (l : list A) : (forall a, eq a a = true) ->
  nodupb eq l = true -> NoDup l.
Proof.
  intros R. induction l as [|a l IH]; cbn; intros E; constructor; apply andb_true_iff in E; destruct E as [E1 E2].
  - intros I. apply negb_true_iff in E1. assert (existsb (eq a) l = true) by (apply existsb_exists; eauto). congruence.
  - auto.
Qed.

Lemma in_schema_objs P a : in_schema P a -> In a (schema_objs P).
Proof.
  intros (k & x & e & Ik & Ie & <-). apply in_flat_map. exists k. split; [exact Ik|].
  apply in_map_iff. now exists (x, e).
Qed.
Lemma is_element_objs P a : is_element P a -> In a (element_objs P).
Proof.
  intros (b & o & E & K). apply in_flat_map. exists o. split; [now apply nth_error_In in E|]. rewrite K. now left.
Qed.

Lemma existsb_nat a l : existsb (Nat.eqb a) l = false -> ~ In a l.
Proof.
  intros E I. assert (existsb (Nat.eqb a) l = true); [|congruence].
  apply existsb_exists. exists a. split; [exact I|apply Nat.eqb_refl].
Qed.

Lemma declared_objs_inj attrs x y t s a : NoDup (declared_objs attrs) -> In (x, t) attrs -> In (y, s) attrs ->
  declared_obj t = Some a -> declared_obj s = Some a -> x = y.
Proof.
  induction attrs as [|[z v] l IH]; intros N I J D D'; [contradiction|].
  assert (forall w q, In (w, q) l -> declared_obj q = Some a -> In a (declared_objs l)) as X.
  { intros w q Iw Dq. apply in_flat_map. exists (w, q). split; [exact Iw|]. cbn. rewrite Dq. now left. }
  unfold declared_objs in N. cbn in N. fold (declared_objs l) in N.
  destruct I as [I|I], J as [J|J].
  - congruence.
  - injection I as -> ->. rewrite D in N. cbn in N. inversion N as [|? ? N1 N2]; subst. exfalso. eauto.
  - injection J as -> ->. rewrite D' in N. cbn in N. inversion N as [|? ? N1 N2]; subst. exfalso. eauto.
  - destruct (declared_obj v); cbn in N; [inversion N as [|? ? N1 N2]; subst|]; eauto.
Qed.

Lemma body_ok_sound P attrs : body_ok P attrs = true -> class_body P attrs.
Proof.
  unfold body_ok. intros E. apply andb_true_iff in E. destruct E as [E E3].
  apply andb_true_iff in E. destruct E as [E1 E2].
  apply (nodupb_NoDup _ _ key_eqb_refl) in E1. apply (nodupb_NoDup _ _ Nat.eqb_refl) in E2.
  rewrite forallb_forall in E3. split; [exact E1|]. split.
  - intros x t a I D.
    assert (In a (declared_objs attrs)) as Ia by (apply in_flat_map; exists (x, t); split; [exact I|cbn; rewrite D; now left]).
    specialize (E3 a Ia). apply andb_true_iff in E3. destruct E3 as [E3 E5]. apply andb_true_iff in E3.
    destruct E3 as [E3 E4]. split; [|split].
    + destruct (nth_error (p_heap P) a) as [o|]; [|discriminate]. exists o. split; [reflexivity|now apply Z.eqb_eq].
    + intros S. apply negb_true_iff in E4. apply existsb_nat in E4. apply E4. now apply in_schema_objs.
    + intros S. apply negb_true_iff in E5. apply existsb_nat in E5. apply E5. now apply is_element_objs.
  - intros x y t s a. now apply declared_objs_inj.
Qed.

Definition type_ok (P : program) (t : kind) : bool :=
  match inner_of t with
  | Some i => Nat.ltb i (length (p_heap P)) && negb (existsb (Nat.eqb i) (schema_objs P))
  | None => true
  end.
Lemma type_ok_sound P t : type_ok P t = true ->
  forall i, inner_of t = Some i -> i < length (p_heap P) /\ ~ in_schema P i.
Proof.
  unfold type_ok. intros E i K. rewrite K in E. apply andb_true_iff in E. destruct E as [E1 E2].
  split; [now apply Nat.ltb_lt|]. intros S. apply negb_true_iff in E2. apply existsb_nat in E2.
  apply E2. now apply in_schema_objs.
Qed.

Definition bases_ok (P : program) (bs : list cid) : bool :=
  forallb (fun b => match class_at P b with Some _ => true | None => false end) bs.
Lemma bases_ok_sound P bs : bases_ok P bs = true -> forall b, In b bs -> class_at P b <> None.
Proof. unfold bases_ok. rewrite forallb_forall. intros E b I. specialize (E b I). now destruct (class_at P b). Qed.

(** A program text: calls of types and class statements. *)
Inductive stmt :=
| SType (o : fopts) (t : kind)
| SClass (bases : list cid) (attrs : list (key * attr)) (own : list optmember).
Definition run1 (P : program) (s : stmt) : program :=
  match s with
  | SType o t => new_field P o t
  | SClass bs attrs own => define_class P bs attrs own None
  end.
Definition stmt_ok (P : program) (s : stmt) : bool :=
  match s with
  | SType o t => type_ok P t
  | SClass bs attrs own => bases_ok P bs && body_ok P attrs
  end.
Fixpoint run (P : program) (l : list stmt) : program :=
  match l with [] => P | s :: r => run (run1 P s) r end.
Fixpoint run_ok (P : program) (l : list stmt) : bool :=
  match l with [] => true | s :: r => stmt_ok P s && run_ok (run1 P s) r end.
Lemma run_made l : forall P, made P -> run_ok P l = true -> made (run P l).
Proof.
  induction l as [|s l IH]; intros P M E; [exact M|]. cbn in *. apply andb_true_iff in E. destruct E as [E1 E2].
  apply IH; [|exact E2]. destruct s as [o t|bs attrs own]; cbn in *.
  - apply made_type; [exact M|now apply type_ok_sound].
  - apply andb_true_iff in E1. destruct E1. apply made_class; [exact M|now apply bases_ok_sound|now apply body_ok_sound].
Qed.

(** ** Samples *)
Definition opt0 : fopts := FO false false VUndef None [] [] None None.
Definition opt_required : fopts := FO false true VUndef None [] [] None None.

(** class Note(Model): title = BaseType(); lines = ListType(BaseType()) *)
Definition note_stmts : list stmt :=
  [ SType opt0 (KLeaf any_leaf); SType opt0 (KLeaf any_leaf); SType opt0 (KList 1);
    SClass [0%N] [(k "title", AField 0); (k "lines", AField 2)] [] ].
Definition note_program : program := run program0 note_stmts.
Definition Note : cid := 1%N.

Lemma note_made : made note_program.
Proof. apply run_made; [constructor|vm_compute; reflexivity]. Qed.

(** stars = Int(); class Rated(Note): stars; title = BaseType(required=True) *)
Definition rated_attrs : list (key * attr) := [(k "stars", AField 3); (k "title", AField 4); (k "note", AOther VNone)].
Definition rated_program : program :=
  run note_program [SType opt0 (KLeaf int_leaf); SType opt_required (KLeaf any_leaf)].
Lemma rated_made : made rated_program.
Proof. apply run_made; [exact note_made|vm_compute; reflexivity]. Qed.
Lemma rated_body : class_body rated_program rated_attrs.
Proof. apply body_ok_sound. vm_compute. reflexivity. Qed.
Lemma rated_bases : forall b, In b [Note] -> class_at rated_program b <> None.
Proof. apply bases_ok_sound. vm_compute. reflexivity. Qed.

(** A note with an empty line. *)
Definition a_note : pyval :=
  VModel Note (MD [] [(k "title", VStr (u "t")); (k "lines", VList [VInt 1; VNone])] [] None).
Definition to_primitive (P : program) (c : cid) (v : pyval) : res pyval :=
  export_at (env_of P) 10 (FS opt0 (TModel c)) v (ECtx Primitive NoRole true None).

(** class Brief(Note): class Options: serialize_when_none = False *)
Definition brief_own : list optmember := [OWhenNone (Some false)].

Lemma parent_export_changes :
  to_primitive note_program Note a_note
    = Ok (VDict [(k "title", VStr (u "t")); (k "lines", VList [VInt 1; VNone])]) /\
  to_primitive (define_class note_program [Note] [] brief_own None) Note a_note
    = Ok (VDict [(k "title", VStr (u "t")); (k "lines", VList [VInt 1])]).
Proof. split; vm_compute; reflexivity. Qed.

(** class Plain(Note): pass, then Brief(Note): the sibling changes as well. *)
Definition plain_program : program := define_class note_program [Note] [] [] None.
Definition PlainNote : cid := 2%N.
Definition plain_note : pyval :=
  VModel PlainNote (MD [] [(k "title", VStr (u "t")); (k "lines", VList [VInt 1; VNone])] [] None).
Lemma plain_made : made plain_program.
Proof.
  apply made_class; [exact note_made|apply bases_ok_sound; vm_compute; reflexivity|
    apply body_ok_sound; vm_compute; reflexivity].
Qed.
Lemma sibling_export_changes :
  to_primitive plain_program PlainNote plain_note
    = Ok (VDict [(k "title", VStr (u "t")); (k "lines", VList [VInt 1; VNone])]) /\
  to_primitive (define_class plain_program [Note] [] brief_own None) PlainNote plain_note
    = Ok (VDict [(k "title", VStr (u "t")); (k "lines", VList [VInt 1])]).
Proof. split; vm_compute; reflexivity. Qed.

(** class A: x = BaseType(); class B(A): x = BaseType(required=True); class C(A): pass *)
Definition diamond_program : program :=
  run program0 [ SType opt0 (KLeaf any_leaf); SClass [0%N] [(k "x", AField 0)] [];
                 SType opt_required (KLeaf any_leaf); SClass [1%N] [(k "x", AField 1)] [];
                 SClass [1%N] [] [] ].
Lemma diamond_made : made diamond_program.
Proof. apply run_made; [constructor|vm_compute; reflexivity]. Qed.

(** class A: class Options: roles = ...; class B: pass *)
Definition roles_program (f : rolefn) : program :=
  run program0 [ SClass [0%N] [] [ORoles [(k "public", f)]]; SClass [0%N] [] [] ].
Lemma roles_made f : made (roles_program f).
Proof. apply run_made; [constructor|vm_compute; reflexivity]. Qed.
