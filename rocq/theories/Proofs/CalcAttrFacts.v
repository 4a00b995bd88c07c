(** Proofs for C115. *)
From Coq Require Import Lia Arith.
From Verif.Model Require Import Py Core Types FieldCopy CalcAttr.
From Verif.Spec Require Import CalcAttrSpec.
From Verif.Proofs Require Import DictLemmas.
Open Scope string_scope.
Open Scope list_scope.

Lemma nth_upd {A} (d : A) (f : A -> A) l : forall i n, n < length l -> nth i (upd_at n f l) d = if Nat.eqb i n then f (nth i l d) else nth i l d.
Proof.
  induction l as [|x l IH]; intros i n H; cbn in H; [lia|].
  destruct n, i; cbn; try reflexivity. apply IH. lia.
Qed.
Lemma length_upd {A} (f : A -> A) l : forall n, length (upd_at n f l) = length l.
Proof. induction l as [|x l IH]; intros [|n]; cbn; auto. Qed.
Lemma nth_snoc {A} (d : A) l x i : i <= length l -> nth i (l ++ [x]) d = if Nat.eqb i (length l) then x else nth i l d.
Proof.
  intros H. destruct (Nat.eqb_spec i (length l)) as [->|N].
  - rewrite app_nth2 by lia. now rewrite Nat.sub_diag.
  - now rewrite app_nth1 by lia.
Qed.
Definition sound (h : list calc_op) : Prop :=
  length (cs_types (calc_run h)) = types_made h /\ length (cs_calcs (calc_run h)) = calcs_made h /\
  (forall f, f < calcs_made h -> c_type (calc_at (calc_run h) f) = Some (type_for h f) /\ type_for h f < types_made h /\
     forall x, dget x (c_own (calc_at (calc_run h) f)) = assigned h f x) /\
  (forall t x, t < types_made h -> dget x (nth t (cs_types (calc_run h)) []) = type_value h t x) /\
  (forall f x, calcs_made h <= f -> assigned h f x = None).
Lemma sound_all h : program h -> sound h.
Proof.
  induction 1 as [|o h P IH G].
  - unfold sound. cbn. split; [reflexivity|]. split; [reflexivity|]. split; [intros; lia|]. split; [intros; lia|reflexivity].
  - destruct IH as (A & B & C & D & F). unfold sound, calc_at in *.
    destruct o as [kw|t|f x v|t x v|f]; cbn [calc_run calc_step types_made calcs_made type_for assigned type_value possible] in *; cbn [cs_types cs_calcs].
    + rewrite app_length, A. cbn [length]. split; [lia|]. split; [exact B|]. split; [|split; [|exact F]].
      * intros f L. destruct (C f L) as (c1 & c2 & c3). split; [exact c1|]. split; [lia|exact c3].
      * intros t x L. rewrite nth_snoc by lia. rewrite A. destruct (Nat.eqb_spec t (types_made h)); [reflexivity|]. apply D. lia.
    + rewrite app_length, B. cbn [length]. split; [exact A|]. split; [lia|]. split; [|split; [exact D|]].
      * intros f L. rewrite nth_snoc by lia. rewrite B. destruct (Nat.eqb_spec f (calcs_made h)) as [->|N].
        -- split; [reflexivity|]. split; [exact G|]. intros x. cbn. symmetry. apply F. lia.
        -- apply C. lia.
      * intros f x L. apply F. lia.
    + rewrite length_upd. split; [exact A|]. split; [exact B|]. split; [|split; [exact D|]].
      * intros g L. rewrite nth_upd by lia. destruct (C g L) as (c1 & c2 & c3). destruct (Nat.eqb_spec g f) as [->|N].
        -- split; [exact c1|]. split; [exact c2|]. intros y. cbn [c_own andb]. now rewrite dget_dset, c3.
        -- split; [exact c1|]. split; [exact c2|]. exact c3.
      * intros g y L. destruct (Nat.eqb_spec g f) as [->|N]; [lia|]. cbn. now apply F.
    + rewrite length_upd. split; [exact A|]. split; [exact B|]. split; [exact C|]. split; [|exact F].
      intros w y L. rewrite nth_upd by lia. destruct (Nat.eqb_spec w t) as [->|N]; cbn [andb]; [rewrite dget_dset|]; now rewrite D.
    + destruct (C f G) as (c1 & c2 & c3). unfold calc_at. rewrite c1. cbn [cs_types cs_calcs]. rewrite !app_length, A, B. cbn [length].
      split; [lia|]. split; [lia|]. split; [|split].
      * intros g L. rewrite nth_snoc by lia. rewrite B. destruct (Nat.eqb_spec g (calcs_made h)) as [->|N].
        -- split; [reflexivity|]. split; [lia|]. intros x. cbn. symmetry. apply F. lia.
        -- destruct (C g) as (d1 & d2 & d3); [lia|]. split; [exact d1|]. split; [lia|exact d3].
      * intros t x L. rewrite nth_snoc by lia. rewrite A. destruct (Nat.eqb_spec t (types_made h)) as [->|N]; apply D; lia.
      * intros g x L. apply F. lia.
Qed.

Section Facts.
  Context (cls : key -> option pyval).
  Lemma type_read_value h t x : program h -> t < types_made h -> type_read cls (cs_types (calc_run h)) t x = of_type cls h t x.
  Proof. intros P L. destruct (sound_all h P) as (_ & _ & _ & D & _). unfold type_read, of_type. rewrite D by exact L. now destruct (type_value h t x), (cls x). Qed.
  Lemma reads depth h f x : program h -> f < calcs_made h -> ~ In x calc_methods ->
    calc_read cls depth (cs_types (calc_run h)) (calc_at (calc_run h) f) x =
    match assigned h f x with Some v => Got v | None => of_type cls h (type_for h f) x end.
  Proof.
    intros P L M. destruct (sound_all h P) as (_ & _ & C & _). destruct (C f L) as (c1 & c2 & c3).
    assert (E : existsb (key_eqb x) calc_methods = false).
    { apply Bool.not_true_iff_false. rewrite existsb_exists. intros (y & I & e). apply key_eqb_eq in e. subst. auto. }
    destruct depth; cbn [calc_read]; rewrite c3, E, c1; destruct (assigned h f x); auto; now apply type_read_value.
  Qed.
  Lemma export_keys depth h f name : program h -> f < calcs_made h ->
    export_key cls depth (calc_run h) f name =
    match assigned h f (k "serialized_name") with
    | Some v => Got (if truthy v then v else name)
    | None => match of_type cls h (type_for h f) (k "serialized_name") with Got v => Got (if truthy v then v else name) | r => r end
    end.
  Proof.
    intros P L. unfold export_key. rewrite reads; auto.
    - now destruct (assigned h f (k "serialized_name")).
    - cbn. intuition discriminate.
  Qed.
  Lemma export_levels h f model given : program h -> f < calcs_made h -> assigned h f (k "get_export_level") = None ->
    export_level_of cls (calc_run h) f model given =
    match of_type cls h (type_for h f) (k "export_level") with
    | Got v => Got (if is_nil given then if is_nil v then model else v else given)
    | r => r
    end.
  Proof.
    intros P L N. destruct (sound_all h P) as (_ & _ & C & _). destruct (C f L) as (c1 & c2 & c3).
    unfold export_level_of. rewrite c3, N, c1, type_read_value; auto.
  Qed.
  Lemma level_ignores h f x v model given : program h -> f < calcs_made h -> x <> k "get_export_level" ->
    assigned h f (k "get_export_level") = None ->
    export_level_of cls (calc_run (QSet f x v :: h)) f model given = export_level_of cls (calc_run h) f model given.
  Proof.
    intros P L X N. rewrite !export_levels; auto.
    - constructor; auto.
    - cbn [assigned]. rewrite Nat.eqb_refl. destruct (key_eqb (k "get_export_level") x) eqn:E; [apply key_eqb_eq in E; congruence|exact N].
  Qed.
  Lemma unassigned h f x : program h -> calcs_made h <= f -> assigned h f x = None.
  Proof. intros P. apply (sound_all h P). Qed.
  Lemma derived depth h f x : program h -> f < calcs_made h -> ~ In x calc_methods ->
    calc_read cls depth (cs_types (calc_run (QDerive f :: h))) (calc_at (calc_run (QDerive f :: h)) (calcs_made h)) x = of_type cls h (type_for h f) x.
  Proof.
    intros P L M. rewrite reads; auto; try (now constructor); try (cbn; lia).
    cbn [assigned type_for]. rewrite unassigned by auto. rewrite Nat.eqb_refl. unfold of_type. cbn [type_value]. now rewrite Nat.eqb_refl.
  Qed.
  Lemma assign_own depth h f x v g y : program h -> f < calcs_made h -> g < calcs_made h -> ~ In y calc_methods -> (g, y) <> (f, x) ->
    calc_read cls depth (cs_types (calc_run (QSet f x v :: h))) (calc_at (calc_run (QSet f x v :: h)) g) y =
    calc_read cls depth (cs_types (calc_run h)) (calc_at (calc_run h) g) y.
  Proof.
    intros P F G M N. rewrite !reads; auto; try (now constructor). cbn [assigned type_for].
    destruct (Nat.eqb_spec g f) as [->|]; [|reflexivity]. destruct (key_eqb y x) eqn:E; [apply key_eqb_eq in E; congruence|reflexivity].
  Qed.
  Lemma bare depth T x : ~ In x calc_methods -> calc_read cls depth T (Calc [] None) x = TooDeep.
  Proof.
    revert x. induction depth as [|d IH]; intros x M; cbn [calc_read c_own c_type dget];
      (replace (existsb (key_eqb x) calc_methods) with false;
       [|symmetry; apply Bool.not_true_iff_false; rewrite existsb_exists; intros (y & I & e); apply key_eqb_eq in e; subst; auto]); [reflexivity|].
    rewrite IH; [reflexivity|]. cbn. intuition discriminate.
  Qed.
  Lemma no_copy depth T f : calc_copy cls depth T f = None.
  Proof. unfold calc_copy. rewrite bare; [reflexivity|]. cbn. intuition discriminate. Qed.
End Facts.
