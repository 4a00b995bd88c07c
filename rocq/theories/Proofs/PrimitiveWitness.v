(** Examples for what exported data is made of. *)
From Verif.Model Require Import Py Core Export Api Text Num Types Calendar DateTime Enum Net.
From Verif.Spec Require Import ImportSpec ValidateSpec ExportSpec PrimitiveSpec.
From Verif.Proofs Require Import DictLemmas ImportLemmas Idem Decide ExportWitness.
From Verif.Conformance Require Import Sample TypeSample.
Open Scope string_scope.
Open Scope list_scope.

(** class Buyer: name = StringType(); class Order: price = DecimalType(); lines = ListType(IntType()); buyer =
    ModelType(Buyer); place = GeoPointType(); code = UnionType((IntType, StringType)) *)
Definition Buyer : mclass := MC [fld "name" (o0 0) (TLeaf string_leaf)] [] [] DEFAULT None.
Definition Order : mclass :=
  MC [ fld "price" (o0 1) (TLeaf (decimal_type rt0));
       fld "lines" (o0 1) (TList (FS (o_inner (o0 1)) (TLeaf (int_type rt0 false))));
       fld "buyer" (o0 1) (TModel 0);
       fld "place" (o0 1) (TLeaf geo_type);
       fld "code" (o0 1) (TUnion [member_of (int_type rt0 false) []; member_of string_leaf []]) ] [] [] DEFAULT None.
(** class Sum: n = UnionType((IntType, DecimalType)) *)
Definition Sum : mclass :=
  MC [fld "n" (o0 2) (TUnion [member_of (int_type rt0 false) []; member_of (decimal_type rt0) []])] [] [] DEFAULT None.
Definition Eorder : env :=
  Env (fun c => match c with 0%N => Buyer | 1%N => Order | 2%N => Sum | _ => Nothing end) N.eqb (fun _ => []).
(** class Box: item = PolyModelType([Buyer]) *)
Definition Box : mclass := MC [fld "item" (o0 3) (TPoly (Poly [0%N] false None))] [] [] DEFAULT None.
Definition Ebox : env := Env (fun c => match c with 0%N => Buyer | 3%N => Box | _ => Nothing end) N.eqb (fun _ => []).
(** The same without Sum. *)
Definition Eshop : env :=
  Env (fun c => match c with 0%N => Buyer | 1%N => Order | _ => Nothing end) N.eqb (fun _ => []).
Definition order_data : list (key * pyval) :=
  [(k "price", VStr (u "2.50")); (k "lines", VList [VStr (u "1"); VInt 2]); (k "buyer", VDict [(k "name", VStr (u "Bo"))]);
   (k "place", VTuple [VInt 1; VInt 2]); (k "code", VStr (u "x"))].


(** A sufficient test for [clean]. *)
Fixpoint cleanb (n : nat) (v : pyval) : bool :=
  match n with
  | O => false
  | S n =>
    match v with
    | VUndef => false
    | VList l | VTuple l => forallb (cleanb n) l
    | VDict d => forallb (fun p => cleanb n (snd p)) d
    | VModel _ (MD [] d [] None) => forallb (fun p => cleanb n (snd p)) d
    | VModel _ _ => false
    | _ => true
    end
  end.
Lemma cleanb_ok n : forall v, cleanb n v = true -> clean v.
Proof.
  induction n as [|n IH]; intros v; [discriminate|]. destruct v; cbn [cleanb]; try discriminate; try (intros _; apply cn_other; exact I).
  - rewrite forallb_forall. intros H. apply cn_list. auto.
  - rewrite forallb_forall. intros H. apply cn_tuple. auto.
  - rewrite forallb_forall. intros H. apply cn_dict. intros y v Hi. apply IH. exact (H (y, v) Hi).
  - destruct m as [[] d [] []]; try discriminate. rewrite forallb_forall. intros H. apply cn_model. intros y v G.
    unfold chain_get in G. cbn in G. destruct (dget y d) as [v'|] eqn:D; [|discriminate]. injection G as ->.
    apply IH. apply dget_In in D. exact (H (y, v) D).
Qed.

Lemma shop_tidy : tidy_env Eshop.
Proof.
  constructor.
  - intros c. apply nodupb_ok. destruct c as [|[[]|[]|]]; reflexivity.
  - intros c. apply plainb_ok. destruct c as [|[[]|[]|]]; reflexivity.
  - intros c n vf H. destruct c as [|[[]|[]|]]; cbn in H; contradiction.
Qed.
Lemma shop_library : library_env rt0 Eshop.
Proof.
  assert (HI : library_type rt0 (int_type rt0 false)) by (apply li_number; constructor).
  assert (HS : library_type rt0 string_leaf) by constructor.
  intros c n f H. destruct c as [|[[]|[]|]]; cbn in H; try contradiction; decompose [or] H; clear H; try contradiction;
    match goal with E : _ = _ |- _ => injection E as <- <- end; cbn; first [assumption|exact I|apply li_decimal|apply li_geo|split].
  - intros m [<-|[<-|[]]]; do 2 eexists; split; try reflexivity; assumption.
  - intros o o' l [H|[H|[]]]; exfalso;
      apply (f_equal (fun f => match f with FS _ (TLeaf l) => lf_prim l (VInt 0) | _ => Ok VNone end)) in H; discriminate.
Qed.
Lemma shop_mono : forall c n f, In (n, f) (fields_of Eshop c) -> monomorphic (fd_spec f).
Proof.
  intros c n f H. destruct c as [|[[]|[]|]]; cbn in H; try contradiction; decompose [or] H; clear H; try contradiction;
    match goal with E : _ = _ |- _ => injection E as <- <- end; cbn; auto.
Qed.
Lemma order_tidy : tidy_env Eorder.
Proof.
  constructor.
  - intros c. apply nodupb_ok. destruct c as [|[[]|[]|]]; reflexivity.
  - intros c. apply plainb_ok. destruct c as [|[[]|[]|]]; reflexivity.
  - intros c n vf H. destruct c as [|[[]|[]|]]; cbn in H; contradiction.
Qed.
Lemma order_mono : forall c n f, In (n, f) (fields_of Eorder c) -> monomorphic (fd_spec f).
Proof.
  intros c n f H. destruct c as [|[[]|[[]|[]|]|]]; cbn in H; try contradiction; decompose [or] H; clear H; try contradiction;
    match goal with E : _ = _ |- _ => injection E as <- <- end; cbn; auto.
Qed.

Lemma decimal_not_made n c e : ~ made_of scalar (VDict [(n, VDecimal c e)]).
Proof.
  intros H. inversion H as [|? F| | |d Hd]; subst; [destruct F|]. specialize (Hd n _ (or_introl eq_refl)).
  inversion Hd as [|? F| | |]; subst. destruct F.
Qed.

Lemma union_with_decimal :
  exists E R c d m out, tidy_env E /\ (forall c n f, In (n, f) (fields_of E c) -> monomorphic (fd_spec f)) /\
    (forall n f, In (n, f) (fields_of E c) -> exists ms, fs_type (fd_spec f) = TUnion ms /\
       forall g, In g ms -> exists o l, g = FS o (TLeaf l) /\ library_type R l) /\
    model_init E (conv_at E 5) c (VDict d) (VDict []) kw0 = Ok m /\ clean (VModel c m) /\
    model_export_top E (export_at E 5) c m xprim = Ok out /\ ~ made_of scalar (VDict out).
Proof.
  exists Eorder, rt0, 2%N, [(k "n", VStr (u "2.0"))]. do 2 eexists.
  split; [exact order_tidy|]. split; [exact order_mono|]. split.
  - intros n f [[= <- <-]|[]]. eexists; split; [reflexivity|].
    intros g [<-|[<-|[]]]; do 2 eexists; (split; [reflexivity|]); [apply li_number; constructor|apply li_decimal].
  - split; [reflexivity|]. split; [apply (cleanb_ok 5); reflexivity|]. split; [reflexivity|]. apply decimal_not_made.
Qed.
Lemma name_not_made n c e : ~ made_of scalar (VDict [(k n, VDict [(k "name", VDecimal c e)])]).
Proof.
  intros H. inversion H as [|? F| | |d Hd]; subst; [destruct F|]. specialize (Hd _ _ (or_introl eq_refl)).
  revert Hd. apply decimal_not_made.
Qed.
Lemma assigned_value :
  exists E R c m m' n v out, tidy_env E /\ library_env R E /\
    (forall c n f, In (n, f) (fields_of E c) -> monomorphic (fd_spec f)) /\
    model_init E (conv_at E 5) c (VDict []) (VDict []) kw0 = Ok m /\ clean v /\
    model_setitem E (conv_at E 5) c m n v = (m', None) /\
    model_export_top E (export_at E 5) c m' xprim = Ok out /\ ~ made_of scalar (VDict out).
Proof.
  exists Eshop, rt0, 0%N. do 2 eexists. exists (k "name"), (VDecimal 1 0). eexists.
  split; [exact shop_tidy|]. split; [exact shop_library|]. split; [exact shop_mono|]. split; [reflexivity|].
  split; [apply (cleanb_ok 1); reflexivity|]. split; [reflexivity|]. split; [reflexivity|]. apply decimal_not_made.
Qed.
Lemma box_tidy : tidy_env Ebox.
Proof.
  constructor.
  - intros c. apply nodupb_ok. destruct c as [|[[]|[]|]]; reflexivity.
  - intros c. apply plainb_ok. destruct c as [|[[]|[]|]]; reflexivity.
  - intros c n vf H. destruct c as [|[[]|[]|]]; cbn in H; contradiction.
Qed.
Lemma box_library : library_env rt0 Ebox.
Proof.
  intros c n f H. destruct c as [|[[]|[]|]]; cbn in H; try contradiction; decompose [or] H; clear H; try contradiction;
    match goal with E : _ = _ |- _ => injection E as <- <- end; cbn; try exact I; apply li_string.
Qed.
Lemma given_instance :
  exists E R c d m out, tidy_env E /\ library_env R E /\ clean (VDict d) /\
    model_init E (conv_at E 5) c (VDict d) (VDict []) kw0 = Ok m /\ clean (VModel c m) /\
    model_export_top E (export_at E 5) c m xprim = Ok out /\ ~ made_of scalar (VDict out).
Proof.
  exists Ebox, rt0, 3%N, [(k "item", VModel 0 (MD [] [(k "name", VDecimal 1 0)] [] None))]. do 2 eexists.
  split; [exact box_tidy|]. split; [exact box_library|]. split; [apply (cleanb_ok 4); reflexivity|]. split; [reflexivity|].
  split; [apply (cleanb_ok 5); reflexivity|]. split; [reflexivity|]. apply name_not_made.
Qed.
