(** The sample program, and the same program with other names in it. *)
From Verif.Model Require Import Py Core Export Api.
From Verif.Spec Require Import ImportSpec ValidateSpec PrimitiveSpec OrderSpec RenameSpec.
From Verif.Proofs Require Import DictLemmas ImportLemmas Decide ExportWitness RenameFacts.
From Verif.Conformance Require Import Sample.
Open Scope string_scope.
Open Scope list_scope.

(** class Resident(Person): places = List(Model(Address)) *)
Definition Resident : mclass :=
  MC (mc_fields Person ++ [fld "places" (o0 1) (TList (FS (o_inner (o0 1)) (TModel 0)))]) [] (mc_roles Person) DEFAULT None.
Definition Ebefore : env :=
  Env (fun c => match c with 0%N => Address | 1%N => Resident | 2%N => Signup | _ => Nothing end) N.eqb (fun _ => []).

(** Address: street is called road, zip is called postal.  Resident: age is called years, home is called residence.
    Signup: pin is called secret.  The names outside are the old ones. *)
Definition Address_r : mclass :=
  MC [ fld "road" (o_req (o_sname "street" (o0 0))) (TLeaf any_leaf);
       fld "postal" (o_from ["postcode"] (o_sname "ZIP" (o0 0))) (TLeaf int_leaf) ] [] [] DEFAULT None.
Definition Resident_r : mclass :=
  MC [ fld "name" (o_req (o0 1)) (TLeaf any_leaf);
       fld "years" (o_val [non_negative] (o_def (VInt 18) (o_sname "age" (o0 1)))) (TLeaf int_leaf);
       fld "tags" (o0 1) (TList (FS (o_inner (o0 1)) (TLeaf int_leaf)));
       fld "residence" (o_sname "home" (o0 1)) (TModel 0);
       fld "places" (o0 1) (TList (FS (o_inner (o0 1)) (TModel 0))) ]
     [] [(k "public", fun n _ => key_eqb n (k "years"))] DEFAULT None.
Definition same_secret : mvalidator := fun _ data v =>
  (data, match dget (k "secret") data, v with
         | Some (VInt a), VInt b => if Z.eqb a b then None else Some (XValid false [u "pins differ"])
         | _, _ => Some (XValid false [u "no pin"])
         end).
Definition Signup_r : mclass :=
  MC [ fld "name" (o_sname "login" (o0 2)) (TLeaf any_leaf);
       fld "secret" (o_val [non_negative] (o_sname "pin" (o0 2))) (TLeaf int_leaf);
       fld "pin2" (o0 2) (TLeaf int_leaf);
       fld "code" (o0 2) (TUnion [member_of int_leaf [non_negative]; member_of any_leaf []]) ]
     [(k "pin2", same_secret)] [] DEFAULT None.
Definition Eafter : env :=
  Env (fun c => match c with 0%N => Address_r | 1%N => Resident_r | 2%N => Signup_r | _ => Nothing end) N.eqb (fun _ => []).

(** The renaming exchanges names; the names that are not known outside do not occur in data from outside. *)
Definition swap (a b x : key) : key := if key_eqb x a then b else if key_eqb x b then a else x.
Definition new_name (c : cid) (x : key) : key :=
  match c with
  | 0%N => swap (k "street") (k "road") (swap (k "zip") (k "postal") x)
  | 1%N => swap (k "age") (k "years") (swap (k "home") (k "residence") x)
  | 2%N => swap (k "pin") (k "secret") x
  | _ => x
  end.
Definition public_key (x : key) : bool :=
  negb (kmem x [k "road"; k "zip"; k "postal"; k "years"; k "residence"; k "secret"]).

Lemma swap_inj a b x y : swap a b x = swap a b y -> x = y.
Proof.
  unfold swap. destruct (key_eqb x a) eqn:A; [apply key_eqb_eq in A|]; (destruct (key_eqb y a) eqn:A2; [apply key_eqb_eq in A2|]);
    (destruct (key_eqb x b) eqn:B; [apply key_eqb_eq in B|]); (destruct (key_eqb y b) eqn:B2; [apply key_eqb_eq in B2|]); intros H; subst; try reflexivity;
    try congruence; rewrite ?key_eqb_refl in *; congruence.
Qed.
Lemma class_split (P : cid -> Prop) : P 0%N -> P 1%N -> P 2%N ->
  (forall c, e_class Ebefore c = Nothing -> e_class Eafter c = Nothing -> P c) -> forall c, P c.
Proof. intros H0 H1 H2 H [|[p|[p|p|]|]]; try assumption; apply H; reflexivity. Qed.
Ltac each_class := match goal with |- forall c : cid, @?P c => apply (class_split P) end; cbv beta.
Ltac entries H := cbn in H; repeat (destruct H as [H|H]); try contradiction; try (injection H as <- <-).
Notation rf := (ren_field Ebefore new_name public_key).
Lemma leaf_opts o o2 l : fo_named o2 = fo_named o -> fo_required o2 = fo_required o -> fo_level o2 = fo_level o -> fo_owner o2 = fo_owner o ->
  fo_default o2 = fo_default o -> fo_validators o2 = fo_validators o -> (forall g v errs d, In g (fo_validators o) -> g v <> Some (XData errs d)) ->
  rf (FS o (TLeaf l)) (FS o2 (TLeaf l)).
Proof.
  intros A B C D F G V. apply rf_leaf. repeat (split; [assumption|]). split; [right; apply kin_leaf|]. rewrite G.
  assert (W : forall g, In g (fo_validators o) -> forall v w, kin Ebefore new_name public_key false (FS o (TLeaf l)) v w -> g w = g v /\ forall errs d, g v <> Some (XData errs d)).
  { intros g Hg v w K. apply kin_leaf_eq in K as <-. split; [reflexivity|]. intros errs d. now apply V. }
  clear -W. induction (fo_validators o) as [|g l' IH]; constructor; [apply W; now left|]. apply IH. intros g' Hg. apply W. now right.
Qed.
Lemma non_negative_plain v errs d : non_negative v <> Some (XData errs d).
Proof. destruct v; try discriminate. unfold non_negative. destruct (_ <? 0)%Z; discriminate. Qed.
Ltac leaf_case := apply leaf_opts; try reflexivity; cbn; intros g v errs d Hg; repeat (destruct Hg as [<-|Hg]; [apply non_negative_plain|]); destruct Hg.
Ltac bare_opts := repeat (split; [reflexivity|]); split; [now left|constructor].
Ltac entry := constructor; [reflexivity|cbn [fd_spec snd fld]|reflexivity|reflexivity|repeat split].
Lemma rename_fields c : Forall2 (fun p q => ren_entry Ebefore new_name public_key c (fst p) (snd p) (fst q) (snd q)) (fields_of Ebefore c) (fields_of Eafter c).
Proof.
  revert c. each_class.
  - cbn. repeat (apply Forall2_cons; [entry; leaf_case|]). constructor.
  - cbn. apply Forall2_cons; [entry; leaf_case|]. apply Forall2_cons; [entry; leaf_case|].
    apply Forall2_cons; [entry; apply rf_list; [bare_opts|leaf_case]|]. apply Forall2_cons; [entry; apply rf_model; bare_opts|].
    apply Forall2_cons; [entry; apply rf_list; [bare_opts|apply rf_model; bare_opts]|]. constructor.
  - cbn. do 3 (apply Forall2_cons; [entry; leaf_case|]). apply Forall2_cons; [|constructor]. entry. apply rf_union; [bare_opts|].
    intros m Hm. cbn in Hm. destruct Hm as [<-|[<-|[]]]; unfold member_of; eauto.
  - intros c A B. unfold fields_of. rewrite A, B. constructor.
Qed.
Lemma pin_layer d e : layer Ebefore new_name (kin Ebefore new_name public_key false) 2 d e -> dget (k "secret") e = dget (k "pin") d.
Proof.
  induction 1 as [|[a v] [b w] d e (A & _ & _ & f & I & K) L IH]; [reflexivity|]. cbn [fst snd] in *. subst b.
  entries I; cbn [dget]; rewrite IH; try reflexivity. apply kin_leaf_eq in K as <-. reflexivity.
Qed.
Lemma rename_ok : renames Ebefore Eafter new_name public_key.
Proof.
  constructor.
  - each_class; cbn; intros; repeat match goal with H : swap _ _ _ = swap _ _ _ |- _ => apply swap_inj in H end; auto.
    intros. destruct c as [|[p|[p|p|]|]]; try discriminate; assumption.
  - each_class; [apply nodupb_ok; reflexivity..|]. intros c A B. unfold fields_of. rewrite A. constructor.
  - exact rename_fields.
  - each_class; [split; apply separate_ok; reflexivity..|]. intros c A B. unfold fields_of. rewrite A, B. split; intros n f n' f' [].
  - intros c y U. rewrite <- !all_input_keys_acceptable, <- !kmem_In.
    enough (Q : kmem y (all_input_keys (fields_of Ebefore c) no_mapping) = kmem y (all_input_keys (fields_of Eafter c) no_mapping)) by now rewrite Q.
    revert c. unfold public_key in U. apply negb_true_iff in U. cbn [kmem existsb] in U. rewrite !orb_false_iff in U. destruct U as (U1 & U2 & U3 & U4 & U5 & U6 & _).
    each_class; [..|intros c A B; unfold fields_of; now rewrite A, B]; cbn -[key_eqb]; rewrite ?U1, ?U2, ?U3, ?U4, ?U5, ?U6;
      repeat match goal with |- context [key_eqb y ?z] => destruct (key_eqb y z) end; reflexivity.
  - each_class.
    + intros n f H. entries H; exact I.
    + intros n f H. entries H; exact I.
    + intros n f H. entries H; try exact I. cbn. intros raw m m2 d e v w K L Kv. apply kin_leaf_eq in Kv as <-. cbn [fst snd same_pin same_secret]. split; [exact L|].
      now rewrite (pin_layer _ _ L).
    + intros c A B n f H. unfold fields_of in H. rewrite A in H. destruct H.
  - each_class.
    + intros r. exact I.
    + intros r. cbn. destruct (key_eqb r (k "public")); [|exact I]. intros n f v w H _. entries H; reflexivity.
    + intros r. exact I.
    + intros c A B r. now rewrite A, B.
  - each_class; try reflexivity. intros c A B. now rewrite A, B.
  - reflexivity.
Qed.

(** Bob, with an address given by its outside names, and the same instance in both programs. *)
Definition bob : list (key * pyval) :=
  [(k "name", VStr (u "Bob")); (k "age", VInt 30); (k "tags", VList [VInt 1]);
   (k "home", VDict [(k "street", VStr (u "Main")); (k "postcode", VInt 123)]);
   (k "places", VList [VDict [(k "street", VStr (u "Oak")); (k "ZIP", VInt 9)]])].
Lemma bob_outside : outside public_key (VDict bob).
Proof.
  assert (S : forall s, outside public_key (VStr s)) by (intros s; now constructor). assert (I : forall z, outside public_key (VInt z)) by (intros z; now constructor).
  apply os_dict. intros y v H. cbn in H. repeat (destruct H as [[= <- <-]|H]; [split; [reflexivity|]|]); try destruct H; auto.
  - apply os_list. auto.
  - apply os_dict. intros y v H. cbn in H. destruct H as [[= <- <-]|[[= <- <-]|[]]]; (split; [reflexivity|]); auto.
  - apply os_list. constructor; [|constructor]. apply os_dict. intros y v H. cbn in H. destruct H as [[= <- <-]|[[= <- <-]|[]]]; (split; [reflexivity|]); auto.
Qed.
Definition bob1 : mdata pyval := MD []
  [(k "name", VStr (u "Bob")); (k "age", VInt 30); (k "tags", VList [VInt 1]);
   (k "home", VModel 0 (MD [] [(k "street", VStr (u "Main")); (k "zip", VInt 123)] [] None));
   (k "places", VList [VModel 0 (MD [] [(k "street", VStr (u "Oak")); (k "zip", VInt 9)] [] None)])] [] None.
Definition bob2 : mdata pyval := MD []
  [(k "name", VStr (u "Bob")); (k "years", VInt 30); (k "tags", VList [VInt 1]);
   (k "residence", VModel 0 (MD [] [(k "road", VStr (u "Main")); (k "postal", VInt 123)] [] None));
   (k "places", VList [VModel 0 (MD [] [(k "road", VStr (u "Oak")); (k "postal", VInt 9)] [] None)])] [] None.
Lemma bob_built : model_init Ebefore (conv_at Ebefore 9) 1 (VDict bob) (VDict []) kw0 = Ok bob1 /\
  model_init Eafter (conv_at Eafter 9) 1 (VDict bob) (VDict []) kw0 = Ok bob2.
Proof. split; vm_compute; reflexivity. Qed.
Lemma bob_kin : kin_data Ebefore new_name public_key false 1 bob1 bob2.
Proof.
  pose proof (init_outside _ _ _ _ rename_ok 9 1 bob kw0 eq_refl eq_refl bob_outside) as H.
  destruct bob_built as [A B]. rewrite A, B in H. now inversion H.
Qed.
(** Data assigned as a list of addresses are not converted, and exported by the names in the program. *)
Definition raw_places : pyval := VList [VDict [(k "street", VStr (u "Elm"))]].
Lemma raw_witness : exists E E2 rho used c m n y f v m1 n1 d d2, renames E E2 rho used /\ kin_data E rho used false c m n /\
  In (y, f) (fields_of E c) /\ outside used v /\
  model_setitem E (conv_at E 9) c m y v = (m1, None) /\ model_setitem E2 (conv_at E2 9) c n (rho c y) v = (n1, None) /\
  model_export_top E (export_at E 9) c m1 xprim = Ok d /\ model_export_top E2 (export_at E2 9) c n1 xprim = Ok d2 /\
  dget y d = Some (VList [VDict [(k "street", VStr (u "Elm"))]]) /\
  dget y d2 = Some (VList [VDict []]).
Proof.
  exists Ebefore, Eafter, new_name, public_key, 1%N, bob1, bob2, (k "places"). eexists. exists raw_places. do 4 eexists.
  split; [exact rename_ok|]. split; [exact bob_kin|]. split; [do 4 right; left; reflexivity|].
  split. { apply os_list. constructor; [|constructor]. apply os_dict. intros y v [[= <- <-]|[]]. split; [reflexivity|now constructor]. }
  repeat (split; [vm_compute; reflexivity|]). vm_compute. reflexivity.
Qed.
(** Exports without a role. *)
Lemma no_role_renamed E rho used f b l : ren_export E rho used (ECtx f NoRole b l).
Proof. intros g H. discriminate H. Qed.
