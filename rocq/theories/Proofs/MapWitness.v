(** A mapping with names for a nested model, for C106. *)
From Verif.Model Require Import Py Core Export Api.
From Verif.Spec Require Import ImportSpec ValidateSpec PrimitiveSpec MapSpec.
From Verif.Proofs Require Import DictLemmas MapFacts.
From Verif.Conformance Require Import Sample.
Open Scope string_scope.
Open Scope list_scope.

(** deserialize_mapping={"name": "full name", "model_mapping": {"home": {"street": ["road", "way"]}}}. *)
Definition foreign : mapping :=
  Mapping [(k "name", [k "full name"])] [(k "home", Mapping [(k "street", [k "road"; k "way"])] [])].
Definition kw_foreign : kwargs := KW foreign true true true true true false false.
Definition kwv_foreign : kwargs := KW foreign false true false false true true false.
(** Data with the names of another system, and the same data with the names of the fields. *)
Definition foreign_data : list (key * pyval) :=
  [(k "full name", VStr (u "Bob")); (k "home", VDict [(k "way", VStr (u "Main")); (k "ZIP", VInt 7)]); (k "tags", VList [VInt 1])].
Definition own_data : list (key * pyval) :=
  [(k "name", VStr (u "Bob")); (k "tags", VList [VInt 1]); (k "home", VDict [(k "street", VStr (u "Main")); (k "ZIP", VInt 7)])].

Lemma sample_cases c (P : list (key * field) -> Prop) : P (mc_fields Address) -> P (mc_fields Person) -> P (mc_fields Signup) -> P [] -> P (fields_of Esample c).
Proof. intros A B C D. unfold fields_of. cbn [Esample e_class]. destruct c as [|p]; [exact A|]. destruct p as [p|p|]; [exact D| |exact B]. destruct p; [exact D|exact D|exact C]. Qed.
Lemma sample_plain_fields c : plain_fields (fields_of Esample c).
Proof. apply sample_cases; intros n f Hi; repeat (destruct Hi as [[= <- <-]|Hi]; [auto|]); destruct Hi. Qed.
Lemma sample_mappable : mappable_env Esample.
Proof.
  split.
  - intros c. apply sample_cases with (P := fun fs => NoDup (dkeys fs));
      unfold dkeys; cbn [map fst mc_fields Address Person Signup fld]; repeat (apply NoDup_cons || apply NoDup_nil); intros Hd; repeat (destruct Hd as [Hd|Hd]; [vm_compute in Hd; discriminate Hd|]); exact Hd.
  - intros c. apply sample_cases with (P := fun fs => separate_names fs no_mapping); intros n f n' f' Hi Hj Ha;
      repeat (destruct Hi as [[= <- <-]|Hi]; [repeat (destruct Hj as [[= <- <-]|Hj]; [vm_compute in Ha; intuition congruence|]); destruct Hj|]); try destruct Hi.
  - intros c n f. revert n f. apply sample_cases with (P := fun fs => forall n f, In (n, f) fs -> mappable (fd_spec f)); intros n f Hi;
      repeat (destruct Hi as [[= <- <-]|Hi]; [cbn; auto; intros m [<-|[<-|[]]]; eexists; eexists; reflexivity|]); destruct Hi.
  - intros c n f. revert n f.
    apply sample_cases with (P := fun fs => forall n f, In (n, f) fs -> plain_object (fo_default (fs_opts (fd_spec f))) \/ fo_default (fs_opts (fd_spec f)) = VUndef);
      intros n f Hi; repeat (destruct Hi as [[= <- <-]|Hi]; [cbn; auto|]); destruct Hi.
Qed.

Lemma foreign_external : forall y v, In (y, v) foreign_data -> external v.
Proof.
  intros y v [[= <- <-]|[[= <- <-]|[[= <- <-]|[]]]]; [now apply ex_atom|apply ex_dict|apply ex_list].
  - intros y v [[= <- <-]|[[= <- <-]|[]]]; now apply ex_atom.
  - intros v [<-|[]]; now apply ex_atom.
Qed.

Lemma defined_by_bool (d : list (key * pyval)) : forallb (fun p => negb (is_undef (snd p))) d = true -> defined_dict d.
Proof. intros H y D. apply dget_In in D. rewrite forallb_forall in H. now specialize (H _ D). Qed.
Lemma none_unknown fs mp mp' d e : (forall y, In y (dkeys d) -> acceptable fs mp y) -> (forall y, In y (dkeys e) -> acceptable fs mp' y) ->
  same_unknown fs mp mp' d e.
Proof.
  intros A B.
  pose (b := fun mp y => negb (existsb (key_eqb y) (all_input_keys fs mp))).
  assert (HB : forall mp y, b mp y = true <-> ~ acceptable fs mp y) by (intros; apply unknown_iff).
  exists (b mp), (b mp'). split; [apply HB|split; [apply HB|]].
  assert (Z : forall (b : key -> bool) l, (forall y, In y l -> b y = false) -> filter b l = []).
  { clear. induction l as [|y l IH]; intros H; [reflexivity|]. cbn. rewrite (H y (or_introl eq_refl)). apply IH. intros; apply H; now right. }
  rewrite !Z; [reflexivity| |]; intros y Hy; (destruct (b _ y) eqn:Q; [|reflexivity]); apply HB in Q; destruct Q; auto.
Qed.
Lemma accepted_by_keys fs mp l : forallb (fun y => existsb (key_eqb y) (all_input_keys fs mp)) l = true -> forall y, In y l -> acceptable fs mp y.
Proof.
  intros H y Hy. rewrite forallb_forall in H. specialize (H y Hy). apply existsb_exists in H as (z & Hz & Q). apply key_eqb_eq in Q. subst.
  now apply ImportLemmas.all_input_keys_acceptable.
Qed.

Lemma foreign_renamed b : renamed Esample b foreign 1%N foreign_data own_data.
Proof.
  apply ca_model; [apply defined_by_bool; reflexivity|apply defined_by_bool; reflexivity| |].
  - intros _. apply none_unknown; apply accepted_by_keys; vm_compute; reflexivity.
  - intros n f Hi. destruct Hi as [[= <- <-]|[[= <- <-]|[[= <- <-]|[[= <- <-]|[]]]]].
    + right. eexists; eexists; split; [reflexivity|split; [reflexivity|apply ca_leaf]].
    + left. split; [reflexivity|split; [reflexivity|apply ca_leaf]].
    + right. eexists; eexists; split; [reflexivity|split; [reflexivity|apply ca_list]]. constructor; [apply ca_leaf|constructor].
    + right. eexists; eexists; split; [reflexivity|split; [reflexivity|apply ca_model]]; [apply defined_by_bool; reflexivity|apply defined_by_bool; reflexivity| |].
      * intros _. apply none_unknown; apply accepted_by_keys; vm_compute; reflexivity.
      * intros n f Hi. destruct Hi as [[= <- <-]|[[= <- <-]|[]]];
          right; eexists; eexists; (split; [reflexivity|split; [reflexivity|apply ca_leaf]]).
Qed.

(** Data for a nested model with a name that only the mapping of the outer model lists. *)
Definition road_data : list (key * pyval) := [(k "name", VStr (u "Bob")); (k "home", VDict [(k "road", VStr (u "Main"))])].
Definition road_alone : mapping := Mapping [(k "street", [k "road"])] [].
Definition road_listed : mapping := Mapping [(k "street", [k "road"])] [(k "tags", Mapping [] [])].
