(** Options that only add checks: examples and the exception. *)
From Verif.Model Require Import Py Core Export Api.
From Verif.Spec Require Import OptionSpec.
From Verif.Proofs Require Import OptionFacts.
From Verif.Conformance Require Import Sample.
Open Scope string_scope.
Open Scope list_scope.

Lemma sample_no_setters : no_setters Esample.
Proof.
  intros c n f H. assert (D : c = 0%N \/ c = 1%N \/ c = 2%N \/ mc_fields (e_class Esample c) = []) by (destruct c as [|[[]|[]|]]; auto).
  destruct D as [->|[->|[->|D]]]; [cbn in H..|rewrite D in H; destruct H];
    repeat (destruct H as [Q|H]; [injection Q as <- <-; reflexivity|]); contradiction.
Qed.
Lemma sample_calm : calm_getters Esample.
Proof.
  intros c n f g v e H G. exfalso. assert (D : c = 0%N \/ c = 1%N \/ c = 2%N \/ mc_fields (e_class Esample c) = []) by (destruct c as [|[[]|[]|]]; auto).
  destruct D as [->|[->|[->|D]]]; [cbn in H..|rewrite D in H; destruct H];
    repeat (destruct H as [Q|H]; [injection Q as <- <-; discriminate|]); contradiction.
Qed.
(** validate() of a lazily created instance converts its data, validate(partial=True) does nothing. *)
Lemma lazy_option_witness : exists E c m w w' m1, calm_getters E /\ no_setters E /\ laxer w w' /\
  model_validate E (conv_at E 9) c m w = (m1, None) /\ model_validate E (conv_at E 9) c m w' <> (m1, None).
Proof.
  exists Esample, 1%N, (model_init_lazy [(k "name", VStr (u "Bob")); (k "age", VBool true)] []), kw1,
    (KW no_mapping true false false false true false false). eexists.
  split; [apply sample_calm|]. split; [apply sample_no_setters|]. split; [exists true, false; auto|].
  split; [reflexivity|discriminate].
Qed.
