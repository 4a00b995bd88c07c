(** Boolean versions of side conditions, used by the examples. *)
From Verif.Model Require Import Py Core Export Api.
From Verif.Spec Require Import ImportSpec ValidateSpec.
From Verif.Proofs Require Import DictLemmas ImportLemmas.

Fixpoint nodupb (l : list key) : bool :=
  match l with [] => true | y :: r => negb (kmem y r) && nodupb r end.
Lemma nodupb_ok l : nodupb l = true -> NoDup l.
Proof.
  induction l as [|y l IH]; cbn; [constructor|].
  rewrite andb_true_iff, negb_true_iff, kmem_nIn. intros [H1 H2]. constructor; auto.
Qed.
Lemma definedb_ok (d : list (key * pyval)) : forallb (fun p => negb (is_undef (snd p))) d = true -> defined_dict d.
Proof.
  intros H y G. apply dget_In in G. rewrite forallb_forall in H. apply H in G. discriminate.
Qed.
Lemma rogueb_ok fs mp (d : list (key * pyval)) y :
  kmem y (dkeys d) && negb (kmem y (all_input_keys fs mp)) = true -> rogue_key fs mp d y.
Proof.
  rewrite andb_true_iff, negb_true_iff, kmem_In, kmem_nIn, all_input_keys_acceptable. auto.
Qed.
Lemma acceptableb_ok fs mp y : kmem y (all_input_keys fs mp) = true -> acceptable fs mp y.
Proof. now rewrite kmem_In, all_input_keys_acceptable. Qed.
Lemma plainb_ok fs : forallb (fun p => is_none_opt (fd_get (snd p)) && is_none_opt (fd_set (snd p))) fs = true ->
  plain_fields fs.
Proof.
  intros H n f Hi. rewrite forallb_forall in H. apply H in Hi. cbn in Hi.
  destruct (fd_get f), (fd_set f); try discriminate; auto.
Qed.
Lemma defined_data_ok m :
  forallb (fun p => negb (is_undef (snd p))) (md_unsafe m ++ md_converted m ++ md_valid m) = true ->
  defined_data m.
Proof.
  intros H n G. rewrite forallb_forall in H.
  assert (Hi : In (n, VUndef) (md_unsafe m ++ md_converted m ++ md_valid m)).
  { unfold chain_get in G. rewrite !in_app_iff.
    destruct (dget n (md_unsafe m)) eqn:G1; [injection G as ->; apply dget_In in G1; auto|].
    destruct (dget n (md_converted m)) eqn:G2; [injection G as ->; apply dget_In in G2; auto|].
    apply dget_In in G; auto. }
  apply H in Hi. discriminate.
Qed.
Lemma separate_ok fs mp :
  forallb (fun p => forallb (fun q => key_eqb (fst q) (fst p) || negb (kmem (fst q) (accepted_names (fst p) (fd_spec (snd p)) mp))) fs) fs = true ->
  separate_names fs mp.
Proof.
  intros H n f n' f' Hi Hi' Ha. rewrite forallb_forall in H. apply H in Hi. rewrite forallb_forall in Hi. apply Hi in Hi'.
  cbn [fst snd] in Hi'. apply orb_true_iff in Hi' as [Hk|Hk]; [now apply key_eqb_eq|].
  apply negb_true_iff, kmem_nIn in Hk. contradiction.
Qed.
