(** Validators of network addresses; sample addresses. *)
From Verif.Model Require Import Py Core Text Types Regex Net.
From Verif.Spec Require Import NetSpec.
From Verif.Proofs Require Import RegexLemmas NetLemmas MacEmail.
Local Open Scope string_scope.
Local Open Scope N_scope.

Lemma validator_iff b p m s : text_validator b p m (VStr s) = None <-> p s = true.
Proof. cbn. destruct (p s); split; try congruence; discriminate. Qed.
(** A validator that stops decides: what follows it is not asked. *)
Lemma run_after_stop p msg pre post s acc :
  p s = false ->
  run_validators (pre ++ text_validator true p msg :: post) (VStr s) acc =
  run_validators (pre ++ [text_validator true p msg]) (VStr s) acc.
Proof.
  intros H. revert acc. induction pre as [|v pre IH]; intros acc; cbn [app run_validators].
  - cbn. now rewrite H.
  - destruct (v (VStr s)) as [[]|]; auto. destruct stop; auto.
Qed.
Lemma run_stop_nonempty p msg pre s acc : p s = false ->
  run_validators (pre ++ [text_validator true p msg]) (VStr s) acc <> Ok [].
Proof.
  intros H. revert acc. induction pre as [|v pre IH]; intros acc; cbn [app run_validators].
  - cbn. rewrite H. destruct acc; discriminate.
  - destruct (v (VStr s)) as [[]|]; auto; try discriminate. destruct stop; auto. destruct acc; discriminate.
Qed.
Lemma stop_decides p msg pre post s : p s = false ->
  validators_result (pre ++ text_validator true p msg :: post) (VStr s) =
  validators_result (pre ++ [text_validator true p msg]) (VStr s) /\
  exists e, validators_result (pre ++ [text_validator true p msg]) (VStr s) = Raise e.
Proof.
  intros H. unfold validators_result. rewrite (run_after_stop p msg pre post s [] H). split; [reflexivity|].
  pose proof (run_stop_nonempty p msg pre s [] H) as N.
  destruct (run_validators _ _ _) as [[|]|]; [congruence|eauto..].
Qed.
Theorem ipv4_validates s : validate_ip IPv4 (VStr s) = None <-> line ipv4_text s.
Proof. unfold validate_ip. rewrite validator_iff. apply ipv4_valid. Qed.
Theorem ipv6_validates s : validate_ip IPv6 (VStr s) = None <-> line ipv6_text s.
Proof. unfold validate_ip. rewrite validator_iff. apply ipv6_valid. Qed.
Theorem any_validates s : validate_ip IPany (VStr s) = None <-> (exists a r, ipv4_text a /\ s = (a ++ r)%list) \/ line ipv6_text s.
Proof. unfold validate_ip. rewrite validator_iff. apply ip_valid. Qed.
Theorem both_accepted s : line ipv4_text s \/ line ipv6_text s -> validate_ip IPany (VStr s) = None.
Proof.
  intros [(t & Ht & H)|H]; apply any_validates; [left|now right].
  destruct H as [->| ->]; [exists t, []|exists t, [10]]; rewrite ?app_nil_r; auto.
Qed.
Theorem garbage_accepted : exists s, validate_ip IPany (VStr s) = None /\ ~ line ipv4_text s /\ ~ line ipv6_text s.
Proof.
  exists (u "1.2.3.4; rm -rf /"). split; [vm_compute; reflexivity|]. split; intros H.
  - apply ipv4_valid in H. vm_compute in H. discriminate.
  - apply ipv6_valid in H. vm_compute in H. discriminate.
Qed.
Theorem mac_validates s : validate_mac (VStr s) = None <->
  (exists ds, line (fun t => mac_text t ds) s) \/ (exists l r, length l = 12%nat /\ Forall hex_digit l /\ s = (l ++ r)%list).
Proof. unfold validate_mac. rewrite validator_iff. apply mac_valid. Qed.
Theorem mac_again t ds : mac_text t ds -> exists w, mac_prim (VStr t) = Ok (VStr w) /\ mac_text w ds /\ validate_mac (VStr w) = None.
Proof. intros M. destruct (mac_export_valid _ _ M) as (w & H1 & H2 & H3). exists w. split; [exact H1|]. split; [exact H2|]. now apply validator_iff. Qed.
Theorem mac_garbage : exists s t, validate_mac (VStr s) = None /\ mac_prim (VStr s) = Ok (VStr t) /\ validate_mac (VStr t) <> None.
Proof.
  destruct mac_tail_accepted as (s & t & H1 & H2 & H3). exists s, t. split; [now apply validator_iff|]. split; [exact H2|].
  unfold validate_mac. rewrite validator_iff. congruence.
Qed.
Theorem email_validates U s : validate_email U (VStr s) = None <-> line (email_text U) s.
Proof. unfold validate_email. rewrite validator_iff. apply email_valid. Qed.
Theorem bad_email_ends U s pre post : ~ line (email_text U) s ->
  validators_result (pre ++ validate_email U :: post) (VStr s) = validators_result (pre ++ [validate_email U]) (VStr s) /\
  exists e, validators_result (pre ++ [validate_email U]) (VStr s) = Raise e.
Proof.
  intros H. apply stop_decides. destruct (valid_email U s) eqn:D; [|reflexivity].
  destruct H. now apply email_valid.
Qed.
Lemma exact_line (P : pstr -> Prop) s : line P s -> last s 0 <> 10 -> P s.
Proof. intros (t & Ht & [->| ->]) H; [exact Ht|]. rewrite last_last in H. congruence. Qed.
Lemma quad_text : ipv4_text (u "192.168.000.255").
Proof. apply exact_line; [apply ipv4_valid; vm_compute; reflexivity|vm_compute; discriminate]. Qed.
Lemma six_text : ipv6_text (u "fe80::1:192.0.2.1").
Proof. apply exact_line; [apply ipv6_valid; vm_compute; reflexivity|vm_compute; discriminate]. Qed.
Lemma mac_sample : mac_text (u "0011.22aA.44ff") (u "001122aA44ff").
Proof.
  apply (mt_dots (u "0011") (u "22aA") (u "44ff")).
  repeat (apply Forall_cons; [split; [reflexivity|repeat (apply Forall_cons; [unfold hex_digit; cbn; lia|]); constructor]|]). constructor.
Qed.
