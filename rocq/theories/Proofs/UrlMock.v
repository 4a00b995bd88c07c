(** Mock URLs. *)
From Verif.Model Require Import Py Core Text Types Mock Regex Net NetMock Url.
From Verif.Spec Require Import EnumSpec TextSpec NetSpec UrlSpec.
From Verif.Proofs Require Import TypeLemmas MockLemmas RegexLemmas NetLemmas MacEmail UrlLemmas UrlValid.
Local Open Scope N_scope.
Local Open Scope list_scope.

(** The characters that mock values consist of. *)
Lemma last_alnum (P : N -> Prop) x l : P x -> Forall P l -> P (last (x :: l) 0).
Proof. intros Hx F. revert x Hx. induction F as [|y l Hy F IH]; intros x Hx; [exact Hx|]. cbn [last] in *. now apply (IH y). Qed.
Theorem url_mock_valid idna fqdn draw pick lo hi s :
  fair draw -> (forall i, (97 <= pick i <= 122 \/ 65 <= pick i <= 90 \/ 48 <= pick i <= 57)) ->
  url_mock draw pick lo hi = Some s -> (length s <= 73)%nat -> url_text idna fqdn s /\ validate_length lo hi (VStr s) = None.
Proof.
  intros Hd Hp H L. split; [|eapply template_valid; [exact Hd|exact H]]. revert H.
  unfold url_mock, fill_template. destruct (value_in _ _ _ _ _) as [n|] eqn:E; [|discriminate]. intros H. assert (Es : s = u "http://a" ++ random_string pick n ++ u ".ZZ") by congruence. clear H. subst s.
  set (r := random_string pick n) in *.
  assert (Fr : Forall (fun c => 97 <= c <= 122 \/ 65 <= c <= 90 \/ 48 <= c <= 57) r).
  { unfold r, random_string. induction (seq 0 (Z.to_nat n)); cbn; constructor; auto. }
  assert (F : Forall (fun c => 97 <= c <= 122 \/ 65 <= c <= 90 \/ 48 <= c <= 57) (97 :: r)) by (constructor; [lia|exact Fr]).
  rewrite !app_length in L. change (length (u "http://a")) with 8%nat in L. change (length (u ".ZZ")) with 3%nat in L.
  exists (u "http"), None, ((97 :: r) ++ u ".ZZ"), None, None, None, None. cbn [opt_all opt_text].
  assert (Z2 : Forall letter (u "ZZ")) by (repeat (apply Forall_cons; [unfold letter; cbn; lia|]); constructor).
  split; [|split; [exact I|split; [|split; [exact I|split; [exact I|split; [exact I|split; [exact I|]]]]]]].
  - exists (u "http"). split; [now left|]. repeat (apply Forall2_cons; [now left|]). constructor.
  - right. right. split; [discriminate|]. split; [|].
    + apply Forall_app. split; [revert F; apply Forall_impl|repeat (apply Forall_cons; [apply (chrcls_iff (u ".-") (u ".-")); [reflexivity|vm_compute; reflexivity]|]); constructor].
      intros c H. unfold url_char. repeat split; [lia|lia| |]; intros I; exfalso; cbn in I; lia.
    + exists ((97 :: r) ++ u ".ZZ"). split.
      * left. split; [|reflexivity]. apply Forall_app. split; [revert F; apply Forall_impl; intros; lia|repeat (apply Forall_cons; [cbn; lia|]); constructor].
      * exists ((97 :: r) ++ u ".ZZ"), [97 :: r; u "ZZ"]. split; [now left|]. split; [|split; [|split]].
        -- change (u ".ZZ") with (46 :: u "ZZ"). apply dt_more, dt_one.
        -- rewrite app_length. change (length (u ".ZZ")) with 3%nat. cbn [length]. unfold pstr in *. lia.
        -- apply Forall_cons; [|apply Forall_cons; [|constructor]].
           ++ split; [cbn [length]; unfold pstr in *; lia|]. split; [|split; [cbn; lia|]].
              ** intros I. rewrite Forall_forall in F. specialize (F _ I). lia.
              ** pose proof (last_alnum _ _ _ (proj1 (proj1 (Forall_cons_iff _ _ _) F)) Fr) as K. cbv beta in K. lia.
           ++ split; [cbn; lia|]. split; [cbn; lia|]. split; cbn; lia.
        -- intros _. split; [cbn; lia|]. left. split; [cbn; lia|exact Z2].
  - cbn [u app]. rewrite app_nil_r. reflexivity.
Qed.
(** Longer ones are not accepted: the label is too long. *)
Theorem long_url_mock : exists lo s, url_mock (fun a _ => a) (fun _ => 97) (Some lo) None = Some s /\ forall idna fqdn, validate_url idna fqdn (VStr s) <> None.
Proof. exists 74%Z. eexists. split; [vm_compute; reflexivity|]. intros idna fqdn. vm_compute. discriminate. Qed.
Lemma url_sample : forall idna fqdn, validate_url idna fqdn (VStr (u "HTTPS://me:pw@www.Example.co:8080/a%20b/?q[]=1#top")) = None.
Proof. intros idna []; vm_compute; reflexivity. Qed.
