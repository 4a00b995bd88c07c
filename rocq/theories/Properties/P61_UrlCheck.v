(** C114: URL fields that verify that the URL can be retrieved.  [idna] is the encoding of host names that are not ASCII; [open] is [urlopen];
    [verify_url idna fqdn open v] are the requests made and the exception raised if any. *)
From Coq Require Import Lia.
From Verif.Model Require Import Py Core Text Types Net Url UrlCheck.
From Verif.Spec Require Import NetSpec UrlSpec UrlCheckSpec.
From Verif.Proofs Require Import UrlCheckFacts.
Local Open Scope string_scope.
Local Open Scope N_scope.

(** Nothing is requested if the value is not an acceptable URL; the error is that of fields that do not verify. *)
Theorem C114_no_request_for_bad_urls : forall idna fqdn open v e, validate_url idna fqdn v = Some e -> verify_url idna fqdn open v = ([], Some e).
Proof. exact no_request. Qed.
Print Assumptions C114_no_request_for_bad_urls.
(** All acceptable URLs have parts as the theorems below require, *)
Theorem C114_parts : forall idna fqdn s, (forall h n, idna h = Some n -> ~ In 10 n) ->
  validate_url idna fqdn (VStr s) = None <-> exists p, acceptable idna fqdn p /\ (s = url_of p \/ s = (url_of p ++ [10])%list).
Proof. exact every_url. Qed.
Print Assumptions C114_parts.
(** and one host to ask; *)
Theorem C114_host : forall idna fqdn p, acceptable idna fqdn p ->
  exists n, sent_host idna (up_host p) n /\ forall n', sent_host idna (up_host p) n' -> n' = n.
Proof. exact one_host. Qed.
Print Assumptions C114_host.
(** quoting leads to one text of ASCII characters that may stand in URLs, *)
Theorem C114_quoting : forall b, Forall (fun c => c < 256) b -> exists t, quoted b t /\ (forall t', quoted b t' -> t' = t) /\ Forall request_char t.
Proof. exact one_quoting. Qed.
Print Assumptions C114_quoting.
(** and changes nothing if there are no others. *)
Theorem C114_plain_requests : forall b, Forall request_char b -> forall t, quoted b t <-> t = b.
Proof. exact quoted_plain. Qed.
Print Assumptions C114_plain_requests.
(** Of a URL with a path one request is made.  The value passes if it can be opened; URLError is reported as an error of the field, any other exception is
    raised by the validation.  A URL with a surrogate makes it raise ValueError before. *)
Theorem C114_request : forall idna fqdn open p s pa n,
  (forall h n, idna h = Some n -> ~ In 10 n) -> acceptable idna fqdn p -> up_path p = Some pa -> sent_host idna (up_host p) n ->
  s = url_of p \/ s = (url_of p ++ [10])%list ->
  match utf8_encode (request_for p n pa) with
  | None => verify_url idna fqdn open (VStr s) = ([], Some (XPy EValueError))
  | Some b => exists t, quoted b t /\ verify_url idna fqdn open (VStr s) =
      ([t], match open t with Opened => None | Refused => Some (XValid true [u "not_found"]) | Failed e => Some e end)
  end.
Proof. exact with_path. Qed.
Print Assumptions C114_request.
(** That URLs that can be retrieved pass is refuted: a URL without a path is not requested at all, and the validation raises TypeError. *)
Theorem C114_urls_that_exist_pass_refuted : forall idna fqdn open p s,
  (forall h n, idna h = Some n -> ~ In 10 n) -> acceptable idna fqdn p -> up_path p = None -> s = url_of p \/ s = (url_of p ++ [10])%list ->
  verify_url idna fqdn open (VStr s) = ([], Some (XPy ETypeError)).
Proof. exact without_path. Qed.
Print Assumptions C114_urls_that_exist_pass_refuted.
(** User and password have no influence: what is requested is not what the user of the URL would see. *)
Theorem C114_users_have_no_influence : forall idna fqdn open p us,
  (forall h n, idna h = Some n -> ~ In 10 n) -> acceptable idna fqdn p -> acceptable idna fqdn (with_user p us) ->
  verify_url idna fqdn open (VStr (url_of (with_user p us))) = verify_url idna fqdn open (VStr (url_of p)).
Proof. exact user_dropped. Qed.
Print Assumptions C114_users_have_no_influence.

Example C114_case :
  let v s := verify_url (fun _ => None) true (fun t => if pstr_eqb t (u "http://a.bc:/") then Opened else if pstr_eqb t (u "http://a.bc:80/x?q=%20#f") then Refused
                                                      else Failed (XPy EGenericException)) (VStr s) in
  v (u "http://a.bc/") = ([u "http://a.bc:/"], None) /\ v (u "http://me:pw@a.bc./") = ([u "http://a.bc:/"], None) /\
  v (u "http://a.bc:80/x?q=%20#f") = ([u "http://a.bc:80/x?q=%20#f"], Some (XValid true [u "not_found"])) /\
  v (u "http://[::1]:80/") = ([u "http://::1:80/"], Some (XPy EGenericException)) /\
  v (u "http://a.bc/" ++ [233])%list = ([u "http://a.bc:/%C3%A9"], Some (XPy EGenericException)) /\
  v (u "http://a.bc/" ++ [55296])%list = ([], Some (XPy EValueError)) /\
  v (u "http://a.bc") = ([], Some (XPy ETypeError)) /\ v (u "http://a.bc?q") = ([], Some (XPy ETypeError)) /\
  v (u "ftp://a.bc/") = ([], Some (XValid true [u "invalid_url"])).
Proof. repeat split; vm_compute; reflexivity. Qed.
(** The hypotheses can be met. *)
Example C114_parts_case : let p us pa := UP (u "http") us (u "a.bc") (Some (u "80")) pa None (Some []) in
  let idna := fun _ : pstr => None in
  (forall h n, idna h = Some n -> ~ In 10 n) /\ acceptable idna true (p None (Some [])) /\ acceptable idna true (p (Some (u "me")) None) /\
  sent_host idna (u "a.bc") (u "a.bc").
Proof.
  cbn zeta. split; [discriminate|].
  assert (C : forall al l, Forall (fun c => 97 <= c <= 122 \/ c = 46 /\ In 46 al) l -> Forall (url_char al) l).
  { intros al l. apply Forall_impl. intros c H. unfold url_char. destruct H as [H|[-> H]].
    - split; [lia|]. split; [lia|]. split; cbn; lia.
    - split; [lia|]. split; [lia|]. split; [cbn; lia|intros _; exact H]. }
  assert (H : url_host_text (fun _ => None) true (u "a.bc")).
  { right. right. split; [discriminate|]. split.
    - apply C. cbn. repeat (apply Forall_cons; [lia|]). apply Forall_nil.
    - exists (u "a.bc"). split; [left; split; [|reflexivity]; cbn; repeat (apply Forall_cons; [lia|]); apply Forall_nil|].
      exists (u "a.bc"), [u "a"; u "bc"]. split; [now left|]. split; [change (u "a.bc") with (u "a" ++ 46 :: u "bc")%list; do 2 constructor|].
      split; [cbn; lia|]. split; [|intros _; split; [cbn; lia|left; split; [cbn; lia|cbn; repeat (apply Forall_cons; [right; left; lia|]); apply Forall_nil]]].
      repeat (apply Forall_cons; [repeat split; cbn; lia|]). apply Forall_nil. }
  assert (S : scheme_text (u "http")) by (exists (u "http"); split; [now left|cbn; repeat (apply Forall2_cons; [now left|]); apply Forall2_nil]).
  split; [|split].
  - repeat split; cbn; auto; try lia; cbn; repeat (apply Forall_cons; [unfold dec_digit; lia|]); apply Forall_nil.
  - split; [exact S|]. split; [split; [discriminate|apply C; cbn; repeat (apply Forall_cons; [lia|]); apply Forall_nil]|]. split; [exact H|].
    repeat split; cbn; auto; try lia; cbn; repeat (apply Forall_cons; [unfold dec_digit; lia|]); apply Forall_nil.
  - right. split; [discriminate|]. exists (u "a.bc"). split; [left; split; [|reflexivity]; cbn; repeat (apply Forall_cons; [lia|]); apply Forall_nil|]. right. split; [reflexivity|discriminate].
Qed.
