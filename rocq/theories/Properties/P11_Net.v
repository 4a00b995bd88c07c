(** C36-C38, C63-C65: network addresses.

    The types are StringTypes with one more validator.  [line P s]: the text [s] satisfies [P], except for one newline
    that may follow (what [$] of a regular expression tolerates). *)
From Verif.Model Require Import Py Core Num Text Types Mock Regex Net NetMock Url.
From Verif.Spec Require Import TextSpec EnumSpec NetSpec UrlSpec.
From Verif.Proofs Require Import RegexLemmas NetLemmas MacEmail NetMockLemmas NetWitness UrlLemmas UrlValid UrlMock.
From Verif.Conformance Require Import TypeSample.
Open Scope string_scope.
Open Scope list_scope.
Open Scope N_scope.

(** ** C36: IPv4 *)
Theorem C36_ipv4_accepts_exactly_dotted_quads : forall s, validate_ip IPv4 (VStr s) = None <-> line ipv4_text s.
Proof. exact ipv4_validates. Qed.
Print Assumptions C36_ipv4_accepts_exactly_dotted_quads.

Example C36_case : ipv4_text (u "192.168.000.255") /\ valid_ip IPv4 (u "192.168.0.256") = false /\ valid_ip IPv4 (u "1.2.3") = false.
Proof. split; [exact quad_text|]. split; reflexivity. Qed.

(** ** C37: IPv6, and IP of either version *)
Theorem C37_ipv6_accepts_exactly_ipv6_texts : forall s, validate_ip IPv6 (VStr s) = None <-> line ipv6_text s.
Proof. exact ipv6_validates. Qed.
Print Assumptions C37_ipv6_accepts_exactly_ipv6_texts.

Theorem C37_addresses_of_both_versions_are_accepted :
  forall s, line ipv4_text s \/ line ipv6_text s -> validate_ip IPany (VStr s) = None.
Proof. exact both_accepted. Qed.
Print Assumptions C37_addresses_of_both_versions_are_accepted.

(** Whatever begins with an IPv4 address is accepted as well. *)
Theorem C37_accepted_as_ip_of_either_version :
  forall s, validate_ip IPany (VStr s) = None <-> (exists a r, ipv4_text a /\ s = a ++ r) \/ line ipv6_text s.
Proof. exact any_validates. Qed.
Print Assumptions C37_accepted_as_ip_of_either_version.

Theorem C37_only_addresses_are_accepted_refuted :
  exists s, validate_ip IPany (VStr s) = None /\ ~ line ipv4_text s /\ ~ line ipv6_text s.
Proof. exact garbage_accepted. Qed.
Print Assumptions C37_only_addresses_are_accepted_refuted.

Example C37_case : ipv6_text (u "fe80::1:192.0.2.1") /\ valid_ip IPv6 (u "1::2::3") = false /\
  valid_ip IPv6 (u "1:2:3:4:5:6:7") = false /\ valid_ip IPv6 (u "::") = true.
Proof. split; [exact six_text|]. repeat split; vm_compute; reflexivity. Qed.

(** ** C38: MAC addresses.  [mac_text t ds]: the text [t] writes the twelve digits [ds]. *)
Theorem C38_exported_with_colons :
  forall t ds, mac_text t ds ->
    exists a b c d e f, Forall (fun g => length g = 2%nat /\ Forall hex_digit g) [a; b; c; d; e; f] /\
      ds = a ++ b ++ c ++ d ++ e ++ f /\
      mac_prim (VStr t) = Ok (VStr (a ++ 58 :: b ++ 58 :: c ++ 58 :: d ++ 58 :: e ++ 58 :: f)).
Proof. exact mac_colon_form. Qed.
Print Assumptions C38_exported_with_colons.

Theorem C38_export_depends_on_the_digits_only :
  forall t t' ds ds', mac_text t ds -> mac_text t' ds' -> (mac_prim (VStr t) = mac_prim (VStr t') <-> ds = ds').
Proof. exact mac_export_eq. Qed.
Print Assumptions C38_export_depends_on_the_digits_only.

Theorem C38_export_is_idempotent : forall v w, mac_prim v = Ok w -> mac_prim w = Ok w.
Proof. exact mac_idem_prim. Qed.
Print Assumptions C38_export_is_idempotent.

Theorem C38_exports_are_accepted_again :
  forall t ds, mac_text t ds -> exists w, mac_prim (VStr t) = Ok (VStr w) /\ mac_text w ds /\ validate_mac (VStr w) = None.
Proof. exact mac_again. Qed.
Print Assumptions C38_exports_are_accepted_again.

(** What is no text cannot be exported. *)
Theorem C38_only_texts_are_exported : forall v, (forall s, v <> VStr s) ->
  ((exists b, v = VBytes b) -> mac_prim v = Raise (XPy ETypeError)) /\
  ((forall b, v <> VBytes b) -> mac_prim v = Raise (XPy EAttributeError)).
Proof. exact mac_no_text. Qed.
Print Assumptions C38_only_texts_are_exported.

(** Twelve digits may be followed by anything. *)
Theorem C38_accepted_texts :
  forall s, validate_mac (VStr s) = None <->
    (exists ds, line (fun t => mac_text t ds) s) \/
    (exists l r, length l = 12%nat /\ Forall hex_digit l /\ s = l ++ r).
Proof. exact mac_validates. Qed.
Print Assumptions C38_accepted_texts.

Theorem C38_accepted_texts_export_as_addresses_refuted :
  exists s t, validate_mac (VStr s) = None /\ mac_prim (VStr s) = Ok (VStr t) /\ validate_mac (VStr t) <> None.
Proof. exact mac_garbage. Qed.
Print Assumptions C38_accepted_texts_export_as_addresses_refuted.

Example C38_case : mac_text (u "0011.22aA.44ff") (u "001122aA44ff") /\
  mac_prim (VStr (u "0011.22aA.44ff")) = Ok (VStr (u "00:11:22:aA:44:ff")) /\ valid_mac (u "00:11:22:33:44:5g") = false.
Proof. split; [exact mac_sample|]. split; reflexivity. Qed.

(** ** C63: mock addresses *)
Theorem C63_ipv4_mock : forall d, (forall i, d i < 256) -> ipv4_text (ipv4_mock d).
Proof. exact ipv4_mock_valid. Qed.
Print Assumptions C63_ipv4_mock.
Theorem C63_ipv6_mock : forall d, (forall i, d i < 65536) -> ipv6_text (ipv6_mock d).
Proof. exact ipv6_mock_valid. Qed.
Print Assumptions C63_ipv6_mock.
Theorem C63_ip_mock :
  forall (four : bool) d, (forall i, d i < if four then 256 else 65536) -> valid_ip IPany (ip_mock four d) = true.
Proof. exact ip_mock_valid. Qed.
Print Assumptions C63_ip_mock.
Theorem C63_mac_mock : forall d, (forall i, d i < 256) -> exists ds, mac_text (mac_mock d) ds.
Proof. exact mac_mock_valid. Qed.
Print Assumptions C63_mac_mock.
Theorem C63_email_mock :
  forall U draw pick lo hi s, fair draw -> (forall i, atom_char (pick i)) ->
    email_mock draw pick lo hi = Some s -> email_text U s /\ validate_length lo hi (VStr s) = None.
Proof. exact email_mock_valid. Qed.
Print Assumptions C63_email_mock.

(** A label has at most 63 characters, so this holds up to a length of 73 only. *)
Theorem C63_url_mock :
  forall idna fqdn draw pick lo hi s, fair draw ->
    (forall i, 97 <= pick i <= 122 \/ 65 <= pick i <= 90 \/ 48 <= pick i <= 57) ->
    url_mock draw pick lo hi = Some s -> (length s <= 73)%nat ->
    url_text idna fqdn s /\ validate_length lo hi (VStr s) = None.
Proof. exact url_mock_valid. Qed.
Print Assumptions C63_url_mock.
Theorem C63_long_url_mocks_are_accepted_refuted :
  exists lo s, url_mock (fun a _ => a) (fun _ => 97) (Some lo) None = Some s /\
    forall idna fqdn, validate_url idna fqdn (VStr s) <> None.
Proof. exact long_url_mock. Qed.
Print Assumptions C63_long_url_mocks_are_accepted_refuted.

Example C63_case : ipv4_mock (fun i => 63 * N.of_nat i) = u "0.63.126.189" /\
  ipv6_mock (fun i => 13000 * N.of_nat i) = u "2001:db8:0:32c8:6590:9858:cb20:fde8" /\
  mac_mock (fun i => 51 * N.of_nat i) = u "00:33:66:99:cc:ff" /\
  email_mock (fun a _ => a) (fun _ => 97) None None = Some (u "a@example.com") /\
  url_mock (fun a _ => a) (fun _ => 97) (Some 14%Z) None = Some (u "http://aaaa.ZZ").
Proof. repeat split; vm_compute; reflexivity. Qed.

(** ** C64: email addresses *)
Theorem C64_accepted_emails : forall U s, validate_email U (VStr s) = None <-> line (email_text U) s.
Proof. exact email_validates. Qed.
Print Assumptions C64_accepted_emails.

(** A malformed address is the last thing reported about a value: validators further down the list are not asked. *)
Theorem C64_malformed_emails_end_the_checks :
  forall U s pre post, ~ line (email_text U) s ->
    validators_result (pre ++ validate_email U :: post) (VStr s) = validators_result (pre ++ [validate_email U]) (VStr s) /\
    exists e, validators_result (pre ++ [validate_email U]) (VStr s) = Raise e.
Proof. exact bad_email_ends. Qed.
Print Assumptions C64_malformed_emails_end_the_checks.

Example C64_case : valid_email (rt_uni rt0) (u "a.b+c@x-y.example.org") = true /\
  valid_email (rt_uni rt0) (u """a b""@example.com") = true /\ valid_email (rt_uni rt0) (u "a..b@example.com") = false /\
  valid_email (rt_uni rt0) (u "a@-example.com") = false /\ valid_email (rt_uni rt0) (u "a@localhost") = false.
Proof. repeat split; vm_compute; reflexivity. Qed.
(** Letters of a quoted local part: the long s and the Kelvin sign count as letters, as the pattern ignores case. *)
Example C64_case_letters : valid_email (rt_uni rt0) ([34; 383; 34]%N ++ u "@example.com") = true /\
  valid_email (rt_uni rt0) ([34; 92; 8490; 34]%N ++ u "@example.com") = true /\
  valid_email (rt_uni rt0) ([34; 233; 34]%N ++ u "@example.com") = false.
Proof. repeat split; vm_compute; reflexivity. Qed.
Example C64_case_ends : let asked := fun _ : pyval => Some (XValid false [u "asked"]) in
  validators_result [asked; validate_email (rt_uni rt0); asked] (VStr (u "a@b")) = Raise (XValid false [u "asked"; u "email"]) /\
  validators_result [asked; validate_ip IPv4; asked] (VStr (u "a@b")) = Raise (XValid false [u "asked"; u "Invalid IP address"; u "asked"]).
Proof. split; vm_compute; reflexivity. Qed.

(** ** C65: URLs.  [idna] is the encoding of host names that are not ASCII. *)
Theorem C65_accepted_urls :
  forall idna fqdn s, (forall h n, idna h = Some n -> ~ In 10 n) ->
    (validate_url idna fqdn (VStr s) = None <-> line (url_text idna fqdn) s).
Proof. exact url_validates. Qed.
Print Assumptions C65_accepted_urls.

Theorem C65_malformed_urls_end_the_checks :
  forall idna fqdn s pre post, (forall h n, idna h = Some n -> ~ In 10 n) -> ~ line (url_text idna fqdn) s ->
    validators_result (pre ++ validate_url idna fqdn :: post) (VStr s) =
    validators_result (pre ++ [validate_url idna fqdn]) (VStr s) /\
    exists e, validators_result (pre ++ [validate_url idna fqdn]) (VStr s) = Raise e.
Proof. exact bad_url_ends. Qed.
Print Assumptions C65_malformed_urls_end_the_checks.

(** The character that the pattern means to exclude. *)
Theorem C65_no_backslash_is_accepted_refuted :
  exists s, In 92 s /\ forall idna, validate_url idna true (VStr s) = None.
Proof. exact backslash_accepted. Qed.
Print Assumptions C65_no_backslash_is_accepted_refuted.

Example C65_case : let ok fqdn s := valid_url (fun _ => None) fqdn (u s) in
  ok true "HTTPS://me:pw@www.Example.co:8080/a%20b/?q[]=1#top" = true /\ ok true "http://[::1]:80/" = true /\
  ok true "http://127.0.0.1" = true /\ ok true "http://localhost/" = false /\ ok false "http://localhost/" = true /\
  ok true "ftp://example.com" = false /\ ok true "http://-a.com" = false /\ ok true "http://a..com" = false /\
  ok true "http://example.com:8" = false /\ ok true "http://[::g]/" = false /\ ok true "http://a b.com" = false.
Proof. repeat split; vm_compute; reflexivity. Qed.
