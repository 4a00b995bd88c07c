(** Specification of the URLs that are accepted. *)
From Verif.Model Require Import Py.
From Verif.Spec Require Import NetSpec.
Local Open Scope string_scope.
Local Open Scope N_scope.

(** Any character except controls, blanks, angle brackets, braces, bars, double and back quotes, carets, and the special characters that are not allowed here. *)
Definition url_char (allowed : pstr) (c : N) : Prop :=
  32 < c /\ ~ 127 <= c <= 159 /\ ~ In c (u "<>{}|""`^") /\
  (In c (u ":/?#[]@!$&'()*+,;=-_.~%") -> In c allowed).
(** The scheme is http or https, in any case. *)
Definition scheme_text (s : pstr) : Prop :=
  exists t, (t = u "http" \/ t = u "https") /\ Forall2 (fun c d => c = d \/ c + 32 = d) s t.
(** An optional part of the text. *)
Definition opt_text (f : pstr -> pstr) (o : option pstr) : pstr := match o with Some x => f x | None => [] end.
Definition opt_all (P : pstr -> Prop) (o : option pstr) : Prop := match o with Some x => P x | None => True end.

(** Labels separated by dots. *)
Inductive dotted : list pstr -> pstr -> Prop :=
| dt_one l : dotted [l] l
| dt_more l ls t : dotted ls t -> dotted (l :: ls) (l ++ 46 :: t)%list.
(** 1 to 63 characters, no dot, no dash at the ends. *)
Definition host_label (l : pstr) : Prop := (1 <= length l <= 63)%nat /\ ~ In 46 l /\ hd 0 l <> 45 /\ last l 0 <> 45.
(** A top level domain: letters, or the ASCII form of an internationalised one. *)
Definition top_level (l : pstr) : Prop :=
  ((2 <= length l)%nat /\ Forall letter l) \/
  exists a b r, (a = 120 \/ a = 88) /\ (b = 110 \/ b = 78) /\ l = (a :: b :: 45 :: 45 :: r)%list /\ (4 <= length r)%nat /\
    Forall (fun c => letter c \/ dec_digit c) r.
(** A host name of at most 253 characters, possibly with a final dot; fully qualified if required. *)
Definition host_name (fqdn : bool) (n : pstr) : Prop :=
  exists t ls, (n = t \/ n = t ++ [46])%list /\ dotted ls t /\ (length t <= 253)%nat /\ Forall host_label ls /\
    (fqdn = true -> (2 <= length ls)%nat /\ top_level (last ls [])).
(** The ASCII form of a host name. *)
Definition ascii_form (idna : pstr -> option pstr) (h n : pstr) : Prop :=
  (Forall (fun c => c < 128) h /\ n = h) \/ (~ Forall (fun c => c < 128) h /\ idna h = Some n).
(** An IPv6 address in brackets, an IPv4 address, or a host name. *)
Definition url_host_text (idna : pstr -> option pstr) (fqdn : bool) (h : pstr) : Prop :=
  (exists a, ipv6_text a /\ Forall (fun c => hex_digit c \/ c = 58) a /\ h = (91 :: a ++ [93])%list) \/
  ipv4_text h \/
  (h <> [] /\ Forall (url_char (u ".-")) h /\ exists n, ascii_form idna h n /\ host_name fqdn n).
(** scheme://[user@]host[:port][/path][?query][#fragment] *)
Definition url_text (idna : pstr -> option pstr) (fqdn : bool) (s : pstr) : Prop :=
  exists sc us h po pa qu fr,
    scheme_text sc /\
    opt_all (fun x => x <> [] /\ Forall (url_char (u "-_.~!$&'()*+,;=%:")) x) us /\
    url_host_text idna fqdn h /\
    opt_all (fun x => (2 <= length x <= 5)%nat /\ Forall dec_digit x) po /\
    opt_all (Forall (url_char (u "!$&'()*+,;=-_.~%:@/"))) pa /\
    opt_all (Forall (url_char (u "!$&'()*+,;=-_.~%:@/?[]"))) qu /\
    opt_all (Forall (url_char (u "!$&'()*+,;=-_.~%:@/?"))) fr /\
    s = (sc ++ 58 :: 47 :: 47 :: opt_text (fun x => x ++ [64]) us ++ h ++ opt_text (cons 58) po ++
         opt_text (cons 47) pa ++ opt_text (cons 63) qu ++ opt_text (cons 35) fr)%list.
