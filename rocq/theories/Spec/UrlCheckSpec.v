(** Vocabulary for C114. *)
From Verif.Model Require Import Py Text.
From Verif.Spec Require Import NetSpec UrlSpec.
Local Open Scope string_scope.
Local Open Scope N_scope.

(** A URL and its parts: scheme, user, host, port, path (after the slash), query, fragment. *)
Record url_parts := UP { up_scheme : pstr; up_user : option pstr; up_host : pstr; up_port : option pstr; up_path : option pstr;
                         up_query : option pstr; up_frag : option pstr }.
(** The parts are those of an acceptable URL. *)
Definition acceptable (idna : pstr -> option pstr) (fqdn : bool) (p : url_parts) : Prop :=
  scheme_text (up_scheme p) /\
  opt_all (fun x => x <> [] /\ Forall (url_char (u "-_.~!$&'()*+,;=%:")) x) (up_user p) /\
  url_host_text idna fqdn (up_host p) /\
  opt_all (fun x => (2 <= length x <= 5)%nat /\ Forall dec_digit x) (up_port p) /\
  opt_all (Forall (url_char (u "!$&'()*+,;=-_.~%:@/"))) (up_path p) /\
  opt_all (Forall (url_char (u "!$&'()*+,;=-_.~%:@/?[]"))) (up_query p) /\
  opt_all (Forall (url_char (u "!$&'()*+,;=-_.~%:@/?"))) (up_frag p).
(** How they are written. *)
Definition url_of (p : url_parts) : pstr :=
  (up_scheme p ++ u "://" ++ opt_text (fun x => x ++ [64]) (up_user p) ++ up_host p ++ opt_text (cons 58) (up_port p) ++
   opt_text (cons 47) (up_path p) ++ opt_text (cons 63) (up_query p) ++ opt_text (cons 35) (up_frag p))%list.
(** The same with another user or none. *)
Definition with_user (p : url_parts) (us : option pstr) : url_parts := UP (up_scheme p) us (up_host p) (up_port p) (up_path p) (up_query p) (up_frag p).
(** The host in the request: an IPv6 address without its brackets; otherwise the ASCII form without a final dot. *)
Definition sent_host (idna : pstr -> option pstr) (h n : pstr) : Prop :=
  (h = 91 :: n ++ [93])%list \/
  (hd 0 h <> 91 /\ exists m, ascii_form idna h m /\ (m = n ++ [46] \/ m = n /\ last n 0 <> 46)%list).
(** A part with its separator, unless the part is empty. *)
Definition unless_empty (sep : N) (o : option pstr) : pstr := match o with Some [] | None => [] | Some x => sep :: x end.
(** The request for the path [pa] on the host [n]: no user; always a colon after the host. *)
Definition request_for (p : url_parts) (n pa : pstr) : pstr :=
  (up_scheme p ++ u "://" ++ n ++ u ":" ++ opt_text (fun x => x) (up_port p) ++ 47 :: pa ++
   unless_empty 63 (up_query p) ++ unless_empty 35 (up_frag p))%list.
(** Characters that may stand in a request. *)
Definition request_char (c : N) : Prop := 65 <= c <= 90 \/ 97 <= c <= 122 \/ dec_digit c \/ In c (u ":/?#[]@!$&'()*+,;=-_.~%").
(** Two hexadecimal digits in upper case for a byte. *)
Definition hex_pair (c x y : N) : Prop :=
  exists i j, c = 16 * i + j /\ i < 16 /\ j < 16 /\ nth_error (u "0123456789ABCDEF") (N.to_nat i) = Some x /\
    nth_error (u "0123456789ABCDEF") (N.to_nat j) = Some y.
(** Percent encoding of all other bytes. *)
Inductive quoted : list N -> pstr -> Prop :=
| qt_end : quoted [] []
| qt_char c b t : request_char c -> quoted b t -> quoted (c :: b) (c :: t)
| qt_byte c x y b t : ~ request_char c -> hex_pair c x y -> quoted b t -> quoted (c :: b) (37 :: x :: y :: t).
