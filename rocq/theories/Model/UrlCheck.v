(** URLType with [verify_exists], schematics/types/net.py 188-192, 241-256: whether the URL can be retrieved. *)
From Verif.Model Require Import Py Core Text Types Regex Net Url.
Local Open Scope string_scope.
Local Open Scope N_scope.

(** What [urlopen] does: returns, raises URLError (or the HTTPError derived from it), raises anything else. (runtime) *)
Inductive answer := Opened | Refused | Failed (e : exn).

(** [url['hostn_enc']], net.py 213-222, 237, of a host name that passed. *)
Definition hostn_enc (idna : pstr -> option pstr) (h : pstr) : pstr :=
  match (if forallb (fun c => c <? 128) h then Some h else idna h) with
  | Some h => if last h 0 =? 46 then removelast h else h
  | None => []
  end.
(** The first group that is not empty, net.py 248. *)
Definition host_of (idna : pstr -> option pstr) (caps : list (nat * pstr)) : pstr :=
  match group g_host6 caps with
  | Some (c :: l) => c :: l
  | _ => match group g_host4 caps with
         | Some (c :: l) => c :: l
         | _ => match group g_hostn caps with Some h => hostn_enc idna h | None => [] end
         end
  end.
(** A part with its separator, if it is not empty (urllib.parse.urlunsplit). (runtime) *)
Definition part (sep : N) (o : option pstr) : pstr := match o with Some (c :: l) => sep :: c :: l | _ => [] end.
(** [urlunsplit], net.py 246-251: with scheme and network location; the path is joined as it is, so None gives TypeError. (runtime) *)
Definition unsplit (idna : pstr -> option pstr) (caps : list (nat * pstr)) : res pstr :=
  match group g_path caps with
  | None => Raise (XPy ETypeError)
  | Some path =>
      Ok ((match group g_scheme caps with Some sc => sc | None => [] end) ++ u "://" ++
          host_of idna caps ++ 58 :: (match group g_port caps with Some p => p | None => [] end) ++ path ++
          part 63 (group g_query caps) ++ part 35 (group g_frag caps))%list
  end.
(** Characters that [quote] keeps: letters, digits and VALID_CHAR_STRING, net.py 128-129, 252. (runtime) *)
Definition kept (c : N) : bool := in_range 65 90 c || in_range 97 122 c || dig c || chr_in valid_chars c.
(** One hexadecimal digit in upper case. (runtime) *)
Definition upper_hex (n : N) : N := if n <? 10 then 48 + n else 55 + n.
(** [quote] of one byte. (runtime) *)
Definition quote_byte (b : N) : pstr := if kept b then [b] else [37; upper_hex (b / 16); upper_hex (b mod 16)].
(** The text that is opened, net.py 246-252; a text with surrogates cannot be encoded (UnicodeEncodeError, a ValueError). *)
Definition url_string (idna : pstr -> option pstr) (caps : list (nat * pstr)) : res pstr :=
  rbind (unsplit idna caps) (fun t =>
    match utf8_encode t with
    | Some b => Ok (flat_map quote_byte b)
    | None => Raise (XPy EValueError)
    end).
(** validate_ with [verify_exists], net.py 241-256: the requests made, and the exception raised if any. *)
Definition verify_url (idna : pstr -> option pstr) (fqdn : bool) (open : pstr -> answer) (v : pyval) : list pstr * option exn :=
  match validate_url idna fqdn v with
  | Some e => ([], Some e)
  | None =>
      match v with
      | VStr s =>
          match re_match url_regex s with
          | Some caps =>
              match url_string idna caps with
              | Raise e => ([], Some e)
              | Ok t => ([t], match open t with Opened => None | Refused => Some (XValid true [u "not_found"]) | Failed e => Some e end)
              end
          | None => ([], None)
          end
      | _ => ([], None)
      end
  end.
