(** URLType, schematics/types/net.py 120-256. *)
From Verif.Model Require Import Py Core Text Types Regex Net.
Local Open Scope string_scope.
Local Open Scope N_scope.

(** net.py 122-124, 128: the special characters that URLs may contain. *)
Definition gen_delims : pstr := u ":/?#[]@".
(** net.py 123. *)
Definition sub_delims : pstr := u "!$&'()*+,;=".
(** net.py 124. *)
Definition unreserved : pstr := u "-_.~".
(** net.py 128. *)
Definition valid_chars : pstr := (gen_delims ++ sub_delims ++ unreserved ++ u "%")%list.
(** net.py 125-126. *)
Definition pchar : pstr := (sub_delims ++ unreserved ++ u "%:@")%list.
(** net.py 126. *)
Definition query_extras : pstr := u "[]".
(** [c in set]. *)
Definition chr_in (l : pstr) (c : N) : bool := existsb (N.eqb c) l.
(** UNSAFE_CHAR_STRING, net.py 130, as part of a character class: there the backslash only escapes the caret after it. *)
Definition unsafe (c : N) : bool := (c <=? 32) || chr_in (u "<>{}|""`^") c || in_range 127 159 c.
(** _chrcls, net.py 132-142: any other character except the special ones that are not allowed. *)
Definition chrcls (allowed : pstr) (c : N) : bool := negb (unsafe c) && negb (chr_in valid_chars c && negb (chr_in allowed c)).
(** URI_PATTERNS, net.py 144-154. *)
Definition p_scheme : re := RRep (RChr (fun c => alpha c || dig c || chr_in (u ".+-") c)) 1 None.
(** net.py 146. *)
Definition p_user : re := RRep (RChr (chrcls (unreserved ++ sub_delims ++ u "%:")%list)) 1 None.
(** net.py 147. *)
Definition p_port : re := RRep (RChr dig) 2 (Some 5%nat).
(** net.py 149. *)
Definition p_host6 : re := RRep (RChr (fun c => hex c || (c =? 58))) 1 None.
(** net.py 150. *)
Definition p_hostn : re := RRep (RChr (chrcls (u ".-"))) 1 None.
(** net.py 151. *)
Definition p_path : re := RRep (RChr (chrcls (pchar ++ u "/")%list)) 0 None.
(** net.py 152. *)
Definition p_query : re := RRep (RChr (chrcls (pchar ++ u "/?" ++ query_extras)%list)) 0 None.
(** net.py 153. *)
Definition p_frag : re := RRep (RChr (chrcls (pchar ++ u "/?")%list)) 0 None.
(** The named groups. *)
Definition g_scheme := 0%nat.
(** net.py 176. *)
Definition g_user := 1%nat.
(** net.py 177. *)
Definition g_host6 := 2%nat.
(** net.py 178. *)
Definition g_host4 := 3%nat.
(** net.py 179. *)
Definition g_hostn := 4%nat.
(** net.py 180. *)
Definition g_port := 5%nat.
(** net.py 181. *)
Definition g_path := 6%nat.
(** net.py 182. *)
Definition g_query := 7%nat.
(** net.py 183. *)
Definition g_frag := 8%nat.
(** The parts of URL_REGEX, net.py 174-184: before the host, the host, after the host. *)
Definition url_front : re := RSeq (RGroup g_scheme p_scheme) (RSeq (rc 58) (RSeq (rc 47) (RSeq (rc 47) (ropt (RSeq (RGroup g_user p_user) (rc 64)))))).
(** The host, net.py 177-179. *)
Definition url_host : re := RAlt (RSeq (rc 91) (RSeq (RGroup g_host6 p_host6) (rc 93))) (RAlt (RGroup g_host4 ipv4) (RGroup g_hostn p_hostn)).
(** After the host, net.py 180-183. *)
Definition url_back : re :=
  RSeq (ropt (RSeq (rc 58) (RGroup g_port p_port)))
 (RSeq (ropt (RGroup g_path (RSeq (rc 47) p_path)))
 (RSeq (ropt (RSeq (rc 63) (RGroup g_query p_query)))
       (ropt (RSeq (rc 35) (RGroup g_frag p_frag))))).
(** URL_REGEX, net.py 174-184. *)
Definition url_regex : re := RSeq RBol (RSeq url_front (RSeq url_host (RSeq url_back REol))).
(** TLD_REGEX, net.py 186. *)
Definition tld_regex : re :=
  rseq [RBol; RAlt (RRep (RChr alpha) 2 None)
                   (rseq [RChr (fun c => (c =? 120) || (c =? 88)); RChr (fun c => (c =? 110) || (c =? 78)); rc 45; rc 45;
                          RRep (RChr (fun c => alpha c || dig c)) 4 None]); REol].

(** [text.lower()] where only ASCII matters: no other character becomes one of "https". *)
Definition lower (s : pstr) : pstr := map (fun c => if in_range 65 90 c then c + 32 else c) s.
(** [text.split('.')]. *)
Fixpoint split_dot (s : pstr) : list pstr :=
  match s with
  | [] => [[]]
  | c :: r =>
      let l := split_dot r in
      if c =? 46 then [] :: l
      else match l with x :: l' => (c :: x) :: l' | [] => [[c]] end
  end.
(** The group's text, if it took part in the match. *)
Definition group (n : nat) (caps : list (nat * pstr)) : option pstr :=
  match find (fun x => Nat.eqb (fst x) n) caps with Some x => Some (snd x) | None => None end.
(** net.py 227-231. *)
Definition label_ok (l : pstr) : bool :=
  ((1 <=? length l)%nat && (length l <? 64)%nat) && negb ((hd 0 l =? 45) || (last l 0 =? 45)).
(** net.py 213-235.  [idna] is [hostname.encode('idna')], [None] is UnicodeError; it is never empty. *)
Definition valid_hostname (idna : pstr -> option pstr) (fqdn : bool) (h : pstr) : bool :=
  match (if forallb (fun c => c <? 128) h then Some h else idna h) with
  | None => false
  | Some h =>
      let h := if last h 0 =? 46 then removelast h else h in
      let labels := split_dot h in
      (length h <=? 253)%nat && forallb label_ok labels &&
      (negb fqdn || (negb (length labels =? 1)%nat && re_test tld_regex (last labels [])))
  end.
(** valid_url, net.py 197-239 (whether it returns something true). *)
Definition valid_url (idna : pstr -> option pstr) (fqdn : bool) (s : pstr) : bool :=
  match re_match url_regex s with
  | None => false
  | Some caps =>
      match group g_scheme caps with
      | None => false
      | Some sc =>
          if negb (existsb (pstr_eqb (lower sc)) [u "http"; u "https"]) then false
          else match group g_host6 caps with
               | Some (c :: l) => valid_ip IPv6 (c :: l)
               | _ =>
                   match group g_host4 caps with
                   | Some (c :: l) => true
                   | _ => match group g_hostn caps with Some h => valid_hostname idna fqdn h | None => false end
                   end
               end
      end
  end.
(** validate_, net.py 241-256, without [verify_exists]: StopValidationError. *)
Definition validate_url (idna : pstr -> option pstr) (fqdn : bool) : vldr := text_validator true (valid_url idna fqdn) "invalid_url".
