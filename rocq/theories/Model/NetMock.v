(** Mock values of the types of schematics/types/net.py.  The random choices are arguments. *)
From Verif.Model Require Import Py Core Text Mock Net.
Local Open Scope N_scope.

(** [sep.join(...)]. *)
Fixpoint join (sep : N) (l : list pstr) : pstr :=
  match l with [] => [] | [x] => x | x :: r => (x ++ sep :: join sep r)%list end.
(** IPv4Type._mock, net.py 77-78: [d i] is the [i]-th [random.randrange(256)]. *)
Definition ipv4_mock (d : nat -> N) : pstr := join 46 (map (fun i => nat_text 10 (d i)) (seq 0 4)).
(** IPv6Type._mock, net.py 87-90: [d i] is the [i]-th [random.randrange(1 << 16)]. *)
Definition ipv6_mock (d : nat -> N) : pstr := (u "2001:db8:" ++ join 58 (map (fun i => nat_text 16 (d i)) (seq 0 6)))%list.
(** IPAddressType._mock, net.py 67-68: one of the two. *)
Definition ip_mock (four : bool) (d : nat -> N) : pstr := if four then ipv4_mock d else ipv6_mock d.
(** MACAddressType._mock, net.py 108-109. *)
Definition mac_mock (d : nat -> N) : pstr := join 58 (map (fun i => padded 2 16 (d i)) (seq 0 6)).
(** EmailType._mock, net.py 278-280. *)
Definition email_mock (draw : Z -> Z -> Z) (pick : nat -> N) (lo hi : option Z) : option pstr :=
  fill_template draw pick [] (u "@example.com") lo hi.
(** URLType._mock, net.py 194-195. *)
Definition url_mock (draw : Z -> Z -> Z) (pick : nat -> N) (lo hi : option Z) : option pstr :=
  fill_template draw pick (u "http://a") (u ".ZZ") lo hi.
