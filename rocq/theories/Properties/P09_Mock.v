(** C53: mock data respects the declared sizes.

    [range_endpoints lo hi p q]: the sizes among which the random part is chosen ([p] characters are fixed, at least [q]
    are needed); [None] is MockCreationError.  [draw], [pick] and [uniform] are the random choices. *)
From Verif.Model Require Import Py Core Num Types Mock.
From Verif.Spec Require Import EnumSpec.
From Verif.Proofs Require Import MockLemmas TypeWitness.
Open Scope string_scope.
Local Open Scope Z_scope.

Theorem C53_every_size_is_within_the_limits :
  forall lo hi p q a b, 0 <= p -> range_endpoints lo hi p q = Some (a, b) ->
    a <= b /\ forall n, a <= n <= b -> q <= n /\ within lo hi (n + p).
Proof. exact endpoints_sound. Qed.
Print Assumptions C53_every_size_is_within_the_limits.

Theorem C53_succeeds_iff_some_size_is_possible :
  forall lo h p q, 0 <= p -> 0 <= q ->
    ((exists a b, range_endpoints lo (Some h) p q = Some (a, b)) <-> exists n, q <= n /\ within lo (Some h) (n + p)).
Proof. exact endpoints_complete. Qed.
Print Assumptions C53_succeeds_iff_some_size_is_possible.

Theorem C53_succeeds_without_upper_limit :
  forall lo p q, 0 <= p -> 0 <= q -> p + q <= 16 -> exists a b, range_endpoints lo None p q = Some (a, b).
Proof. exact endpoints_open. Qed.
Print Assumptions C53_succeeds_without_upper_limit.

Theorem C53_mock_text_is_valid :
  forall draw pick lo hi s, fair draw -> string_mock draw pick lo hi = Some s -> validate_length lo hi (VStr s) = None.
Proof. exact string_mock_valid. Qed.
Print Assumptions C53_mock_text_is_valid.

Theorem C53_filled_templates_are_valid :
  forall draw pick x y lo hi s, fair draw -> fill_template draw pick x y lo hi = Some s ->
    validate_length lo hi (VStr s) = None /\ exists r, s = (x ++ r ++ y)%list /\ r <> [].
Proof. exact template_valid. Qed.
Print Assumptions C53_filled_templates_are_valid.

Theorem C53_mock_integers_are_valid :
  forall uniform lo hi z, (forall a b, a <= b -> let '(n, d) := uniform a b in a * Zpos d <= n <= b * Zpos d) ->
    int_mock uniform lo hi = Some z -> validate_range (option_map VInt lo) (option_map VInt hi) (VInt z) = None.
Proof. exact int_mock_valid. Qed.
Print Assumptions C53_mock_integers_are_valid.

Theorem C53_mock_lists_are_valid :
  forall draw elem lo hi l, fair draw -> list_mock draw elem lo hi = Some l -> within lo hi (Z.of_nat (length l)).
Proof. exact list_mock_valid. Qed.
Print Assumptions C53_mock_lists_are_valid.

(** A range of negative numbers is refused although it has elements. *)
Theorem C53_negative_ranges_refuted : exists lo hi n, range_endpoints lo hi 0 0 = None /\ within lo hi n.
Proof. exact mock_refused. Qed.
Print Assumptions C53_negative_ranges_refuted.

Example C53_case : fair (fun a b => b) /\ range_endpoints (Some 5) (Some 20) 12 1 = Some (1, 8) /\
  range_endpoints None None 0 0 = Some (0, 16) /\ range_endpoints None (Some 12) 12 1 = None /\
  int_mock (fun a b => (2 * a + 1, 2%positive)) (Some 3) (Some 9) = Some 3.
Proof. split; [intros a b H; lia|]. repeat split. Qed.
