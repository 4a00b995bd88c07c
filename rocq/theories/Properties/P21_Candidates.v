(** C74: the classes a polymorphic field chooses from. *)
From Verif.Model Require Import Py Core Meta.
From Verif.Spec Require Import CompoundSpec MetaSpec CandidateSpec.
From Verif.Proofs Require Import MetaWitness Candidates CandidateWitness.
From Verif.Conformance Require Import Sample.

(** A class is a candidate as often as there are ways from it up to the class of the field. *)
Theorem C74_how_often_a_class_is_considered : forall P c d, made P -> class_at P d <> None ->
  exists L, NoDup L /\ (forall l, In l L <-> line P c l d) /\
    count_occ N.eq_dec (c :: e_subs (env_of P) c) d = length L.
Proof. exact candidate_count. Qed.
Print Assumptions C74_how_often_a_class_is_considered.

Theorem C74_once_without_multiple_inheritance : forall P c, made P -> single P -> class_at P c <> None ->
  NoDup (c :: e_subs (env_of P) c).
Proof. exact candidates_once. Qed.
Print Assumptions C74_once_without_multiple_inheritance.

(** Without multiple inheritance the only class that claims the value is chosen, wherever it is in the family. *)
Theorem C74_the_only_claimant_is_chosen : forall P b v, made P -> class_at P b <> None -> hooks_answer P b v ->
  forall c, single P -> class_at P c <> None -> derived P c b -> claims (env_of P) v c ->
    (forall d, class_at P d <> None -> derived P d b -> claims (env_of P) v d -> d = c) ->
    find_model (env_of P) (poly_of b) v = Ok c.
Proof. exact family_choice. Qed.
Print Assumptions C74_the_only_claimant_is_chosen.

(** A class and a class derived from it that claim the same value are ambiguous: the derived one has no precedence. *)
Theorem C74_two_claimants_are_ambiguous : forall P b v, made P -> class_at P b <> None -> hooks_answer P b v ->
  forall c d, class_at P c <> None -> derived P c b -> claims (env_of P) v c ->
    class_at P d <> None -> derived P d b -> claims (env_of P) v d -> c <> d ->
    find_model (env_of P) (poly_of b) v = Raise (XPy EGenericException).
Proof. exact family_ambiguous. Qed.
Print Assumptions C74_two_claimants_are_ambiguous.

Theorem C74_the_class_itself_if_nobody_claims : forall P b v, made P -> class_at P b <> None -> hooks_answer P b v ->
  no_hook (env_of P) b -> (forall d, class_at P d <> None -> derived P d b -> ~ claims (env_of P) v d) ->
  find_model (env_of P) (poly_of b) v = Ok b.
Proof. exact family_fallback. Qed.
Print Assumptions C74_the_class_itself_if_nobody_claims.

(** A class defined after the field is a candidate exactly if one of its bases is in the family. *)
Theorem C74_classes_defined_later : forall P bases attrs own claim b, made P ->
  (forall x, In x bases -> class_at P x <> None) -> class_body P attrs -> class_at P b <> None ->
  (In (next_class P) (b :: e_subs (env_of (define_class P bases attrs own claim)) b) <->
   exists x, In x bases /\ derived P x b).
Proof. exact later_candidates. Qed.
Print Assumptions C74_classes_defined_later.

Example C74_case :
  made shapes /\ single shapes /\ class_at shapes 1 <> None /\ hooks_answer shapes 1 (VDict [(k "side", VInt 2)]) /\
  derived shapes 3 1 /\ claims (env_of shapes) (VDict [(k "side", VInt 2)]) 3 /\
  (forall d, class_at shapes d <> None -> claims (env_of shapes) (VDict [(k "side", VInt 2)]) d -> d = 3%N) /\
  find_model (env_of shapes) (poly_of 1) (VDict [(k "side", VInt 2)]) = Ok 3%N /\
  find_model (env_of shapes) (poly_of 1) (VDict []) = Ok 1%N /\
  find_model (env_of shapes) (poly_of 1) (VDict [(k "side", VInt 2); (k "radius", VInt 2)]) = Raise (XPy EGenericException) /\
  e_subs (env_of (define_class shapes [3%N] [] [] None)) 1 = [2%N; 3%N; 4%N] /\
  made diamond /\ count_occ N.eq_dec (1%N :: e_subs (env_of diamond) 1) 4%N = 2 /\
  line diamond 1 [4%N; 2%N; 1%N] 4 /\ line diamond 1 [4%N; 3%N; 1%N] 4.
Proof.
  split; [exact shapes_made|]. split; [apply singleb_sound; vm_compute; reflexivity|]. split; [vm_compute; discriminate|].
  split; [apply answers_sound; vm_compute; reflexivity|].
  split; [eapply derived_base; [reflexivity|now left|constructor]|].
  split; [apply the_claim_iff; vm_compute; reflexivity|]. split; [apply only_sound; vm_compute; reflexivity|].
  do 4 (split; [vm_compute; reflexivity|]). split; [exact diamond_made|]. split; [vm_compute; reflexivity|]. split.
  - eapply line_up; [reflexivity|now left|]. eapply line_up; [reflexivity|now left|constructor].
  - eapply line_up; [reflexivity|right; now left|]. eapply line_up; [reflexivity|now left|constructor].
Qed.

(** With multiple inheritance the only class that claims a value may be ambiguous by itself. *)
Theorem C74_the_only_claimant_is_chosen_refuted :
  exists P b c v, made P /\ class_at P c <> None /\ derived P c b /\ hooks_answer P b v /\
    claims (env_of P) v c /\ (forall d, class_at P d <> None -> claims (env_of P) v d -> d = c) /\
    find_model (env_of P) (poly_of b) v = Raise (XPy EGenericException).
Proof. exact diamond_witness. Qed.
Print Assumptions C74_the_only_claimant_is_chosen_refuted.

(** So may a class listed beside one of its bases if subclasses are allowed. *)
Theorem C74_listed_classes_count_once_refuted :
  exists P cs c v, made P /\ single P /\ In c cs /\ NoDup cs /\
    claims (env_of P) v c /\ (forall d, class_at P d <> None -> claims (env_of P) v d -> d = c) /\
    find_model (env_of P) (Poly cs true None) v = Raise (XPy EGenericException) /\
    find_model (env_of P) (Poly cs false None) v = Ok c.
Proof. exact overlap_witness. Qed.
Print Assumptions C74_listed_classes_count_once_refuted.
