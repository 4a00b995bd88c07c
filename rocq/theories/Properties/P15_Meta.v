(** C44, C45: class hierarchies. *)
From Verif.Model Require Import Py Core Export Meta.
From Verif.Spec Require Import MetaSpec.
From Verif.Proofs Require Import MetaClass MetaFacts MetaOrder MetaOthers MetaWitness.
From Verif.Conformance Require Import Sample.
From Coq Require Import Sorted.

(** C44: the fields of a class are those it declares and, of the others, that of the leftmost
    base that has it; each with the options and type it was given, belonging to the new class. *)
Theorem C44_own_and_inherited_fields : forall P bases attrs own claim x f, made P ->
  (forall b, In b bases -> class_at P b <> None) -> class_body P attrs ->
  (field_of (define_class P bases attrs own claim) (next_class P) x = Some f <->
   exists g, f = rebrand_field (next_class P) g /\
     (declares P attrs x g \/ ((forall g', ~ declares P attrs x g') /\ inherits P bases x g))).
Proof. exact (fun P bases attrs own claim x f M B CB => define_fields P (made_wf P M) bases attrs own claim B CB x f). Qed.
Print Assumptions C44_own_and_inherited_fields.

(** Fields come in the order in which they were created, in every class of every program; *)
Theorem C44_fields_by_creation : forall P c x y p q, made P ->
  created P c x = Some p -> created P c y = Some q -> (before x y (names_of P c) <-> (p < q)%Z).
Proof. exact fields_by_creation. Qed.
Print Assumptions C44_fields_by_creation.

(** a declared field was created when its type was called, *)
Theorem C44_own_field_created : forall P bases attrs own claim x t a, made P ->
  (forall b, In b bases -> class_at P b <> None) -> class_body P attrs ->
  In (x, t) attrs -> declared_obj t = Some a ->
  created (define_class P bases attrs own claim) (next_class P) x = Some (Z.of_nat a).
Proof. exact (fun P bases attrs own claim x t a M B CB => created_own P (made_wf P M) bases attrs own claim B CB x t a). Qed.
Print Assumptions C44_own_field_created.

(** an inherited one when the base's was. *)
Theorem C44_inherited_field_created : forall P bases attrs own claim x, made P ->
  (forall b, In b bases -> class_at P b <> None) -> class_body P attrs ->
  (forall t, In (x, t) attrs -> declared_obj t = None) ->
  created (define_class P bases attrs own claim) (next_class P) x = inherited_created P bases x.
Proof. exact (fun P bases attrs own claim x M => created_inherited P bases attrs own claim x (made_wf P M)). Qed.
Print Assumptions C44_inherited_field_created.

(** So, with one base and fields created in the order they are written, the base's fields that
    are not overridden come first, in their order, then the declared ones, in theirs. *)
Theorem C44_names_of_a_subclass : forall P b attrs own claim, made P -> class_at P b <> None -> class_body P attrs ->
  StronglySorted (fun p q => forall a d, declared_obj (snd p) = Some a -> declared_obj (snd q) = Some d -> a < d) attrs ->
  (forall x t a y p, In (x, t) attrs -> declared_obj t = Some a -> created P b y = Some p -> (p < Z.of_nat a)%Z) ->
  names_of (define_class P [b] attrs own claim) (next_class P)
  = filter (fun x => negb (kmem x (own_names attrs))) (names_of P b) ++ own_names attrs.
Proof. exact single_base_names. Qed.
Print Assumptions C44_names_of_a_subclass.

(** Every field of every class is named and belongs to that class. *)
Theorem C44_fields_are_set_up : forall P c x f, made P -> field_of P c x = Some f ->
  fo_named (fs_opts (fd_spec f)) = true /\ fo_owner (fs_opts (fd_spec f)) = Some c.
Proof. exact set_up_everywhere. Qed.
Print Assumptions C44_fields_are_set_up.

(** Plain attributes have no effect on fields, not even if they have the name of one. *)
Theorem C44_other_attributes_do_not_matter : forall P bases attrs own claim,
  define_class P bases attrs own claim =
  define_class P bases (filter (fun p => match snd p with AOther _ => false | _ => true end) attrs) own claim.
Proof. exact other_attributes. Qed.
Print Assumptions C44_other_attributes_do_not_matter.

(** Model level validators: the class's own, else that of the leftmost base that has one. *)
Theorem C44_validators : forall P bases attrs own claim x, made P ->
  (forall b, In b bases -> class_at P b <> None) -> class_body P attrs ->
  validator_of (define_class P bases attrs own claim) (next_class P) x =
  match own_validator attrs x with Some v => Some v | None => inherited_validator P bases x end.
Proof. exact (fun P bases attrs own claim x M B CB => define_validators P (made_wf P M) bases attrs own claim B CB x). Qed.
Print Assumptions C44_validators.

(** The export level of a class: its serialize_when_none, else its export_level, else the
    leftmost base's. *)
Theorem C44_level_from_when_none : forall P bases attrs own claim, made P ->
  (forall b, In b bases -> class_at P b <> None) -> class_body P attrs -> options_body own ->
  forall b, In (OWhenNone (Some b)) own ->
  mc_level (e_class (env_of (define_class P bases attrs own claim)) (next_class P)) = if b then DEFAULT else NONEMPTY.
Proof. exact level_when_none. Qed.
Print Assumptions C44_level_from_when_none.

Theorem C44_level_from_own_option : forall P bases attrs own claim, made P ->
  (forall b, In b bases -> class_at P b <> None) -> class_body P attrs -> options_body own ->
  forall l, In (OLevel l) own -> (forall b, ~ In (OWhenNone (Some b)) own) ->
  mc_level (e_class (env_of (define_class P bases attrs own claim)) (next_class P)) = l.
Proof. exact level_own. Qed.
Print Assumptions C44_level_from_own_option.

Theorem C44_level_inherited : forall P bases attrs own claim, made P ->
  (forall b, In b bases -> class_at P b <> None) -> class_body P attrs -> options_body own ->
  (forall l, ~ In (OLevel l) own) -> (forall b, ~ In (OWhenNone (Some b)) own) ->
  mc_level (e_class (env_of (define_class P bases attrs own claim)) (next_class P)) = mc_level (leftmost_class P bases).
Proof. exact level_inherited. Qed.
Print Assumptions C44_level_inherited.

(** The roles of a class: its own, and those of the leftmost base that it does not redefine. *)
Theorem C44_own_roles : forall P bases attrs own claim, made P ->
  (forall b, In b bases -> class_at P b <> None) -> class_body P attrs -> options_body own ->
  forall r x f, In (ORoles r) own -> NoDup (dkeys r) -> dget x r = Some f ->
  dget x (mc_roles (e_class (env_of (define_class P bases attrs own claim)) (next_class P))) = Some f.
Proof. exact roles_own. Qed.
Print Assumptions C44_own_roles.

Theorem C44_inherited_roles : forall P bases attrs own claim, made P ->
  (forall b, In b bases -> class_at P b <> None) -> class_body P attrs -> options_body own ->
  forall x, (forall r, In (ORoles r) own -> dget x r = None) ->
  dget x (mc_roles (e_class (env_of (define_class P bases attrs own claim)) (next_class P)))
  = dget x (mc_roles (leftmost_class P bases)).
Proof. exact roles_inherited. Qed.
Print Assumptions C44_inherited_roles.

(** The subclass relation is the one the class statements give; so are all the subclasses. *)
Theorem C44_issubclass : forall P c d, made P -> class_at P c <> None ->
  (e_issub (env_of P) c d = true <-> derived P c d).
Proof. exact issubclass_spec. Qed.
Print Assumptions C44_issubclass.

Theorem C44_all_subclasses : forall P c d, made P -> class_at P d <> None ->
  (In d (e_subs (env_of P) c) <-> derived P d c /\ d <> c).
Proof. exact all_subclasses_spec. Qed.
Print Assumptions C44_all_subclasses.

(** class Rated(Note): stars = Int(); title = BaseType(required=True); note = None
    where Note has title and lines: lines, stars, title. *)
Example C44_case :
  made rated_program /\ class_body rated_program rated_attrs /\
  (forall b, In b [Note] -> class_at rated_program b <> None) /\
  let P' := define_class rated_program [Note] rated_attrs [] None in
  let Rated := next_class rated_program in
  names_of rated_program Note = [k "title"; k "lines"] /\
  names_of P' Rated = [k "lines"; k "stars"; k "title"] /\
  option_map (fun f => fo_required (fs_opts (fd_spec f))) (field_of P' Rated (k "title")) = Some true /\
  option_map (fun f => fo_required (fs_opts (fd_spec f))) (field_of P' Note (k "title")) = Some false /\
  created P' Rated (k "lines") = Some 2%Z /\ created P' Rated (k "title") = Some 4%Z /\
  e_issub (env_of P') Rated Note = true /\ e_subs (env_of P') 0%N = [Note; Rated].
Proof.
  split; [exact rated_made|]. split; [exact rated_body|]. split; [exact rated_bases|].
  vm_compute. repeat split.
Qed.
Example C44_names_case :
  StronglySorted (fun p q => forall a d, declared_obj (snd p) = Some a -> declared_obj (snd q) = Some d -> a < d) rated_attrs /\
  (forall x t a y p, In (x, t) rated_attrs -> declared_obj t = Some a -> created rated_program Note y = Some p -> (p < Z.of_nat a)%Z) /\
  own_names rated_attrs = [k "stars"; k "title"].
Proof.
  repeat split.
  - repeat constructor; cbn; intros a d E1 E2; try discriminate; injection E1 as <-; injection E2 as <-; lia.
  - intros x t a y p I D C. unfold created in C.
    change (class_at rated_program Note) with (Some (Cls [0%N] [(k "title", En 0 None None); (k "lines", En 2 None None)] sopts_default [] None)) in C.
    cbn [cl_fields dget] in C. destruct (key_eqb y (k "title")); [|destruct (key_eqb y (k "lines")); [|discriminate C]];
      cbn in C; injection C as <-; destruct I as [I|[I|[I|[]]]]; injection I as <- <-; cbn in D; try discriminate D;
      injection D as <-; lia.
Qed.
Example C44_options_case :
  let own := [OExtra (k "_x") VNone; ORoles [(k "public", fun _ _ => true)]; OWhenNone (Some false)] in
  options_body own /\
  let P' := define_class note_program [Note] [] own None in
  mc_level (e_class (env_of P') (next_class note_program)) = NONEMPTY /\
  dkeys (mc_roles (e_class (env_of P') (next_class note_program))) = [k "public"].
Proof.
  split; [|vm_compute; split; reflexivity]. split.
  - repeat constructor; cbn; intros I; repeat destruct I as [I|I]; try discriminate I; contradiction.
  - intros x v [E|[E|[E|[]]]]; try discriminate E. injection E as <- <-. exists (u "x"). reflexivity.
Qed.

(** Python would find a field overridden in a base to the right before the original that a base to
    the left merely inherited; here the original wins.
    class A: x = T(); class B(A): x = T(required=True); class C(A): pass; class D(C, B): pass *)
Theorem C44_override_wins_over_original_refuted :
  exists P a b c fa fb, made P /\
    class_at P a <> None /\ derived P b a /\ derived P c a /\
    field_of P a (k "x") = Some fa /\ field_of P b (k "x") = Some fb /\
    field_of (define_class P [c; b] [] [] None) (next_class P) (k "x") = Some (rebrand_field (next_class P) fa) /\
    fo_required (fs_opts (fd_spec fb)) = true /\ fo_required (fs_opts (fd_spec fa)) = false.
Proof.
  exists diamond_program, 1%N, 2%N, 3%N. do 2 eexists. split; [exact diamond_made|].
  split; [vm_compute; discriminate|].
  split; [eapply derived_base; [vm_compute; reflexivity|now left|constructor]|].
  split; [eapply derived_base; [vm_compute; reflexivity|now left|constructor]|].
  repeat split.
Qed.
Print Assumptions C44_override_wins_over_original_refuted.

(** Roles (and all other options) of the bases to the right are not inherited. *)
Theorem C44_roles_of_every_base_refuted :
  exists P a b f, made P /\ class_at P a <> None /\ class_at P b <> None /\
    dget (k "public") (mc_roles (e_class (env_of P) b)) = Some f /\
    dget (k "public") (mc_roles (e_class (env_of (define_class P [a; b] [] [] None)) (next_class P))) = None.
Proof.
  exists (roles_program (fun _ _ => true)), 2%N, 1%N, (fun _ _ => true). split; [apply roles_made|].
  repeat split; vm_compute; try discriminate; reflexivity.
Qed.
Print Assumptions C44_roles_of_every_base_refuted.

(** C45: a class statement leaves the other classes their fields, in order, with their options,
    getters and setters, their validators, roles and level; the element types of list and dict
    fields may end up owned by the new class, but are otherwise the same. *)
Theorem C45_other_classes_keep_their_fields : forall P bases attrs own claim c, made P ->
  (forall b, In b bases -> class_at P b <> None) -> class_body P attrs -> class_at P c <> None ->
  let P' := define_class P bases attrs own claim in
  names_of P' c = names_of P c /\
  (forall x f, field_of P c x = Some f -> exists f', field_of P' c x = Some f' /\
     elements_owned (next_class P) (fd_spec f) (fd_spec f') /\ fd_get f' = fd_get f /\ fd_set f' = fd_set f) /\
  mc_validators (e_class (env_of P') c) = mc_validators (e_class (env_of P) c) /\
  mc_roles (e_class (env_of P') c) = mc_roles (e_class (env_of P) c) /\
  mc_level (e_class (env_of P') c) = mc_level (e_class (env_of P) c) /\
  mc_claim (e_class (env_of P') c) = mc_claim (e_class (env_of P) c).
Proof. exact other_classes. Qed.
Print Assumptions C45_other_classes_keep_their_fields.

(** A class without list and dict fields is not changed at all, *)
Theorem C45_classes_without_elements_are_unchanged : forall P bases attrs own claim c, made P ->
  (forall b, In b bases -> class_at P b <> None) -> class_body P attrs -> class_at P c <> None ->
  (forall x f, field_of P c x = Some f -> plain (fd_spec f)) ->
  e_class (env_of (define_class P bases attrs own claim)) c = e_class (env_of P) c.
Proof. exact plain_classes. Qed.
Print Assumptions C45_classes_without_elements_are_unchanged.

(** and no class is changed by a new class that inherits no list or dict field and whose own
    element types are not used elsewhere. *)
Theorem C45_nothing_changes_without_inherited_elements : forall P bases attrs own claim c, made P ->
  (forall b, In b bases -> class_at P b <> None) -> class_body P attrs -> class_at P c <> None ->
  (forall x f, inherits P bases x f -> ~ In x (own_names attrs) -> plain (fd_spec f)) ->
  (forall x t a b d, In (x, t) attrs -> declared_obj t = Some a -> inside (p_heap P) a b ->
     in_schema P d -> ~ inside (p_heap P) d b) ->
  e_class (env_of (define_class P bases attrs own claim)) c = e_class (env_of P) c.
Proof. exact no_shared_elements. Qed.
Print Assumptions C45_nothing_changes_without_inherited_elements.

Example C45_case :
  made diamond_program /\ class_at diamond_program 1%N <> None /\
  (forall x f, field_of diamond_program 1%N x = Some f -> plain (fd_spec f)) /\
  made note_program /\
  (forall x f, inherits note_program [Note] x f -> ~ In x (own_names [(k "lines", AField 3)]) -> plain (fd_spec f)).
Proof.
  split; [exact diamond_made|]. split; [vm_compute; discriminate|]. split; [|split; [exact note_made|]].
  - intros x f. unfold field_of.
    change (mc_fields (e_class (env_of diamond_program) 1%N))
      with [(k "x", Fld (FS (FO true false VUndef None [] [] None (Some 1%N)) (TLeaf any_leaf)) None None)].
    cbn [dget]. destruct (key_eqb x (k "x")); [|discriminate]. intros E. injection E as <-. exact I.
  - intros x f In NI. inversion In as [? ? ? ? G|? ? ? ? _ In']; subst; [|inversion In']. revert G. unfold field_of.
    change (mc_fields (e_class (env_of note_program) Note))
      with [(k "title", Fld (FS (FO true false VUndef None [] [] None (Some 1%N)) (TLeaf any_leaf)) None None);
            (k "lines", Fld (FS (FO true false VUndef None [] [] None (Some 1%N))
               (TList (FS (FO false false VUndef None [] [] None (Some 1%N)) (TLeaf any_leaf)))) None None)].
    cbn [dget]. destruct (key_eqb x (k "title")); [intros E; injection E as <-; exact I|].
    destruct (DictLemmas.key_eqb_spec x (k "lines")) as [->|N]; [|discriminate]. exfalso. apply NI. now left.
Qed.

(** But defining a subclass changes what an instance of the parent exports
    (class Note: title, lines = ListType(BaseType()); class Brief(Note): class Options:
    serialize_when_none = False: the note's empty line disappears), *)
Theorem C45_parent_is_unaffected_refuted :
  exists P c own v w w', made P /\ class_at P c <> None /\ to_primitive P c v = Ok w /\
    to_primitive (define_class P [c] [] own None) c v = Ok w' /\ w <> w'.
Proof.
  exists note_program, Note, brief_own, a_note. do 2 eexists.
  split; [exact note_made|]. split; [vm_compute; discriminate|].
  split; [exact (proj1 parent_export_changes)|]. split; [exact (proj2 parent_export_changes)|discriminate].
Qed.
Print Assumptions C45_parent_is_unaffected_refuted.

(** and what an instance of another subclass exports. *)
Theorem C45_sibling_is_unaffected_refuted :
  exists P c d own v w w', made P /\ derived P d c /\ d <> c /\ to_primitive P d v = Ok w /\
    to_primitive (define_class P [c] [] own None) d v = Ok w' /\ w <> w'.
Proof.
  exists plain_program, Note, PlainNote, brief_own, plain_note. do 2 eexists.
  split; [exact plain_made|].
  split; [eapply derived_base; [vm_compute; reflexivity|now left|constructor]|]. split; [discriminate|].
  split; [exact (proj1 sibling_export_changes)|]. split; [exact (proj2 sibling_export_changes)|discriminate].
Qed.
Print Assumptions C45_sibling_is_unaffected_refuted.
