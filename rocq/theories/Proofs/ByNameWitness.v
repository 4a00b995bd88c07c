(** Programs with references by name (C75). *)
From Verif.Model Require Import Py Core Meta ByName.
From Verif.Spec Require Import ByNameSpec.
From Verif.Proofs Require Import DictLemmas ImportName ByNameFacts ByNameMain.
From Verif.Conformance Require Import Sample.
From Coq Require Import Lia.

Definition start : nprogram := NProg [] [NCls (u "Model") [] [] true].
(** No import ever happens. *)
Definition no_import : importer -> Prop := fun _ => False.
(** An importer that knows the module [app] with a class and the package [lib] with a module [lib.shapes]. *)
Definition some_import : importer :=
  Importer (fun s => if pstr_eqb s (u "app") then Found (PModule 0) else if pstr_eqb s (u "lib") then Found (PModule 1)
                     else if pstr_eqb s (u "lib.shapes") then Found (PModule 2)
                     else if pstr_eqb s (u "bad") then Broken (XPy EValueError) else NotFound)
           (fun o x => match o with
                       | PModule 0 => if pstr_eqb x (u "Tree") then Some (PClass 1%N) else None
                       | PModule 2 => if pstr_eqb x (u "Circle") then Some (PClass 2%N) else None
                       | PClass 2%N => if pstr_eqb x (u "Inner") then Some (PClass 3%N) else None
                       | _ => None
                       end).

(** Whether a class statement can be written. *)
Definition writableb (P : nprogram) (bases : list cid) (attrs : list (key * addr)) : bool :=
  forallb (fun b => match nclass_at P b with Some kl => nc_done kl | None => false end) bases &&
  forallb (fun p => Nat.ltb (snd p) (length (np_heap P))) attrs.
Lemma writableb_sound P bases attrs : writableb P bases attrs = true -> NoDup (dkeys attrs) -> writable P bases attrs.
Proof.
  unfold writableb. rewrite andb_true_iff, !forallb_forall. intros [H1 H2] N. split; [|exact N|].
  - intros b J. specialize (H1 b J). destruct (nclass_at P b) as [kl|]; [eauto|discriminate].
  - intros x a J. apply Nat.ltb_lt. exact (H2 (x, a) J).
Qed.

Definition stated (P : nprogram) (name : string) (bases : list cid) (attrs : list (key * addr)) : nprogram :=
  fst (nclass P (u name) bases attrs).
Lemma stated_made W P name bases attrs : nmade W P -> writableb P bases attrs = true -> NoDup (dkeys attrs) -> nmade W (stated P name bases attrs).
Proof.
  intros M H N. apply nl_step with P; [exact M|]. apply ns_class with (u name) bases attrs (snd (nclass P (u name) bases attrs));
    [now apply writableb_sound|apply surjective_pairing].
Qed.
Lemma new_made W P t : nmade W P -> fresh P t -> nmade W (nnew P t).
Proof. intros M F. apply nl_step with P; [exact M|now constructor]. Qed.

(** ListType(ModelType('Node')) and another field. *)
Definition objects (t : nkind) : nprogram := nnew (nnew (nnew start (NModel None (u "Node"))) (NBox 0)) t.
Lemma objects_made W t : fresh (nnew (nnew start (NModel None (u "Node"))) (NBox 0)) t -> nmade W (objects t).
Proof. intros F. unfold objects. repeat (apply new_made); [constructor|exact I|cbn; lia|exact F]. Qed.

(** class Node(Model): children = ListType(ModelType('Node')); parent = ModelType('Node') *)
Definition before_tree : nprogram := objects (NModel None (u "Node")).
Definition tree_body : list (key * addr) := [(k "children", 1); (k "parent", 2)].
Definition tree : nprogram := stated before_tree "Node" [0%N] tree_body.
Lemma tree_ok : nmade no_import before_tree /\ writable before_tree [0%N] tree_body /\
  nclass before_tree (u "Node") [0%N] tree_body = (tree, None).
Proof.
  split; [apply objects_made; exact I|]. split; [|vm_compute; reflexivity].
  apply writableb_sound; [reflexivity|]. repeat constructor; cbn; intuition discriminate.
Qed.

(** class Mixin(Model): children = ListType(ModelType('Node'));  class Node(Mixin), twice. *)
Definition mixin : nprogram := stated (nnew (nnew start (NModel None (u "Node"))) (NBox 0)) "Mixin" [0%N] [(k "children", 1)].
Definition two_nodes : nprogram := stated (stated mixin "Node" [1%N] []) "Node" [1%N] [].
Lemma mixin_made W : nmade W mixin.
Proof.
  apply stated_made; [repeat (apply new_made); [constructor|exact I|cbn; lia]|reflexivity|].
  repeat constructor; cbn; intuition discriminate.
Qed.
Lemma two_nodes_made W : nmade W two_nodes.
Proof. do 2 (apply stated_made; [|reflexivity|constructor]). apply mixin_made. Qed.

Lemma shared_witness : exists P c1 c2 k1 k2 x a i, nmade no_import P /\ c1 <> c2 /\
  nclass_at P c1 = Some k1 /\ nclass_at P c2 = Some k2 /\ nc_done k1 = true /\ nc_done k2 = true /\ nc_name k1 = nc_name k2 /\
  field_obj P c2 x = Some a /\ nth_error (np_heap P) a = Some (NBox i) /\
  nth_error (np_heap P) i = Some (NModel (Some (PClass c1)) (nc_name k2)).
Proof.
  exists two_nodes, 2%N, 3%N. do 2 eexists. exists (k "children"), 3, 0. split; [apply two_nodes_made|]. split; [discriminate|].
  split; [vm_compute; reflexivity|]. split; [vm_compute; reflexivity|]. repeat split.
Qed.

(** class Node(Model): x = UnionType(types=[ModelType('Node'), ...]) *)
Definition union_node : nprogram := stated (nnew (nnew start (NModel None (u "Node"))) (NUnion [0])) "Node" [0%N] [(k "x", 1)].
Lemma union_made W : nmade W union_node.
Proof.
  apply stated_made; [repeat (apply new_made); [constructor|exact I|]|reflexivity|].
  - intros a [<-|[]]. cbn. lia.
  - repeat constructor; cbn; intuition discriminate.
Qed.
Lemma union_use I : im_module I (u "Node") = NotFound -> nuse I union_node 0 = (union_node, NotFound).
Proof.
  intros H.
  assert (J : import_string I (u "Node") = NotFound).
  { apply import_not_found. left. intros m path E F. destruct path as [|y path].
    - unfold dotted in E. cbn in E. rewrite app_nil_r in E. subst m. exact H.
    - exfalso. assert (D : In 46%N (colons_to_dots (u "Node"))) by (rewrite E; apply in_or_app; right; now left).
      vm_compute in D. intuition discriminate. }
  destruct (use_imports I union_node 0 (u "Node") eq_refl) as [U1 U2]. rewrite J in U1, U2.
  rewrite (surjective_pairing (nuse I union_node 0)), U1, U2; [reflexivity|discriminate].
Qed.
Lemma union_witness : exists P c kl x a ms m, nmade no_import P /\ nclass_at P c = Some kl /\ nc_done kl = true /\
  field_obj P c x = Some a /\ nth_error (np_heap P) a = Some (NUnion ms) /\ In m ms /\
  nth_error (np_heap P) m = Some (NModel None (nc_name kl)) /\
  (forall I, im_module I (nc_name kl) = NotFound -> nuse I P m = (P, NotFound)).
Proof.
  exists union_node, 1%N. eexists. exists (k "x"), 1, [0], 0. split; [apply union_made|].
  split; [vm_compute; reflexivity|]. cbn. repeat (split; [now auto|]). intros I H.
  exact (union_use I H).
Qed.

(** class Mixin(Model): children = ListType(ModelType('Node'));  class Node(Mixin): x = PolyModelType('Other'), which fails;
    class Node(Mixin). *)
Definition retried : nprogram :=
  stated (stated (nnew mixin (NPoly [inl (u "Other")])) "Node" [1%N] [(k "x", 2)]) "Node" [1%N] [].
Lemma retried_made W : nmade W retried.
Proof.
  do 2 (apply stated_made; [|reflexivity|repeat constructor; cbn; intuition discriminate]).
  apply new_made; [apply mixin_made|]. intros c [J|[]]. discriminate.
Qed.
Lemma unfinished_witness : exists P c1 c2 k1 k2 x a i, nmade no_import P /\
  nclass_at P c1 = Some k1 /\ nc_done k1 = false /\ nclass_at P c2 = Some k2 /\ nc_done k2 = true /\
  field_obj P c2 x = Some a /\ nth_error (np_heap P) a = Some (NBox i) /\
  nth_error (np_heap P) i = Some (NModel (Some (PClass c1)) (nc_name k2)).
Proof.
  exists retried, 2%N, 3%N. do 2 eexists. exists (k "children"). do 2 eexists. split; [apply retried_made|].
  split; [vm_compute; reflexivity|]. split; [reflexivity|]. split; [vm_compute; reflexivity|]. split; [reflexivity|].
  split; [vm_compute; reflexivity|]. split; vm_compute; reflexivity.
Qed.
