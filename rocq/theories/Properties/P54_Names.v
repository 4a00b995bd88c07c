(** C107: input keys can be given one at a time or in a list. *)
From Verif.Model Require Import Py Core Names.
From Verif.Spec Require Import ImportSpec NamesSpec.
From Verif.Proofs Require Import NamesFacts.
From Verif.Conformance Require Import Sample.
Open Scope string_scope.
Open Scope list_scope.

(** Every way to write a mapping and deserialize_from (a text, an integer, None, a list, a tuple) makes a field find the value under
    the first of the names that occurs in the data, as C05 says for lists of names; *)
Theorem C107_names_found : forall E d n f from m mp, spelled_map m mp -> spelled from (fo_dfrom (fs_opts f)) -> n <> k "model_mapping" ->
  find_named d n (given_keys n (fo_sname (fs_opts f)) from m) = find_alt E (VDict d) n (input_keys n f mp).
Proof. exact names_found. Qed.
Print Assumptions C107_names_found.

(** makes the same keys known to the strict check; *)
Theorem C107_names_known : forall m mp, spelled_map m mp -> mapped_keys m = Ok (flat_map snd (given_names mp)).
Proof. exact names_known. Qed.
Print Assumptions C107_names_known.

(** and hands the same mapping to nested models. *)
Theorem C107_nested_mappings : forall m x n, spelled_map m (cx_mapping x) ->
  match submap m n, nested_map x n with
  | Ok None, None => True
  | Ok (Some (VDict r)), Some mp => spelled_map r mp
  | _, _ => False
  end.
Proof. exact names_nested. Qed.
Print Assumptions C107_nested_mappings.

(** So two ways to write the same cannot be told apart. *)
Theorem C107_spelling_does_not_matter : forall d n f from from' m m' mp, spelled_map m mp -> spelled_map m' mp ->
  spelled from (fo_dfrom (fs_opts f)) -> spelled from' (fo_dfrom (fs_opts f)) -> n <> k "model_mapping" ->
  find_named d n (given_keys n (fo_sname (fs_opts f)) from m) = find_named d n (given_keys n (fo_sname (fs_opts f)) from' m') /\
  mapped_keys m = mapped_keys m'.
Proof. exact same_spelling. Qed.
Print Assumptions C107_spelling_does_not_matter.

(** One name against a tuple, and None against no entry for nested models. *)
Example C107_case :
  let mp := Mapping [(k "zip", [k "plz"])] [(k "home", Mapping [(k "street", [k "road"; k "way"])] [])] in
  let m := [(k "zip", VStr (u "plz")); (k "model_mapping", VDict [(k "home", VDict [(k "street", VList [VStr (u "road"); VStr (u "way")])])])] in
  let m' := [(k "model_mapping", VDict [(k "home", VDict [(k "street", VTuple [VStr (u "road"); VStr (u "way")]); (k "model_mapping", VNone)])]);
             (k "zip", VTuple [VStr (u "plz")])] in
  let f := FS (o_from ["postcode"] (o_sname "ZIP" (o0 0))) (TLeaf int_leaf) in
  spelled_map m mp /\ spelled_map m' mp /\ spelled (VStr (u "postcode")) (fo_dfrom (fs_opts f)) /\
  spelled (VList [VStr (u "postcode")]) (fo_dfrom (fs_opts f)) /\ k "zip" <> k "model_mapping" /\
  find_named [(k "postcode", VInt 1); (k "plz", VInt 2)] (k "zip") (given_keys (k "zip") (Some (k "ZIP")) (VStr (u "postcode")) m) = Ok (VInt 2).
Proof.
  cbn zeta. split.
  { apply sm_dict; [constructor; [split; [reflexivity|apply (sp_one (k "plz"))]|constructor]|]. right. eexists. split; [reflexivity|].
    constructor; [|constructor]. split; [reflexivity|]. eexists. split; [reflexivity|].
    apply sm_dict; [constructor; [split; [reflexivity|apply (sp_list [k "road"; k "way"])]|constructor]|]. left. split; [reflexivity|now left]. }
  split.
  { apply sm_dict; [constructor; [split; [reflexivity|apply (sp_tuple [k "plz"])]|constructor]|]. right. eexists. split; [reflexivity|].
    constructor; [|constructor]. split; [reflexivity|]. eexists. split; [reflexivity|].
    apply sm_dict; [constructor; [split; [reflexivity|apply (sp_tuple [k "road"; k "way"])]|constructor]|]. left. split; [reflexivity|right; now left]. }
  split; [apply (sp_one (k "postcode"))|]. split; [apply (sp_list [k "postcode"])|]. split; [discriminate|reflexivity].
Qed.

(** False of the code: that any field can be mapped. With mappings for nested models, a field called model_mapping that the data
    does not contain makes the import fail; *)
Theorem C107_field_called_model_mapping_refuted : forall d l p from, exists m, m = [(k "model_mapping", VDict (p :: l))] /\
  find_named d (k "model_mapping") (given_keys (k "model_mapping") None from m) = Raise (XPy ETypeError).
Proof. exact field_called_model_mapping. Qed.
Print Assumptions C107_field_called_model_mapping_refuted.
(** that every collection of names will do: a dictionary makes the import fail, *)
Theorem C107_names_in_a_dictionary_refuted : forall n d, n <> k "model_mapping" -> mapped_keys [(n, VDict d)] = Raise (XPy ETypeError).
Proof. exact names_in_a_dictionary. Qed.
Print Assumptions C107_names_in_a_dictionary_refuted.
(** and that one name is one name: a bytes object is taken for a list of numbers. *)
Theorem C107_names_as_bytes_refuted : exists from d v n, from = VBytes [97; 98]%N /\ dget (KInt 97) d = Some v /\ dget (k "ab") d = None /\
  find_named d n (given_keys n None from []) = Ok v.
Proof. exact names_as_bytes. Qed.
Print Assumptions C107_names_as_bytes_refuted.
