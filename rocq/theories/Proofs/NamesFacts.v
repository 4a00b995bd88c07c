(** Every way to write the names of a mapping means the same. *)
From Verif.Model Require Import Py Core Names.
From Verif.Spec Require Import ImportSpec NamesSpec.
From Verif.Proofs Require Import DictLemmas ImportLemmas.
Open Scope string_scope.
Open Scope list_scope.

Lemma spelled_names v l : spelled v l -> listify v = map of_key l.
Proof. now intros [[s|z]| |l0|l0]. Qed.
Lemma name_key_of y : name_key (of_key y) = Ok (Some y).
Proof. now destruct y. Qed.
Lemma truthy_of y : truthy (of_key y) = key_true y.
Proof. destruct y as [[|]|z]; cbn; try reflexivity. Qed.
Lemma same_name_of y n : same_name (of_key y) n = key_eqb y n.
Proof. unfold same_name. now rewrite name_key_of. Qed.

Lemma find_named_keys E d n l : find_named d n (map of_key l) = find_alt E (VDict d) n l.
Proof.
  induction l as [|y l IH]; [reflexivity|]. cbn [map find_named find_alt]. rewrite truthy_of, same_name_of, name_key_of.
  destruct (key_true y && negb (key_eqb y n)); cbn [andb]; [|exact IH]. cbn [rbind py_contains py_getitem]. unfold dmem.
  destruct (dget y d); [reflexivity|exact IH].
Qed.
Lemma hashed_keys l : hashed (map of_key l) = Ok l.
Proof. induction l as [|y l IH]; [reflexivity|]. cbn [map hashed]. rewrite name_key_of. cbn [rbind]. now rewrite IH. Qed.

Lemma listed_get (d : list (key * pyval)) keys n :
  Forall2 (fun p q => fst p = fst q /\ spelled (snd p) (snd q)) (filter (fun p => negb (key_eqb (fst p) (k "model_mapping"))) d) keys ->
  n <> k "model_mapping" ->
  match dget n d with Some v => listify v | None => [] end = map of_key (match dget n keys with Some l => l | None => [] end).
Proof.
  intros F N. revert keys F. induction d as [|[y v] d IH]; intros keys F.
  - inversion F; subst. reflexivity.
  - cbn [filter fst] in F. destruct (key_eqb y (k "model_mapping")) eqn:Q; cbn [negb] in F.
    + apply key_eqb_eq in Q. subst y. cbn [dget]. destruct (key_eqb n (k "model_mapping")) eqn:Q; [apply key_eqb_eq in Q; contradiction|]. now apply IH.
    + inversion F as [|? [y' l] ? keys' [Hy Hs] F']; subst. cbn in Hy, Hs. subst y'. cbn [dget]. destruct (key_eqb n y); [now apply spelled_names|]. now apply IH.
Qed.

(** What a field finds. *)
Lemma names_found E d n f from m mp : spelled_map m mp -> spelled from (fo_dfrom (fs_opts f)) -> n <> k "model_mapping" ->
  find_named d n (given_keys n (fo_sname (fs_opts f)) from m) = find_alt E (VDict d) n (input_keys n f mp).
Proof.
  intros S F N. rewrite <- find_named_keys. f_equal. destruct S as [m keys models K _]. unfold given_keys, input_keys. cbn [map_keys].
  rewrite !map_app. cbn [map]. rewrite (listed_get m keys n K N), (spelled_names _ _ F).
  destruct (fo_sname (fs_opts f)) as [s|]; [destruct (key_true s)|]; reflexivity.
Qed.
(** Which keys are known. *)
Lemma names_known m mp : spelled_map m mp -> mapped_keys m = Ok (flat_map snd (map_keys mp)).
Proof.
  intros [d keys models K _]. unfold mapped_keys. cbn [map_keys]. rewrite <- hashed_keys. f_equal. unfold k_models.
  revert keys K. induction d as [|[y v] d IH]; intros keys K.
  - inversion K; subst. reflexivity.
  - cbn [filter fst] in K. cbn [flat_map fst snd]. destruct (key_eqb y (k "model_mapping")) eqn:Q; cbn [negb] in K; [now apply IH|].
    inversion K as [|? [y' l] ? keys' [Hy Hs] F']; subst. cbn in Hs. cbn [flat_map snd]. rewrite map_app, (spelled_names _ _ Hs). f_equal. now apply IH.
Qed.
(** What nested models get. *)
Lemma names_nested m x n : spelled_map m (cx_mapping x) ->
  match submap m n, nested_map x n with
  | Ok None, None => True
  | Ok (Some (VDict r)), Some mp => spelled_map r mp
  | _, _ => False
  end.
Proof.
  intros S. unfold nested_map. destruct S as [d keys models _ M]. cbn [map_models]. unfold submap, k_models.
  assert (Z : spelled_map [] no_mapping) by (apply sm_dict; [constructor|left; split; [reflexivity|now left]]).
  destruct M as [[-> [D|[D|D]]]|(l & D & F)]; rewrite D; try exact Z.
  destruct F as [|[y v] [y' mp] l models [Hy (r & Hv & Hr)] F]; [exact Z|]. cbn in Hy, Hv, Hr. subst y' v.
  set (l0 := (y, VDict r) :: l). set (m0 := (y, mp) :: models).
  assert (F0 : Forall2 (fun p q => fst p = fst q /\ exists r, snd p = VDict r /\ spelled_map r (snd q)) l0 m0)
    by (constructor; [split; [reflexivity|now exists r]|exact F]).
  clearbody l0 m0. clear - F0. induction F0 as [|[y v] [y' mp] l models [Hy (r & Hv & Hr)] F IH]; [exact I|].
  cbn in Hy, Hv, Hr. subst y' v. cbn [dget]. destruct (key_eqb n y); [exact Hr|exact IH].
Qed.

(** Listing is done once. *)
Lemma listify_list v : listify (VList (listify v)) = listify v.
Proof. reflexivity. Qed.

(** Two ways to write the same mapping. *)
Lemma same_spelling d n f from from' m m' mp : spelled_map m mp -> spelled_map m' mp ->
  spelled from (fo_dfrom (fs_opts f)) -> spelled from' (fo_dfrom (fs_opts f)) -> n <> k "model_mapping" ->
  find_named d n (given_keys n (fo_sname (fs_opts f)) from m) = find_named d n (given_keys n (fo_sname (fs_opts f)) from' m') /\
  mapped_keys m = mapped_keys m'.
Proof.
  intros S S' F F' N. split.
  - rewrite (names_found (Env (fun _ => MC [] [] [] 0%Z None) (fun _ _ => true) (fun _ => [])) d n f from m mp), (names_found (Env (fun _ => MC [] [] [] 0%Z None) (fun _ _ => true) (fun _ => [])) d n f from' m' mp) by assumption. reflexivity.
  - now rewrite (names_known m mp), (names_known m' mp).
Qed.

Lemma field_called_model_mapping d l p from : exists m, m = [(k "model_mapping", VDict (p :: l))] /\
  find_named d (k "model_mapping") (given_keys (k "model_mapping") None from m) = Raise (XPy ETypeError).
Proof. eexists. split; reflexivity. Qed.
Lemma names_in_a_dictionary n d : n <> k "model_mapping" -> mapped_keys [(n, VDict d)] = Raise (XPy ETypeError).
Proof.
  intros N. unfold mapped_keys, k_models. cbn [flat_map fst snd]. destruct (key_eqb n (k "model_mapping")) eqn:Q; [apply key_eqb_eq in Q; contradiction|]. reflexivity.
Qed.
Lemma names_as_bytes : exists from d v n, from = VBytes [97; 98]%N /\ dget (KInt 97) d = Some v /\ dget (k "ab") d = None /\
  find_named d n (given_keys n None from []) = Ok v.
Proof. exists (VBytes [97; 98]%N), [(KInt 97, VInt 5)], (VInt 5), (k "x"). split; [reflexivity|]. split; [reflexivity|]. split; reflexivity. Qed.
