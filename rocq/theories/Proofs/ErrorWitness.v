(** Concrete errors for the examples and refutations of Properties/P13_Errors.v. *)
From Verif.Model Require Import Py Equality Errors.
From Verif.Spec Require Import ErrorSpec.
From Verif.Proofs Require Import DictLemmas EqLemmas ErrorFacts ErrorHash.

(** A small runtime: [str] knows the digits, hashes are lengths and values. *)
Definition R0 : runtime := {|
  r_str := fun v => match v with VInt z => [Z.to_N (z + 48)] | _ => u "?" end;
  r_dumps := fun _ => u "{}";
  r_eq := atom_eq;
  h_str := fun s => Z.of_nat (length s);
  h_int := fun z => z;
  h_type := fun t => match t with None => 5 | Some CConv => 6 | Some _ => 7 end%Z;
  h_val := fun v => match v with VList _ | VDict _ => None | VStr s => Some (Z.of_nat (length s)) | _ => Some 0%Z end;
  h_tuple := fun l => fold_left (fun a h => a * 31 + h + 1)%Z l 3%Z |}.

Lemma R0_values_hash : values_hash R0.
Proof.
  intros v w H. destruct v, w; try reflexivity; cbn in H;
    try discriminate H; try (destruct (num_of _); discriminate H); try (destruct f; discriminate H); try (destruct off; discriminate H).
  cbn in H |- *. apply pstr_eqb_eq in H. now subst.
Qed.

Lemma field_error_case :
  let stop := OErr CStop (OFrozenList [OMsg (Msg (u "late") (Some CValid) (VInt 3))]) in
  let args := [OList [OStr (u "bad"); OTuple [OStr (u "worse"); OStr (u "here")]; stop]] in
  let ps := [(u "bad", VNone); (u "worse", VStr (u "here")); (u "late", VInt 3)] in
  recorded CValid CValid /\ call_says CValid args None ps /\
  field_error CValid args None =
    Ok (OErr CValid (OFrozenList [OMsg (Msg (u "bad") (Some CValid) VNone);
                                  OMsg (Msg (u "worse") (Some CValid) (VStr (u "here")));
                                  OMsg (Msg (u "late") (Some CValid) (VInt 3))])) /\
  (forall qs, ~ call_says CConv args None qs) /\ Forall built_arg args /\
  field_error CConv args None = Raise (XPy ETypeError).
Proof.
  intros stop args ps. split; [left; split; [reflexivity|discriminate]|]. split; [|split; [reflexivity|]].
  - apply call_list.
    change ps with ([(u "bad", VNone)] ++ [(u "worse", VStr (u "here"))] ++ [(u "late", VInt 3)] ++ []).
    apply says_more; [constructor|]. apply says_more; [eapply says_tuple2; eauto|].
    apply says_more; [|constructor]. exact (says_error CValid CStop [Msg (u "late") (Some CValid) (VInt 3)] (or_intror (conj eq_refl eq_refl))).
  - split; [|split; [|reflexivity]].
    + assert (G : field_error CConv args None = Raise (XPy ETypeError)) by reflexivity.
      intros qs H. assert (Hr : recorded CConv CConv) by (left; split; [reflexivity|discriminate]).
      rewrite (field_error_messages CConv args None qs CConv eq_refl Hr H) in G. discriminate G.
    + repeat constructor; try (intros c e E; discriminate E).
      intros l [= <-]. repeat constructor; try (intros c e E; discriminate E).
      intros c e [= <- <-]. exists [Msg (u "late") (Some CValid) (VInt 3)]. reflexivity.
Qed.

(** An error as [Model.validate] raises it: a field error, a list error with two messages for element 1, and a rogue
    field. *)
Definition sample_list : eobj :=
  OErr CCompound (OFrozenDict [(KInt 1, OErr CValid (OFrozenList [OMsg (Msg (u "short") (Some CValid) (VInt 3));
                                                                  OMsg (Msg (u "no") (Some CValid) VNone)]))]).
Definition sample_error : eobj :=
  match sample_list with
  | OErr _ e => OErr CData (OFrozenDict [(k "name", OErr CConv (OFrozenList [OMsg (Msg (u "bad") (Some CConv) VNone)]));
                                         (k "tags", e); (k "extra", OStr (u "Rogue field"))])
  | o => o
  end.

Lemma paths_case :
  raised R0 sample_error
    (RNode [(k "name", RMsgs [u "bad"]);
            (k "tags", RNode [(KInt 1, RMsgs [u "short: 3"; u "no"])]);
            (k "extra", RText (u "Rogue field"))]) /\
  to_primitive R0 sample_error =
    Ok (VDict [(k "name", VList [VStr (u "bad")]);
               (k "tags", VDict [(KInt 1, VList [VStr (u "short: 3"); VStr (u "no")])]);
               (k "extra", VStr (u "Rogue field"))]).
Proof.
  split; [|reflexivity].
  eapply (raised_compound R0 CData
    [(k "name", OErr CConv (OFrozenList [OMsg (Msg (u "bad") (Some CConv) VNone)])); (k "tags", sample_list);
     (k "extra", OStr (u "Rogue field"))]); [reflexivity| |reflexivity].
  apply raised_cons; [|apply raised_cons; [|apply raised_cons; [constructor|constructor]]].
  - eapply (raised_field R0 CConv [OStr (u "bad")] None _ [(u "bad", VNone)]); [reflexivity| | |reflexivity].
    + apply call_args; [discriminate|intros l E; discriminate E|].
      change [(u "bad", VNone)] with ([(u "bad", VNone)] ++ []). apply says_more; constructor.
    + constructor; [|constructor]. now constructor.
  - eapply (raised_compound R0 CCompound
      [(KInt 1, OErr CValid (OFrozenList [OMsg (Msg (u "short") (Some CValid) (VInt 3));
                                          OMsg (Msg (u "no") (Some CValid) VNone)]))]);
      [reflexivity| |reflexivity].
    apply raised_cons; [|constructor].
    eapply (raised_field R0 CValid [OTuple [OStr (u "short"); OVal (VInt 3)]; OStr (u "no")] None _
              [(u "short", VInt 3); (u "no", VNone)]); [reflexivity| | |reflexivity].
    + apply call_args; [discriminate|intros l E; discriminate E|].
      change [(u "short", VInt 3); (u "no", VNone)] with ([(u "short", VInt 3)] ++ [(u "no", VNone)] ++ []).
      apply says_more; [eapply says_tuple2; eauto|]. apply says_more; constructor.
    + constructor; [|constructor; [|constructor]].
      * apply (shows_value R0 (u "short") None (VInt 3)); [reflexivity|intros i E; discriminate E].
      * now constructor.
Qed.

Lemma raised_is_frozen R o r : raised R o r -> frozen o.
Proof. intros H. exact (proj2 (proj1 (raised_frozen R) o r H)). Qed.

Lemma shallow_freeze :
  exists d o, compound_error CCompound (ODict d) = Ok o /\ ~ frozen o /\
              forall R, ohash R o = Raise (XPy ETypeError).
Proof.
  exists [(k "a", OList [OStr (u "bad")])]. eexists. split; [reflexivity|]. split; [|reflexivity].
  intros H. inversion H as [| | | |c e F]; subst. inversion F as [| | |d G|]; subst. inversion G as [|? ? X]; subst.
  inversion X.
Qed.

Lemma argument_changed : exists d, compound_error_arg d <> d.
Proof. exists [(k "tags", sample_list)]. discriminate. Qed.

(** *** Hashing *)
Lemma equal_errors_hash_alike R n a b :
  values_hash R -> tidy a -> tidy b -> oeq R n a b = Ok true ->
  forall h, ohash R a = Ok h <-> ohash R b = Ok h.
Proof. intros HV Ha Hb H. exact (equal_hash R HV n a b (or_introl Ha) (or_introl Hb) H). Qed.

(** The same errors, raised in another order, one inside a DataError. *)
Definition tidy_one : eobj :=
  OErr CData (OFrozenDict [(k "name", OErr CConv (OFrozenList [OMsg (Msg (u "bad") (Some CConv) (VInt 1))]));
                           (k "extra", OStr (u "Rogue field"))]).
Definition tidy_two : eobj :=
  OFrozenDict [(k "extra", OStr (u "Rogue field"));
               (k "name", OFrozenList [OMsg (Msg (u "bad") (Some CConv) (VBool true))])].

Lemma hash_case :
  values_hash R0 /\ tidy tidy_one /\ tidy tidy_two /\ tidy_one <> tidy_two /\
  oeq R0 5 tidy_one tidy_two = Ok true /\ (exists h, ohash R0 tidy_one = Ok h /\ h <> 0%Z).
Proof.
  split; [exact R0_values_hash|].
  split; [|split; [|split; [discriminate|split; [reflexivity|eexists; split; [vm_compute; reflexivity|discriminate]]]]].
  - eapply tidy_dict; [apply maps_error; reflexivity| |].
    + cbn. constructor; [intros [E|[]]; discriminate E|constructor; [intros []|constructor]].
    + constructor; [|constructor; [|constructor]].
      * apply entry_tidy. eapply tidy_list; [apply (lists_error CConv [Msg (u "bad") (Some CConv) (VInt 1)]); reflexivity|].
        constructor; [cbn; lia|constructor].
      * apply entry_text. discriminate.
  - eapply tidy_dict; [apply maps_frozen| |].
    + cbn. constructor; [intros [E|[]]; discriminate E|constructor; [intros []|constructor]].
    + constructor; [|constructor; [|constructor]].
      * apply entry_text. discriminate.
      * apply entry_tidy. eapply tidy_list; [apply (lists_frozen [Msg (u "bad") (Some CConv) (VBool true)])|].
        constructor; [cbn; lia|constructor].
Qed.

Lemma list_dict_hash R h :
  r_eq R VNone VNone = true -> h_val R VNone = Some h -> h_int R 0 = 0%Z -> h_int R 1 = 1%Z ->
  exists a b ha hb, oeq R 2 a b = Ok true /\ ohash R a = Ok ha /\ ohash R b = Ok hb /\ ha <> hb.
Proof.
  intros He Hv H0 H1. pose (m := Msg (u "bad") None VNone).
  exists (OFrozenList [OMsg m; OMsg m]), (OFrozenDict [(KInt 0, OMsg m); (KInt 1, OMsg m)]).
  pose (x := h_tuple R [h_str R (u "bad"); h_type R None; h]).
  exists 0%Z, 1%Z. split; [|split; [|split; [|discriminate]]].
  - assert (Em : message_eq R m m = true) by (unfold message_eq; cbn; exact He).
    cbn [oeq eq_objs]. unfold frozen_eq. cbn [size_of length rbind Nat.eqb frozen_loop item_at].
    cbn [Z.of_nat Pos.of_succ_nat dget key_eqb Z.eqb rbind eq_objs]. rewrite Em. cbn [rbind item_at dget key_eqb Z.eqb Pos.eqb Z.of_nat Pos.of_succ_nat]. rewrite Em. reflexivity.
  - assert (Hm : ohash R (OMsg m) = Ok x) by (cbn; now rewrite Hv).
    rewrite ohash_list. cbn [list_hash]. rewrite Hm. cbn [rbind list_hash]. now rewrite Z.lxor_0_l, Z.lxor_nilpotent.
  - assert (Hm : ohash R (OMsg m) = Ok x) by (cbn; now rewrite Hv).
    rewrite ohash_dict. cbn [dict_hash h_key]. rewrite Hm. cbn [rbind dict_hash]. rewrite H0, H1.
    rewrite !Z.lxor_0_l. rewrite (Z.lxor_comm x 1), Z.lxor_assoc, Z.lxor_nilpotent. reflexivity.
Qed.

Lemma equal_messages_hash R n a b :
  values_hash R -> oeq R (S n) (OMsg a) (OMsg b) = Ok true -> ohash R (OMsg a) = ohash R (OMsg b).
Proof. intros HV H. apply message_eq_hash; [exact HV|]. cbn in H. now injection H. Qed.

Lemma text_hash R s h :
  h_val R VNone = Some h -> h_tuple R [h_str R s; h_type R None; h] <> h_str R s ->
  exists m ha, oeq R 1 (OMsg m) (OStr s) = Ok true /\ ohash R (OMsg m) = Ok ha /\ ohash R (OStr s) <> Ok ha.
Proof.
  intros Hv Hn. exists (Msg s None VNone), (h_tuple R [h_str R s; h_type R None; h]).
  split; [cbn; now rewrite pstr_eqb_refl|]. split; [cbn; now rewrite Hv|]. cbn. congruence.
Qed.

Lemma not_transitive R : r_eq R (VInt 1) (VInt 2) = false ->
  exists a b c, oeq R 1 a b = Ok true /\ oeq R 1 b c = Ok true /\ oeq R 1 a c = Ok false.
Proof.
  intros H. exists (OMsg (Msg (u "bad") None (VInt 1))), (OStr (u "bad")), (OMsg (Msg (u "bad") None (VInt 2))).
  split; [reflexivity|split; [reflexivity|]]. cbn. unfold message_eq. cbn. now rewrite H.
Qed.

Lemma not_symmetric R : exists a b, oeq R 1 a b = Ok false /\ oeq R 1 b a = Raise (XPy ETypeError).
Proof. exists (OMsg (Msg (u "bad") None VNone)), (OFrozenList [OStr (u "bad")]). split; reflexivity. Qed.
