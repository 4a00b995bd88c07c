(** Error objects: C39 (what an error carries), C40 and C41 (equality and hashing). *)
From Verif.Model Require Import Py Equality Errors.
From Verif.Spec Require Import ImportSpec ErrorSpec.
From Verif.Proofs Require Import ErrorFacts ErrorHash ErrorParts ErrorWitness.

(** ** C39 *)

(** A field error carries the messages of its arguments, in their order, each with its info and marked with the
    class of the error. *)
Theorem C39_field_error_carries_its_messages : forall c args kw ps t,
  is_field_cls c = true -> recorded c t -> call_says c args kw ps ->
  field_error c args kw = Ok (OErr c (OFrozenList (map (fun p => OMsg (Msg (fst p) (Some t) (snd p))) ps))).
Proof. exact field_error_messages. Qed.
Print Assumptions C39_field_error_carries_its_messages.

(** Any other call is refused with TypeError. *)
Theorem C39_field_error_refuses_the_rest : forall c args kw,
  is_field_cls c = true -> Forall built_arg args -> (forall ps, ~ call_says c args kw ps) ->
  field_error c args kw = Raise (XPy ETypeError).
Proof. exact field_error_refuses. Qed.
Print Assumptions C39_field_error_refuses_the_rest.

Example C39_field_error_case :
  let stop := OErr CStop (OFrozenList [OMsg (Msg (u "late") (Some CValid) (VInt 3))]) in
  let args := [OList [OStr (u "bad"); OTuple [OStr (u "worse"); OStr (u "here")]; stop]] in
  let ps := [(u "bad", VNone); (u "worse", VStr (u "here")); (u "late", VInt 3)] in
  recorded CValid CValid /\ call_says CValid args None ps /\
  field_error CValid args None =
    Ok (OErr CValid (OFrozenList [OMsg (Msg (u "bad") (Some CValid) VNone);
                                  OMsg (Msg (u "worse") (Some CValid) (VStr (u "here")));
                                  OMsg (Msg (u "late") (Some CValid) (VInt 3))])) /\
  (forall qs, ~ call_says CConv args None qs) /\ Forall built_arg args /\
  field_error CConv args None = Raise (XPy ETypeError).
Proof. exact field_error_case. Qed.

(** Whatever is raised where, [to_primitive] shows at every path exactly the messages raised for that path: a list
    of texts where messages were raised, the text where a plain text was reported, a dictionary with exactly the
    reported keys in between, and nothing elsewhere. *)
Theorem C39_every_path_shows_what_was_raised : forall R c e r,
  raised R (OErr c e) r ->
  exists v, to_primitive R (OErr c e) = Ok v /\
    forall p,
      (forall l, value_at v p = Some (VList l) <-> exists ms, report_at r p = Some (RMsgs ms) /\ l = map VStr ms) /\
      (forall s, value_at v p = Some (VStr s) <-> report_at r p = Some (RText s)) /\
      (forall ks, (exists d, value_at v p = Some (VDict d) /\ dkeys d = ks) <->
                  (exists kids, report_at r p = Some (RNode kids) /\ dkeys kids = ks)) /\
      (value_at v p = None <-> report_at r p = None).
Proof. exact raised_paths. Qed.
Print Assumptions C39_every_path_shows_what_was_raised.

(** Nothing in such an error can be changed. *)
Theorem C39_raised_errors_are_frozen : forall R o r, raised R o r -> frozen o.
Proof. exact raised_is_frozen. Qed.
Print Assumptions C39_raised_errors_are_frozen.

Example C39_paths_case :
  raised R0 sample_error
    (RNode [(k "name", RMsgs [u "bad"]);
            (k "tags", RNode [(KInt 1, RMsgs [u "short: 3"; u "no"])]);
            (k "extra", RText (u "Rogue field"))]) /\
  to_primitive R0 sample_error =
    Ok (VDict [(k "name", VList [VStr (u "bad")]);
               (k "tags", VDict [(KInt 1, VList [VStr (u "short: 3"); VStr (u "no")])]);
               (k "extra", VStr (u "Rogue field"))]).
Proof. exact paths_case. Qed.

(** The errors that import and validation collect (their model is in Py.v and Core.v) become exactly this form: a
    DataError built from the exceptions caught per field shows what the model records for them. *)
Theorem C39_collected_exceptions : forall R c (l : list (key * exn)) os,
  is_field_cls c = false ->
  Forall2 (fun p o => error_object (snd p) = Some o) l os ->
  exists o, compound_error c (ODict (combine (map fst l) os)) = Ok o /\
    to_primitive R o =
    to_primitive R (OErr c (OFrozenDict (map (fun p => (fst p, tree_object (shown_error (snd p)))) l))).
Proof. exact data_error_of_exceptions. Qed.
Print Assumptions C39_collected_exceptions.

(** The objects of the exceptions are those that the error classes make from the texts of the messages. *)
Theorem C39_objects_of_exceptions : forall c ms e,
  (c, e) = (CConv, XConv ms) \/ (c, e) = (CValid, XValid false ms) \/ (c, e) = (CStop, XValid true ms) ->
  exists o, field_error c [OList (map OStr ms)] None = Ok o /\ error_object e = Some o.
Proof. exact field_error_object. Qed.
Print Assumptions C39_objects_of_exceptions.

Example C39_objects_case :
  field_error CStop [OList [OStr (u "late")]] None = Ok (OErr CStop (OFrozenList [OMsg (Msg (u "late") (Some CValid) VNone)])) /\
  error_object (XValid true [u "late"]) = Some (OErr CStop (OFrozenList [OMsg (Msg (u "late") (Some CValid) VNone)])).
Proof. split; reflexivity. Qed.

Example C39_collected_case :
  let l := [(k "a", XConv [u "bad"]); (k "b", XData [(k "x", NValid [u "no"])] [])] in
  let os := [OErr CConv (OFrozenList (msgs_obj CConv [u "bad"]));
             OErr CData (OFrozenDict [(k "x", OErr CValid (OFrozenList (msgs_obj CValid [u "no"])))])] in
  Forall2 (fun p o => error_object (snd p) = Some o) l os /\
  forall o, compound_error CData (ODict (combine (map fst l) os)) = Ok o ->
  to_primitive R0 o = Ok (VDict [(k "a", VList [VStr (u "bad")]);
                                 (k "b", VDict [(k "x", VList [VStr (u "no")])])]).
Proof. cbn. split; [repeat constructor|]. intros o [= <-]. reflexivity. Qed.

(** They are made from dictionaries only. *)
Theorem C39_compound_errors_take_dictionaries : forall c e, (forall d, e <> ODict d) -> compound_error c e = Raise (XPy ETypeError).
Proof. exact compound_of_others. Qed.
Print Assumptions C39_compound_errors_take_dictionaries.
Example C39_dictionaries_case : forall d, OList [OStr (u "a")] <> ODict d.
Proof. discriminate. Qed.

(** In general freezing is shallow: a list that a caller nests in a compound error stays a list, and the error cannot
    be hashed. *)
Theorem C39_any_error_is_frozen_refuted :
  exists d o, compound_error CCompound (ODict d) = Ok o /\ ~ frozen o /\
              forall R, ohash R o = Raise (XPy ETypeError).
Proof. exact shallow_freeze. Qed.
Print Assumptions C39_any_error_is_frozen_refuted.

(** A compound error also writes into the dictionary it is given. *)
Theorem C39_argument_is_left_alone_refuted : exists d, compound_error_arg d <> d.
Proof. exact argument_changed. Qed.
Print Assumptions C39_argument_is_left_alone_refuted.

(** ** C40 *)

(** Errors of the shapes the library builds that compare equal have the same hash, or neither has one. *)
Theorem C40_equal_errors_hash_alike : forall R n a b,
  values_hash R -> tidy a -> tidy b -> oeq R n a b = Ok true ->
  forall h, ohash R a = Ok h <-> ohash R b = Ok h.
Proof. exact equal_errors_hash_alike. Qed.
Print Assumptions C40_equal_errors_hash_alike.

Example C40_hash_case :
  values_hash R0 /\ tidy tidy_one /\ tidy tidy_two /\ tidy_one <> tidy_two /\
  oeq R0 5 tidy_one tidy_two = Ok true /\ (exists h, ohash R0 tidy_one = Ok h /\ h <> 0%Z).
Proof. exact hash_case. Qed.

(** In general the contract is broken: a frozen list equals the frozen dictionary with the same elements under
    0, 1, ..., but their hashes differ. *)
Theorem C40_frozen_containers_refuted : forall R h,
  r_eq R VNone VNone = true -> h_val R VNone = Some h -> h_int R 0 = 0%Z -> h_int R 1 = 1%Z ->
  exists a b ha hb, oeq R 2 a b = Ok true /\ ohash R a = Ok ha /\ ohash R b = Ok hb /\ ha <> hb.
Proof. exact list_dict_hash. Qed.
Print Assumptions C40_frozen_containers_refuted.

Example C40_refuted_case :
  r_eq R0 VNone VNone = true /\ (exists h, h_val R0 VNone = Some h) /\ h_int R0 0 = 0%Z /\ h_int R0 1 = 1%Z.
Proof. repeat split; try reflexivity. eexists; reflexivity. Qed.

(** ** C41 *)

(** A message equals a text exactly if that is its summary, whatever its info; [text in error] asks whether one of the
    messages given to the error has this summary. *)
Theorem C41_messages_equal_their_text : forall R n m s,
  (oeq R (S n) (OMsg m) (OStr s) = Ok true <-> ms_summary m = s) /\
  (oeq R (S n) (OStr s) (OMsg m) = Ok true <-> ms_summary m = s).
Proof. exact message_is_text. Qed.
Print Assumptions C41_messages_equal_their_text.

Theorem C41_text_in_error : forall R n c args kw ps o s,
  is_field_cls c = true -> call_says c args kw ps -> field_error c args kw = Ok o ->
  exists t, contains R (S n) o (OStr s) = Ok t /\ (t = true <-> exists v, In (s, v) ps).
Proof. exact contains_text. Qed.
Print Assumptions C41_text_in_error.
(** The errors of several fields cannot be asked. *)
Theorem C41_compound_errors_are_not_searched : forall R n c e x,
  is_field_cls c = false -> contains R n (OErr c e) x = Raise (XPy ETypeError).
Proof. exact contains_other. Qed.
Print Assumptions C41_compound_errors_are_not_searched.

Example C41_text_case :
  call_says CValid [OStr (u "bad")] (Some (VInt 3)) [(u "bad", VInt 3)] /\
  (forall o, field_error CValid [OStr (u "bad")] (Some (VInt 3)) = Ok o ->
     contains R0 1 o (OStr (u "bad")) = Ok true /\ contains R0 1 o (OStr (u "bad: 3")) = Ok false).
Proof. split; [constructor; auto|]. intros o [= <-]. split; reflexivity. Qed.

(** Messages that compare equal hash alike. *)
Theorem C41_equal_messages_hash_alike : forall R n a b,
  values_hash R -> oeq R (S n) (OMsg a) (OMsg b) = Ok true -> ohash R (OMsg a) = ohash R (OMsg b).
Proof. exact equal_messages_hash. Qed.
Print Assumptions C41_equal_messages_hash_alike.

Example C41_hash_case :
  oeq R0 1 (OMsg (Msg (u "bad") (Some CConv) (VInt 1))) (OMsg (Msg (u "bad") (Some CConv) (VBool true))) = Ok true /\
  oeq R0 1 (OMsg (Msg (u "bad") (Some CConv) (VInt 1))) (OMsg (Msg (u "bad") (Some CValid) (VInt 1))) = Ok false.
Proof. split; reflexivity. Qed.

(** Lists and tuples are equal if their parts are, one by one, and a list never equals a tuple; *)
Theorem C41_equal_sequences : forall R n l l',
  let parts := Forall2 (fun a b => oeq R n a b = Ok true) l l' in
  (oeq R (S n) (OTuple l) (OTuple l') = Ok true <-> parts) /\ (oeq R (S n) (OList l) (OList l') = Ok true <-> parts) /\
  oeq R (S n) (OTuple l) (OList l') = Ok false /\ oeq R (S n) (OList l) (OTuple l') = Ok false.
Proof. exact equal_sequences. Qed.
Print Assumptions C41_equal_sequences.
(** dictionaries, frozen or not, if they have the same keys with equal values; *)
Theorem C41_equal_mappings : forall R n d d', NoDup (dkeys d) -> NoDup (dkeys d') ->
  let same := (forall x, In x (dkeys d) <-> In x (dkeys d')) /\ forall x v w, In (x, v) d -> In (x, w) d' -> oeq R n v w = Ok true in
  (oeq R (S n) (ODict d) (ODict d') = Ok true <-> same) /\ (oeq R (S n) (OFrozenDict d) (OFrozenDict d') = Ok true <-> same) /\
  (oeq R (S n) (OFrozenDict d) (ODict d') = Ok true <-> same) /\ (oeq R (S n) (ODict d') (OFrozenDict d) = Ok true <-> same).
Proof. exact equal_mappings. Qed.
Print Assumptions C41_equal_mappings.
(** comparing them raises nothing unless comparing parts does. *)
Theorem C41_comparing_raises_nothing : forall R n,
  (forall l l', (forall a b, In a l -> In b l' -> exists t, oeq R n a b = Ok t) ->
     (exists t, oeq R (S n) (OTuple l) (OTuple l') = Ok t) /\ exists t, oeq R (S n) (OList l) (OList l') = Ok t) /\
  forall d d', (forall x v y w, In (x, v) d -> In (y, w) d' -> exists t, oeq R n v w = Ok t) ->
     (exists t, oeq R (S n) (ODict d) (ODict d') = Ok t) /\ (exists t, oeq R (S n) (OFrozenDict d) (OFrozenDict d') = Ok t).
Proof. exact comparing_raises_nothing. Qed.
Print Assumptions C41_comparing_raises_nothing.

(** A frozen list, as the errors and messages of exceptions are, equals a list, tuple or frozen list with equal elements. *)
Theorem C41_frozen_lists : forall R n l l', let parts := Forall2 (fun a b => oeq R n a b = Ok true) l l' in
  (oeq R (S n) (OFrozenList l) (OList l') = Ok true <-> parts) /\ (oeq R (S n) (OFrozenList l) (OTuple l') = Ok true <-> parts) /\
  (oeq R (S n) (OFrozenList l) (OFrozenList l') = Ok true <-> parts).
Proof. exact frozen_sequences. Qed.
Print Assumptions C41_frozen_lists.

(** False of the code: that comparing raises nothing. A frozen list and a dictionary of the same size cannot be compared. *)
Theorem C41_frozen_list_with_dictionary_refuted : forall R n x l d, length d = S (length l) -> dget (KInt 0) d = None ->
  oeq R (S n) (OFrozenList (x :: l)) (ODict d) = Raise (XPy EKeyError) /\ oeq R (S n) (OFrozenList (x :: l)) (OFrozenDict d) = Raise (XPy EKeyError).
Proof. exact frozen_dictionary. Qed.
Print Assumptions C41_frozen_list_with_dictionary_refuted.
Example C41_frozen_case :
  oeq R0 2 (OFrozenList [OStr (u "bad")]) (OList [OMsg (Msg (u "bad") (Some CConv) VNone)]) = Ok true /\
  length [(k "x", OStr (u "bad"))] = S (length (@nil eobj)) /\ dget (KInt 0) [(k "x", OStr (u "bad"))] = None.
Proof. split; [reflexivity|]. split; reflexivity. Qed.

Example C41_parts_case :
  let a := OMsg (Msg (u "bad") (Some CConv) VNone) in let b := OStr (u "bad") in let c := OStr (u "good") in
  oeq R0 2 (OTuple [a; c]) (OTuple [b; c]) = Ok true /\ oeq R0 2 (OTuple [a]) (OTuple [b; c]) = Ok false /\
  NoDup (dkeys [(k "x", a); (k "y", c)]) /\ NoDup (dkeys [(k "y", c); (k "x", b)]) /\
  oeq R0 2 (ODict [(k "x", a); (k "y", c)]) (OFrozenDict [(k "y", c); (k "x", b)]) = Ok true /\
  oeq R0 2 (ODict [(k "x", a)]) (ODict [(k "y", a)]) = Ok false /\
  forall v w, In v [a; b; c] -> In w [a; b; c] -> exists t, oeq R0 1 v w = Ok t.
Proof.
  cbn zeta. do 2 (split; [reflexivity|]).
  do 2 (split; [repeat constructor; cbn; intros H; repeat destruct H as [H|H]; try discriminate; assumption|]).
  do 2 (split; [reflexivity|]).
  intros v w Hv Hw. cbn in Hv, Hw. repeat destruct Hv as [<-|Hv]; try contradiction;
  repeat destruct Hw as [<-|Hw]; try contradiction; eexists; reflexivity.
Qed.

(** A message and its text are equal with different hashes (unless the hash of a tuple happens to collide). *)
Theorem C41_message_and_text_hash_alike_refuted : forall R s h,
  h_val R VNone = Some h -> h_tuple R [h_str R s; h_type R None; h] <> h_str R s ->
  exists m ha, oeq R 1 (OMsg m) (OStr s) = Ok true /\ ohash R (OMsg m) = Ok ha /\ ohash R (OStr s) <> Ok ha.
Proof. exact text_hash. Qed.
Print Assumptions C41_message_and_text_hash_alike_refuted.

Example C41_refuted_case :
  h_tuple R0 [h_str R0 (u "bad"); h_type R0 None; 0%Z] <> h_str R0 (u "bad") /\ h_val R0 VNone = Some 0%Z.
Proof. split; [vm_compute; discriminate|reflexivity]. Qed.

(** Equality with texts is not transitive, and comparing a frozen list with a message depends on the side. *)
Theorem C41_equality_is_transitive_refuted : forall R,
  r_eq R (VInt 1) (VInt 2) = false ->
  exists a b c, oeq R 1 a b = Ok true /\ oeq R 1 b c = Ok true /\ oeq R 1 a c = Ok false.
Proof. exact not_transitive. Qed.
Print Assumptions C41_equality_is_transitive_refuted.

Theorem C41_equality_is_symmetric_refuted : forall R,
  exists a b, oeq R 1 a b = Ok false /\ oeq R 1 b a = Raise (XPy ETypeError).
Proof. exact not_symmetric. Qed.
Print Assumptions C41_equality_is_symmetric_refuted.
