(** Facts about translated messages. *)
From Verif.Model Require Import Py Core Translate.
From Verif.Spec Require Import TranslateSpec.

Section Facts.
  Context (fmt : pstr -> list pyval -> pstr).

  Lemma run_app l l' s : trun fmt (l ++ l') s = trun fmt l' (trun fmt l s).
  Proof. revert s. induction l as [|a l IH]; intros s; [reflexivity|]. cbn. apply IH. Qed.
  Lemma run_force l s : ts_translator (trun fmt l s) = in_force l (ts_translator s).
  Proof. revert s. induction l as [|a l IH]; intros s; [reflexivity|]. cbn. rewrite IH. destruct a; reflexivity. Qed.
  Lemma update_nth_length {X} i (f : X -> X) l : length (update_nth i f l) = length l.
  Proof. revert i. induction l as [|x l IH]; intros [|i]; cbn; auto. Qed.
  Lemma update_nth_nth {X} i j (f : X -> X) l :
    nth_error (update_nth i f l) j = option_map (fun x => if Nat.eqb i j then f x else x) (nth_error l j).
  Proof.
    revert i j. induction l as [|x l IH]; intros [|i] [|j]; cbn; try reflexivity; try (now destruct (nth_error l j)).
    apply IH.
  Qed.
  Lemma run_length l s : length (ts_errors (trun fmt l s)) = length (ts_errors s) + raised_by l.
  Proof.
    revert s. induction l as [|a l IH]; intros s; [cbn; lia|]. cbn [trun]. rewrite IH. destruct a; cbn; [lia|rewrite app_length; cbn; lia|rewrite update_nth_length; lia].
  Qed.

  (** An exception keeps its message, and its primitive form once it has one. *)
  Lemma kept l s i e : nth_error (ts_errors s) i = Some e ->
    exists e', nth_error (ts_errors (trun fmt l s)) i = Some e' /\ te_message e' = te_message e /\
      (te_primitive e' = te_primitive e \/
       te_primitive e = None /\ exists l1 l2, l = l1 ++ l2 /\
         te_primitive e' = Some (tmessage_str (in_force l1 (ts_translator s)) (te_message e))).
  Proof.
    revert s e. induction l as [|a l IH]; intros s e H; [exists e; auto|]. cbn [trun].
    assert (S1 : exists e1, nth_error (ts_errors (tstep fmt s a)) i = Some e1 /\ te_message e1 = te_message e /\
              (te_primitive e1 = te_primitive e \/
               te_primitive e = None /\ te_primitive e1 = Some (tmessage_str (ts_translator s) (te_message e)))).
    { destruct a as [f|r|j]; cbn.
      - exists e; auto.
      - exists e. split; [|auto]. rewrite nth_error_app1; [exact H|]. apply nth_error_Some. congruence.
      - rewrite update_nth_nth, H. cbn. destruct (Nat.eqb j i); [|exists e; auto].
        eexists. split; [reflexivity|]. unfold ask. destruct (te_primitive e) eqn:P; cbn; [rewrite P|]; auto. }
    destruct S1 as (e1 & H1 & M1 & P1). destruct (IH _ _ H1) as (e2 & H2 & M2 & P2).
    exists e2. split; [exact H2|]. split; [congruence|]. destruct P1 as [P1|[P0 P1]].
    - destruct P2 as [P2|[P2 (l1 & l2 & -> & P3)]]; [left; congruence|]. right. split; [congruence|].
      exists (a :: l1), l2. split; [reflexivity|]. rewrite P3, M1. do 2 f_equal. destruct a; reflexivity.
    - right. split; [exact P0|]. destruct P2 as [P2|[P2 _]]; [|congruence]. exists [], (a :: l). split; [reflexivity|]. cbn. congruence.
  Qed.

  (** An exception just raised. *)
  Lemma raised_at l r : nth_error (ts_errors (trun fmt (l ++ [RaiseError r]) at_start)) (raised_by l)
    = Some (TE (make_message fmt (in_force l None) r) None).
  Proof.
    rewrite run_app. cbn. rewrite run_force. cbn. pose proof (run_length l at_start) as L. cbn in L. rewrite <- L.
    rewrite nth_error_app2 by lia. now rewrite Nat.sub_diag.
  Qed.
  Lemma later l r l' : exists e', nth_error (ts_errors (trun fmt (l ++ RaiseError r :: l') at_start)) (raised_by l) = Some e' /\
      te_message e' = make_message fmt (in_force l None) r /\
      (te_primitive e' = None \/ exists l1 l2, l' = l1 ++ l2 /\
         te_primitive e' = Some (tmessage_str (in_force l1 (in_force l None)) (make_message fmt (in_force l None) r))).
  Proof.
    replace (l ++ RaiseError r :: l') with ((l ++ [RaiseError r]) ++ l') by now rewrite <- app_assoc.
    rewrite run_app. destruct (kept l' _ _ _ (raised_at l r)) as (e' & H1 & H2 & H3). exists e'. split; [exact H1|]. split; [exact H2|].
    cbn in H3. destruct H3 as [H3|[_ (l1 & l2 & -> & H3)]]; [now left|right]. exists l1, l2. split; [reflexivity|]. rewrite H3, run_force. cbn.
    do 2 f_equal. clear. generalize (@None (pstr -> pstr)). induction l as [|a l IH]; intros o; [reflexivity|]. destruct a; cbn; apply IH.
  Qed.

  Lemma settled l m l' :
    shows (trun fmt (l ++ RaiseError (RMessage (Lazy m)) :: l') at_start) (raised_by l)
      = Some (translated (in_force l None) m, translated (in_force l None) m).
  Proof.
    destruct (later l (RMessage (Lazy m)) l') as (e & H1 & H2 & H3). unfold shows. rewrite H1. unfold ask. rewrite H2.
    destruct H3 as [->|(l1 & l2 & _ & ->)]; reflexivity.
  Qed.
  Lemma settled_formatted l m args l' :
    shows (trun fmt (l ++ RaiseError (RFormatted (Lazy m) args) :: l') at_start) (raised_by l)
      = Some (fmt (translated (in_force l None) m) args, fmt (translated (in_force l None) m) args).
  Proof.
    destruct (later l (RFormatted (Lazy m) args) l') as (e & H1 & H2 & H3). unfold shows. rewrite H1. unfold ask. rewrite H2.
    destruct H3 as [->|(l1 & l2 & _ & ->)]; reflexivity.
  Qed.
  Lemma plain_untouched l s l' :
    shows (trun fmt (l ++ RaiseError (RMessage (Plain s)) :: l') at_start) (raised_by l) = Some (s, s).
  Proof.
    destruct (later l (RMessage (Plain s)) l') as (e & H1 & H2 & H3). unfold shows. rewrite H1. unfold ask. rewrite H2.
    destruct H3 as [->|(l1 & l2 & _ & ->)]; reflexivity.
  Qed.
  (** A pair follows the translator until its primitive form is asked for. *)
  Lemma pairs_follow l m i l' : i <> [] -> (forall j, ~ In (AskPrimitive j) l') ->
    shows (trun fmt (l ++ RaiseError (RPair (Lazy m) i) :: l') at_start) (raised_by l)
      = Some (translated (in_force l' (in_force l None)) m ++ u ": " ++ i, translated (in_force l' (in_force l None)) m ++ u ": " ++ i).
  Proof.
    intros Hi Hl. unfold shows.
    replace (l ++ RaiseError (RPair (Lazy m) i) :: l') with ((l ++ [RaiseError (RPair (Lazy m) i)]) ++ l') by now rewrite <- app_assoc.
    rewrite run_app. set (s := trun fmt (l ++ [_]) at_start). pose proof (raised_at l (RPair (Lazy m) i)) as H. fold s in H.
    assert (T : ts_translator s = in_force l None).
    { unfold s. rewrite run_force. cbn. clear. generalize (@None (pstr -> pstr)). induction l as [|a l IH]; intros o; [reflexivity|]. destruct a; cbn; apply IH. }
    assert (K : nth_error (ts_errors (trun fmt l' s)) (raised_by l) = nth_error (ts_errors s) (raised_by l)).
    { clear T. clearbody s. revert s H. induction l' as [|a l' IH]; intros s H; [reflexivity|].
      cbn [trun].
      assert (E : nth_error (ts_errors (tstep fmt s a)) (raised_by l) = nth_error (ts_errors s) (raised_by l)).
      { destruct a as [f|r|j]; cbn; [reflexivity| |exfalso; apply (Hl j); now left].
        apply nth_error_app1. apply nth_error_Some. congruence. }
      rewrite IH; [exact E| |congruence]. intros j Hj. apply (Hl j). now right. }
    rewrite K, H, run_force, T. destruct i; [congruence|]. reflexivity.
  Qed.
  Lemma asked_for_good l r l1 l2 :
    let p := l ++ RaiseError r :: l1 ++ [AskPrimitive (raised_by l)] in
    option_map snd (shows (trun fmt (p ++ l2) at_start) (raised_by l)) = option_map snd (shows (trun fmt p at_start) (raised_by l)).
  Proof.
    cbn zeta. set (s := trun fmt (l ++ RaiseError r :: l1) at_start). destruct (later l r l1) as (e & H1 & _). fold s in H1.
    set (s1 := tstep fmt s (AskPrimitive (raised_by l))).
    assert (E1 : exists e1 q, nth_error (ts_errors s1) (raised_by l) = Some e1 /\ te_primitive e1 = Some q).
    { unfold s1; cbn. rewrite update_nth_nth, H1, Nat.eqb_refl. cbn. unfold ask. destruct (te_primitive e) as [q|] eqn:P; cbn; [exists e, q; now split|]. eexists; eexists; split; reflexivity. }
    destruct E1 as (e1 & q & H2 & P2).
    replace (l ++ RaiseError r :: l1 ++ [AskPrimitive (raised_by l)])
      with ((l ++ RaiseError r :: l1) ++ [AskPrimitive (raised_by l)]) by (rewrite <- app_assoc; reflexivity).
    rewrite (run_app (_ ++ [AskPrimitive (raised_by l)]) l2), (run_app (l ++ RaiseError r :: l1) [AskPrimitive (raised_by l)]).
    fold s. change (trun fmt [AskPrimitive (raised_by l)] s) with s1.
    destruct (kept l2 s1 _ _ H2) as (e2 & H3 & _ & [P3|[P3 _]]); [|congruence].
    unfold shows. rewrite H3, H2. cbn. unfold ask. now rewrite P3, P2.
  Qed.
End Facts.

(** Messages made by the translator object. *)
Lemma made_messages fmt before now m after :
  shows (trun fmt (before ++ RaiseError (RMessage (make_text now m true)) :: after) at_start) (raised_by before)
    = Some (translated (in_force before None) m, translated (in_force before None) m) /\
  shows (trun fmt (before ++ RaiseError (RMessage (make_text now m false)) :: after) at_start) (raised_by before)
    = Some (translated now m, translated now m).
Proof. split; [exact (settled fmt before m after)|]. exact (plain_untouched fmt before (translated now m) after). Qed.
