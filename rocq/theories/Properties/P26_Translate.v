(** C79: what registering a translator changes, for all programs that register, raise and read in any order. *)
From Verif.Model Require Import Py Core Translate.
From Verif.Spec Require Import TranslateSpec.
From Verif.Proofs Require Import TranslateFacts.

(** ** C79 *)
(** A message is translated by the translator in force when the exception is raised, also if the message was defined before
    that translator was registered, and stays so. *)
Theorem C79_translated_when_raised :
  forall fmt before m after,
    shows (trun fmt (before ++ RaiseError (RMessage (Lazy m)) :: after) at_start) (raised_by before)
      = Some (translated (in_force before None) m, translated (in_force before None) m).
Proof. exact settled. Qed.
Print Assumptions C79_translated_when_raised.

(** Messages made with the library's own function follow this unless made with lazy=False: these are translated at once. *)
Theorem C79_messages_are_lazy_by_request :
  forall fmt before now m after,
    shows (trun fmt (before ++ RaiseError (RMessage (make_text now m true)) :: after) at_start) (raised_by before)
      = Some (translated (in_force before None) m, translated (in_force before None) m) /\
    shows (trun fmt (before ++ RaiseError (RMessage (make_text now m false)) :: after) at_start) (raised_by before)
      = Some (translated now m, translated now m).
Proof. exact made_messages. Qed.
Print Assumptions C79_messages_are_lazy_by_request.

(** A message with values is translated first and filled in then: the translator does not see the values. *)
Theorem C79_values_are_not_translated :
  forall fmt before m args after,
    shows (trun fmt (before ++ RaiseError (RFormatted (Lazy m) args) :: after) at_start) (raised_by before)
      = Some (fmt (translated (in_force before None) m) args, fmt (translated (in_force before None) m) args).
Proof. exact settled_formatted. Qed.
Print Assumptions C79_values_are_not_translated.

(** A text of the user's own is never translated. *)
Theorem C79_plain_texts_are_not_translated :
  forall fmt before s after,
    shows (trun fmt (before ++ RaiseError (RMessage (Plain s)) :: after) at_start) (raised_by before) = Some (s, s).
Proof. exact plain_untouched. Qed.
Print Assumptions C79_plain_texts_are_not_translated.

(** A message given with an info is not settled when raised: it follows the translator, *)
Theorem C79_messages_with_info_follow_the_translator :
  forall fmt before m i after, i <> [] -> (forall j, ~ In (AskPrimitive j) after) ->
    let now := translated (in_force after (in_force before None)) m ++ u ": " ++ i in
    shows (trun fmt (before ++ RaiseError (RPair (Lazy m) i) :: after) at_start) (raised_by before) = Some (now, now).
Proof. exact pairs_follow. Qed.
Print Assumptions C79_messages_with_info_follow_the_translator.

(** but the primitive form of any exception stays what it was when first asked for. *)
Theorem C79_primitive_form_is_kept :
  forall fmt before r l after,
    let p := before ++ RaiseError r :: l ++ [AskPrimitive (raised_by before)] in
    option_map snd (shows (trun fmt (p ++ after) at_start) (raised_by before))
      = option_map snd (shows (trun fmt p at_start) (raised_by before)).
Proof. exact asked_for_good. Qed.
Print Assumptions C79_primitive_form_is_kept.

(** A translator registered, an error, another translator: the pair shows the second one until asked, the other the first. *)
Example C79_case :
  let de s := u "de:" ++ s in let fr s := u "fr:" ++ s in
  let fmt s (_ : list pyval) := s ++ u "!" in
  let l := [Register (Some de); RaiseError (RMessage (Lazy (u "no"))); RaiseError (RPair (Lazy (u "no")) (u "x"));
            RaiseError (RFormatted (Lazy (u "no")) [VInt 1]); Register (Some fr)] in
  in_force l None = Some fr /\ raised_by l = 3 /\ u "x" <> [] /\ (forall j, ~ In (AskPrimitive j) [Register (Some fr)]) /\
  map (shows (trun fmt l at_start)) [0; 1; 2]
    = [Some (u "de:no", u "de:no"); Some (u "fr:no: x", u "fr:no: x"); Some (u "de:no!", u "de:no!")] /\
  shows (trun fmt (l ++ [AskPrimitive 1; Register (Some de)]) at_start) 1 = Some (u "de:no: x", u "fr:no: x").
Proof. cbn zeta. repeat split; try discriminate. intros j [H|[]]; discriminate H. Qed.
