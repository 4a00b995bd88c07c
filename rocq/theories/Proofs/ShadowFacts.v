(** Fields with the names of methods. *)
From Verif.Model Require Import Py Core Export Api Equality Shadow.
From Verif.Spec Require Import ImportSpec.
From Verif.Proofs Require Import DictLemmas.
Open Scope string_scope.
Open Scope list_scope.

Section Free.
  Context (E : env) (r : conv) (c : cid).
  Local Notation has n := (In (k n) (dkeys (fields_of E c))).

  Lemma method_free {A} m n (body : A) fail : ~ has n -> method E c m (k n) body fail = body.
  Proof. intros H. unfold method. apply dget_None_keys in H. unfold fields_of in H. now rewrite H. Qed.
  Lemma method_hidden {A} m n (body : A) fail : has n -> exists e, method E c m (k n) body fail = fail e.
  Proof.
    intros H. unfold method. apply dget_keys in H. unfold fields_of in H.
    destruct (dget (k n) _) as [f|]; [|now destruct H]. eexists. reflexivity.
  Qed.

  Lemma convert_free m raw td w : ~ has "_convert" -> named_convert E r c m raw td w = model__convert E r c m raw td w.
  Proof. intros H. unfold named_convert. now apply method_free. Qed.
  Lemma body_free m w : ~ has "_convert" -> named_validate_body E r c m w = model_validate_body E r c m w.
  Proof. intros H. unfold named_validate_body, model_validate_body. now rewrite convert_free. Qed.
  Lemma validate_free m w : ~ has "_convert" -> named_validate E r c m w = model_validate E r c m w.
  Proof. intros H. unfold named_validate, model_validate. now rewrite body_free. Qed.
  Lemma call_free m w : ~ has "_convert" -> ~ has "validate" -> call_validate E r c m w = model_validate E r c m w.
  Proof. intros H V. unfold call_validate. rewrite method_free by exact V. now apply validate_free. Qed.
  Lemma init_free raw td w : ~ has "_convert" -> (kw_validate w = true -> ~ has "validate") -> named_init E r c raw td w = model_init E r c raw td w.
  Proof.
    intros H V. unfold named_init, model_init. rewrite convert_free by exact H. destruct (model__convert _ _ _ _ _ _ _) as [m1 [data|e]]; [|reflexivity].
    destruct (kw_validate w); [|reflexivity]. rewrite call_free; auto.
  Qed.
  Lemma import_free m raw w : ~ has "_convert" -> (kw_validate w = true -> ~ has "validate") ->
    named_import_data E r c m raw w = model_import_data E r c m raw w.
  Proof.
    intros H V. unfold named_import_data, model_import_data. destruct (py_dict E _) as [td|e]; [|reflexivity].
    rewrite convert_free by exact H. destruct (model__convert _ _ _ _ _ _ _) as [m1 [data|e]]; [|reflexivity].
    destruct (kw_validate w); [|reflexivity]. apply call_free; auto.
  Qed.
  Lemma serialize_free fe m x : ~ has "_convert" -> ~ has "validate" -> ~ has "to_primitive" ->
    named_serialize E r fe c m x = model_serialize E r fe c m x.
  Proof.
    intros H V P. unfold named_serialize, model_serialize. rewrite method_free by exact V. rewrite body_free by exact H.
    destruct (model_validate_body _ _ _ _ _) as [m1 oe]. rewrite method_free by exact P. reflexivity.
  Qed.
  Lemma eq_free eq a b ks : ~ has "get" -> named_eq_loop E eq c a b ks = model_eq_loop E eq c a b ks.
  Proof. intros H. induction ks as [|x ks IH]; [reflexivity|]. cbn [named_eq_loop model_eq_loop]. rewrite !method_free by exact H. now rewrite IH. Qed.

  (** What goes wrong otherwise. *)
  Lemma hidden_convert raw td w : has "_convert" -> exists e, named_init E r c raw td w = Raise e.
  Proof.
    intros H. unfold named_init, named_convert.
    destruct (method_hidden (MD [] [] (match td with VDict d => d | _ => [] end) None) "_convert"
      (model__convert E r c (MD [] [] (match td with VDict d => d | _ => [] end) None) raw td w)
      (fun e => (MD [] [] (match td with VDict d => d | _ => [] end) None, Raise e)) H) as [e ->].
    now exists e.
  Qed.
  Lemma hidden_convert_loses m w : has "_convert" -> (md_converted m <> [] \/ kw_partial w = false) ->
    md_converted (fst (named_validate E r c m w)) = [] /\ exists e, snd (named_validate E r c m w) = Some e.
  Proof.
    intros H N. unfold named_validate.
    assert (B : exists m1 e, named_validate_body E r c m w = (m1, Some e)).
    { unfold named_validate_body, named_convert.
      match goal with |- context [method E c m (k "_convert") ?b ?f] => destruct (method_hidden m "_convert" b f H) as [e Q] end.
      rewrite Q. destruct e; eexists; eexists; reflexivity. }
    destruct B as (m1 & e & ->). destruct (md_converted m), (kw_partial w); try (destruct N; congruence); cbn; (split; [reflexivity|now exists e]).
  Qed.
  Lemma hidden_convert_import m raw w : has "_convert" ->
    fst (named_import_data E r c m raw w) = m /\ exists e, snd (named_import_data E r c m raw w) = Some e.
  Proof.
    intros H. unfold named_import_data. destruct (py_dict E _) as [td|e]; [|split; [reflexivity|now exists e]]. unfold named_convert.
    match goal with |- context [method E c m (k "_convert") ?b ?f] => destruct (method_hidden m "_convert" b f H) as [e Q] end.
    rewrite Q. split; [reflexivity|now exists e].
  Qed.
  Lemma hidden_validate_init raw td w : has "validate" -> kw_validate w = true -> exists e, named_init E r c raw td w = Raise e.
  Proof.
    intros H V. unfold named_init. destruct (named_convert _ _ _ _ _ _ _) as [m1 [data|e]]; [|now exists e]. rewrite V. unfold call_validate.
    match goal with |- context [method E c ?m (k "validate") ?b ?f] => destruct (method_hidden m "validate" b f H) as [e Q] end. rewrite Q. now exists e.
  Qed.
  Lemma hidden_validate_import m raw w : has "validate" -> kw_validate w = true -> exists e, snd (named_import_data E r c m raw w) = Some e.
  Proof.
    intros H V. unfold named_import_data. destruct (py_dict E _) as [td|e]; [|now exists e].
    destruct (named_convert _ _ _ _ _ _ _) as [m1 [data|e]]; [|now exists e]. rewrite V. unfold call_validate.
    match goal with |- context [method E c ?m (k "validate") ?b ?f] => destruct (method_hidden m "validate" b f H) as [e Q] end. rewrite Q. now exists e.
  Qed.
  Lemma hidden_serialize fe m x : has "validate" \/ has "to_primitive" -> exists e, snd (named_serialize E r fe c m x) = Raise e.
  Proof.
    intros H. unfold named_serialize. set (wv := KW no_mapping false false false true true true false).
    destruct H as [H|H].
    - match goal with |- context [method E c ?m (k "validate") ?b ?f] => destruct (method_hidden m "validate" b f H) as [e Q] end. rewrite Q. now exists e.
    - destruct (in_dec key_dec (k "validate") (dkeys (fields_of E c))) as [V|V].
      + match goal with |- context [method E c ?m (k "validate") ?b ?f] => destruct (method_hidden m "validate" b f V) as [e Q] end. rewrite Q. now exists e.
      + rewrite method_free by exact V. destruct (named_validate_body _ _ _ _ _) as [m1 oe].
        match goal with |- context [method E c ?m (k "to_primitive") ?b ?f] => destruct (method_hidden m "to_primitive" b f H) as [e Q] end. rewrite Q.
        destruct oe as [[]|]; eexists; reflexivity.
  Qed.
  Lemma hidden_get eq a b x ks : has "get" -> exists e, named_eq_loop E eq c a b (x :: ks) = Raise e.
  Proof.
    intros H. cbn [named_eq_loop]. destruct (method_hidden a "get" (model_get E c a x VNone) Raise H) as [e Q]. rewrite Q. now exists e.
  Qed.
End Free.

Lemma convert_hidden : forall E r c, In (k "_convert") (dkeys (fields_of E c)) ->
  (forall raw td w, exists e, named_init E r c raw td w = Raise e) /\
  (forall m raw w, fst (named_import_data E r c m raw w) = m /\ exists e, snd (named_import_data E r c m raw w) = Some e) /\
  (forall m w, md_converted m <> [] \/ kw_partial w = false ->
     md_converted (fst (named_validate E r c m w)) = [] /\ exists e, snd (named_validate E r c m w) = Some e).
Proof. intros E r c H. split; [|split]; intros; [now apply hidden_convert|now apply hidden_convert_import|now apply hidden_convert_loses]. Qed.

Lemma validate_hidden : forall E r c w, In (k "validate") (dkeys (fields_of E c)) -> kw_validate w = true ->
  (forall raw td, exists e, named_init E r c raw td w = Raise e) /\
  (forall m raw, exists e, snd (named_import_data E r c m raw w) = Some e).
Proof. intros E r c w H V. split; intros; [now apply hidden_validate_init|now apply hidden_validate_import]. Qed.
