(** Type classes: which validators and messages they have. *)
From Verif.Model Require Import Py Core Meta TypeClass.
From Verif.Spec Require Import TypeClassSpec.
From Verif.Proofs Require Import DictLemmas MetaClass.
From Coq Require Import Lia.
Local Open Scope nat_scope.

Lemma is_validate_iff x : is_validate x = true <-> validator_name x.
Proof.
  unfold is_validate, validator_name. destruct (validates x) as [y|] eqn:D.
  - split; [intros _|reflexivity]. apply validates_Some in D as (s & _ & ->). eauto.
  - split; [discriminate|]. intros (s & ->).
    assert (H : validates (KStr (u "validate_" ++ s)) = Some (KStr s)) by (apply validates_Some; eauto).
    congruence.
Qed.

(** ** Lists of names *)
Lemma filter_filter {B} (f g : B -> bool) l : filter f (filter g l) = filter (fun x => g x && f x) l.
Proof.
  induction l as [|x l IH]; cbn; [reflexivity|]. destruct (g x); cbn; [destruct (f x)|]; cbn; now rewrite IH.
Qed.
Lemma add_names m : forall l, fold_left add_name m l = l ++ filter (fun y => negb (kmem y l)) (firsts m).
Proof.
  induction m as [|x m IH]; intros l; cbn [fold_left firsts filter].
  - now rewrite app_nil_r.
  - rewrite IH, filter_filter. unfold add_name. destruct (kmem x l) eqn:D; cbn [negb].
    + f_equal. apply filter_ext. intros y. destruct (key_eqb_spec x y) as [->|]; cbn; [|reflexivity].
      now rewrite D.
    + rewrite <- app_assoc. cbn. do 2 f_equal. apply filter_ext. intros y. unfold kmem. rewrite existsb_app. cbn.
      rewrite orb_false_r, negb_orb, andb_comm. f_equal. f_equal. apply key_eqb_sym.
Qed.
Lemma add_names_nil m : fold_left add_name m [] = firsts m.
Proof. rewrite add_names. cbn. induction (firsts m) as [|x l IH]; cbn; congruence. Qed.
Lemma firsts_in x m : In x (firsts m) <-> In x m.
Proof.
  induction m as [|y m IH]; cbn; [tauto|]. rewrite filter_In, IH. split; [tauto|].
  intros [->|H]; [now left|]. destruct (key_eqb_spec y x) as [->|N]; [now left|right; auto].
Qed.
Lemma NoDup_filter' {B} (f : B -> bool) l : NoDup l -> NoDup (filter f l).
Proof.
  induction 1 as [|x l H _ IH]; cbn; [constructor|]. destruct (f x); [|exact IH].
  constructor; [|exact IH]. rewrite filter_In. tauto.
Qed.
Lemma firsts_NoDup m : NoDup (firsts m).
Proof.
  induction m as [|y m IH]; cbn; constructor; [|now apply NoDup_filter'].
  rewrite filter_In, key_eqb_refl. cbn. intuition congruence.
Qed.
Lemma firsts_id l : NoDup l -> firsts l = l.
Proof.
  induction 1 as [|x l H N IH]; cbn; [reflexivity|]. rewrite IH. f_equal.
  clear - H. induction l as [|y l IH]; cbn; [reflexivity|]. destruct (key_eqb_spec x y) as [->|]; cbn.
  - destruct H. now left.
  - f_equal. apply IH. intros K. apply H. now right.
Qed.
Lemma firsts_prefix l m : NoDup l -> exists r, firsts (l ++ m) = l ++ r.
Proof.
  intros N. rewrite <- add_names_nil, fold_left_app, add_names, add_names_nil, (firsts_id l N). eauto.
Qed.

(** ** Linearisation *)
Lemma drop_head_in h d l : In d l -> d = h \/ In d (drop_head h l).
Proof.
  destruct l as [|x l]; [contradiction|]. cbn. destruct (Nat.eqb x h) eqn:D.
  - apply Nat.eqb_eq in D. intros [->|H]; auto.
  - intros H. now right.
Qed.
Lemma drop_head_incl h d l : In d (drop_head h l) -> In d l.
Proof. destruct l as [|x l]; cbn; [contradiction|]. destruct (Nat.eqb x h); cbn; auto. Qed.
Lemma merge_in n : forall ls l, merge n ls = Some l -> forall d, In d l <-> exists m, In m ls /\ In d m.
Proof.
  induction n as [|n IH]; intros ls l; cbn [merge].
  - destruct (concat ls) eqn:C; [|discriminate]. intros H d. injection H as <-. cbn. rewrite <- (in_concat ls d), C. reflexivity.
  - destruct (concat ls) eqn:C.
    { intros H d. injection H as <-. cbn. rewrite <- (in_concat ls d), C. reflexivity. }
    destruct (find (good_head ls) _) as [h|] eqn:F; [|discriminate].
    destruct (merge n (map (drop_head h) ls)) as [l'|] eqn:M; [|discriminate].
    cbn. intros H d. injection H as <-. apply find_some in F as (F & _).
    apply in_concat in F as (m & Hm & Hh). apply in_map_iff in Hm as (m0 & <- & Hm0).
    assert (Hh' : In h m0) by (destruct m0; cbn in Hh; [contradiction|destruct Hh as [->|[]]; now left]).
    cbn. rewrite (IH _ _ M d). split.
    + intros [<-|(x & Hx & Hd)]; [eauto|]. apply in_map_iff in Hx as (y & <- & Hy). exists y. split; [exact Hy|].
      now apply drop_head_incl in Hd.
    + intros (x & Hx & Hd). destruct (drop_head_in h d x Hd) as [->|K]; [now left|right].
      exists (drop_head h x). split; [now apply in_map|exact K].
Qed.

Section Facts.
  Context {A : Type}.
  Implicit Types (P : list (tcls A)) (k : tcls A) (body : list (key * tattr A)).

  Lemma prepare_attrs_keys body attrs : prepare_attrs body = Ok attrs -> map fst attrs = map fst body.
  Proof.
    revert attrs. induction body as [|[x t] body IH]; cbn; intros attrs H; [now injection H as <-|].
    destruct (if is_validate x then _ else Ok t) as [t'|]; [|discriminate]. cbn in H.
    destruct (prepare_attrs body) as [r|]; [|discriminate]. cbn in H. injection H as <-. cbn. f_equal. now apply IH.
  Qed.
  Lemma prepare_attrs_get body attrs x : prepare_attrs body = Ok attrs ->
    dget x attrs = match dget x body with
                   | Some (TFun f) => Some (TFun (if is_validate x then prepare 3 f else f))
                   | Some TOther => Some TOther
                   | None => None
                   end /\ (is_validate x = true -> dget x body <> Some TOther).
  Proof.
    revert attrs. induction body as [|[y t] body IH]; cbn; intros attrs H; [injection H as <-; split; [reflexivity|discriminate]|].
    destruct (if is_validate y then _ else Ok t) as [t'|] eqn:D; [|discriminate]. cbn in H.
    destruct (prepare_attrs body) as [r|]; [|discriminate]. cbn in H. injection H as <-. cbn.
    destruct (key_eqb_spec x y) as [->|N]; [|now apply IH].
    destruct (is_validate y).
    - destruct t; [|discriminate]. injection D as <-. split; [reflexivity|discriminate].
    - injection D as <-. split; [now destruct t|discriminate].
  Qed.

  (** A class statement appends one class. *)
  Definition made_class P (meta : bool) bases messages body k : Prop :=
    tc_bases k = bases /\
    tc_meta k = (meta || existsb (fun b => match nth_error P b with Some k => tc_meta k | None => false end) bases) /\
    (exists l, tc_mro k = length P :: l /\ forall d, In d l <-> exists b, In b bases /\ (d = b \/ In d (mro P b))) /\
    (if tc_meta k then
       tc_messages k = Some (dupdate (fst (fold_left (add_type P) (rev bases) ([], []))) (match messages with Some d => d | None => [] end)) /\
       tc_validators k = Some (fold_left add_name (filter is_validate (map fst body)) (snd (fold_left (add_type P) (rev bases) ([], [])))) /\
       prepare_attrs body = Ok (tc_attrs k)
     else tc_messages k = messages /\ tc_validators k = None /\ tc_attrs k = body).
  Lemma define_type_inv P meta bases messages body P' :
    define_type P meta bases messages body = Ok P' -> exists k, P' = P ++ [k] /\ made_class P meta bases messages body k.
  Proof.
    unfold define_type. intros H.
    set (mt := meta || _) in H.
    destruct (merge (S (length P)) (map (mro P) bases ++ [bases])) as [l|] eqn:M.
    2:{ destruct (if mt then _ else _) as [[[? ?] ?]|]; discriminate. }
    pose proof (merge_in _ _ _ M) as L.
    assert (L' : forall d, In d l <-> exists b, In b bases /\ (d = b \/ In d (mro P b))).
    { intros d. rewrite L. split.
      - intros (m & Hm & Hd). apply in_app_iff in Hm as [Hm|[<-|[]]].
        + apply in_map_iff in Hm as (b & <- & Hb). eauto.
        + eauto.
      - intros (b & Hb & [->|Hd]).
        + exists bases. split; [apply in_app_iff; right; now left|exact Hb].
        + exists (mro P b). split; [apply in_app_iff; left; now apply in_map|exact Hd]. }
    clear M L. destruct mt eqn:E.
    - destruct (fold_left (add_type P) (rev bases) ([], [])) as [m vs] eqn:F.
      destruct (prepare_attrs body) as [attrs|] eqn:Q; [|discriminate]. cbn in H. injection H as <-.
      eexists. split; [reflexivity|]. unfold made_class. cbn. rewrite F. fold mt. rewrite E. repeat split; eauto.
    - cbn in H. injection H as <-. eexists. split; [reflexivity|]. unfold made_class. cbn. fold mt. rewrite E. repeat split; eauto.
  Qed.

  (** What holds of every class of a program. *)
  Record good P : Prop := {
    g_mro : forall c k, nth_error P c = Some k ->
      exists l, tc_mro k = c :: l /\ (forall d, In d l <-> exists b, In b (tc_bases k) /\ In d (mro P b)) /\ forall d, In d l -> d < c;
    g_meta : forall c k, nth_error P c = Some k -> (tc_meta k = true <-> tc_validators k <> None);
    g_up : forall c k b j, nth_error P c = Some k -> In b (tc_bases k) -> nth_error P b = Some j ->
      tc_meta j = true -> tc_meta k = true;
    g_bases : forall c k b, nth_error P c = Some k -> In b (tc_bases k) -> b < c;
    g_msgs : forall c k m, nth_error P c = Some k -> tc_messages k = Some m -> NoDup (dkeys m);
    g_own : forall c k, nth_error P c = Some k -> tc_meta k = true -> tc_messages k <> None;
    g_names : forall c k, nth_error P c = Some k -> tc_meta k = true ->
      tc_validators k = Some (firsts (concat (map (validator_names P) (rev (tc_bases k))) ++ filter is_validate (map fst (tc_attrs k)))) }.

  Lemma first_in_app {B} (get : tcls A -> option B) P k l : (forall d, In d l -> d < length P) ->
    first_in get (P ++ [k]) l = first_in get P l.
  Proof.
    induction l as [|c l IH]; intros H; cbn; [reflexivity|].
    rewrite nth_error_app1 by (apply H; now left). rewrite IH; [reflexivity|]. intros d Hd. apply H. now right.
  Qed.
  Lemma mro_app P k c : c < length P -> mro (P ++ [k]) c = mro P c.
  Proof. intros H. unfold mro. now rewrite nth_error_app1. Qed.
  Lemma mro_bound P : good P -> forall c d, In d (mro P c) -> d <= c /\ c < length P.
  Proof.
    intros G c d H. unfold mro in H. destruct (nth_error P c) as [k|] eqn:E; [|contradiction].
    assert (c < length P) by (apply nth_error_Some; congruence).
    destruct (g_mro P G c k E) as (l & Hl & _ & B). rewrite Hl in H. destruct H as [<-|H]; [lia|]. apply B in H. lia.
  Qed.
  Lemma attr_of_app {B} (get : tcls A -> option B) P k c : good P -> c < length P -> attr_of get (P ++ [k]) c = attr_of get P c.
  Proof.
    intros G H. unfold attr_of. rewrite mro_app by exact H. apply first_in_app.
    intros d Hd. apply mro_bound in Hd; [|exact G]. lia.
  Qed.
  Lemma mro_head P c : good P -> c < length P -> exists l, mro P c = c :: l.
  Proof.
    intros G H. unfold mro. destruct (nth_error P c) as [k|] eqn:E; [|apply nth_error_None in E; lia].
    destruct (g_mro P G c k E) as (l & Hl & _). eauto.
  Qed.
  Lemma names_app P k c : good P -> c < length P -> validator_names (P ++ [k]) c = validator_names P c.
  Proof. intros G H. unfold validator_names. now rewrite attr_of_app. Qed.

  (** The accumulated names and messages. *)
  Lemma add_types_names P bases s : snd (fold_left (add_type P) bases s) =
    fold_left add_name (concat (map (validator_names P) bases)) (snd s).
  Proof.
    revert s. induction bases as [|b bases IH]; intros s; cbn [fold_left map concat]; [reflexivity|].
    rewrite IH, fold_left_app. f_equal. unfold add_type, validator_names. cbn. now destruct (attr_of tc_validators P b).
  Qed.

  Lemma good_step P meta bases messages body k : good P -> (forall b, In b bases -> b < length P) -> NoDup (map fst body) ->
    (forall d, messages = Some d -> NoDup (map fst d)) ->
    made_class P meta bases messages body k -> good (P ++ [k]).
  Proof.
    intros G B N M (Hb & Hm & (l & Hl & HL) & HX).
    assert (NTH : forall c j, nth_error (P ++ [k]) c = Some j -> (c < length P /\ nth_error P c = Some j) \/ (c = length P /\ j = k)).
    { intros c j H. destruct (Nat.lt_ge_cases c (length P)) as [L|L].
      - left. split; [exact L|]. now rewrite nth_error_app1 in H.
      - right. rewrite nth_error_app2 in H by exact L. destruct (c - length P) as [|x] eqn:E.
        + cbn in H. injection H as <-. split; [lia|reflexivity].
        + cbn in H. destruct x; discriminate. }
    assert (SB : forall c j b, nth_error P c = Some j -> In b (tc_bases j) -> b < length P).
    { intros c j b H I. pose proof (g_bases P G c j b H I). assert (c < length P) by (apply nth_error_Some; congruence). lia. }
    split.
    - intros c j H. apply NTH in H as [(L & H)|(-> & ->)].
      + destruct (g_mro P G c j H) as (l0 & H1 & H2 & H3). exists l0. split; [exact H1|]. split; [|exact H3].
        intros d. rewrite H2. split; intros (b & Hb0 & Hd); exists b; (split; [exact Hb0|]).
        * rewrite mro_app; [exact Hd|]. eapply SB; eauto.
        * rewrite mro_app in Hd; [exact Hd|]. eapply SB; eauto.
      + exists l. split; [exact Hl|]. split.
        * intros d. rewrite HL, Hb. split.
          -- intros (b & Hb0 & Hd). exists b. split; [exact Hb0|]. rewrite mro_app by now apply B.
             destruct Hd as [->|Hd]; [|exact Hd]. destruct (mro_head P b G (B b Hb0)) as (l0 & ->). now left.
          -- intros (b & Hb0 & Hd). exists b. split; [exact Hb0|]. right. rewrite mro_app in Hd; [exact Hd|now apply B].
        * intros d Hd. apply HL in Hd as (b & Hb0 & [->|Hd]); [now apply B|]. apply (mro_bound P G) in Hd. lia.
    - intros c j H. apply NTH in H as [(L & H)|(-> & ->)]; [now apply (g_meta P G c)|].
      destruct (tc_meta k).
      + destruct HX as (_ & -> & _). split; [discriminate|reflexivity].
      + destruct HX as (_ & -> & _). split; [discriminate|congruence].
    - intros c j b i H I H2 T. apply NTH in H as [(L & H)|(-> & ->)].
      + rewrite nth_error_app1 in H2 by (eapply SB; eauto). eapply (g_up P G); eauto.
      + rewrite Hb in I. rewrite nth_error_app1 in H2 by now apply B. rewrite Hm. apply orb_true_iff. right.
        apply existsb_exists. exists b. split; [exact I|]. now rewrite H2.
    - intros c j b H I. apply NTH in H as [(L & H)|(-> & ->)]; [eapply (g_bases P G); eauto|]. rewrite Hb in I. now apply B.
    - intros c j m H E. apply NTH in H as [(L & H)|(-> & ->)]; [eapply (g_msgs P G); eauto|].
      destruct (tc_meta k).
      + destruct HX as (E2 & _). rewrite E2 in E. injection E as <-. apply NoDup_dupdate.
        assert (Q : forall bs s, NoDup (dkeys (fst s)) -> NoDup (dkeys (fst (fold_left (add_type P) bs s)))).
        { induction bs as [|b bs IH]; intros s Hs; cbn [fold_left]; [exact Hs|]. apply IH. unfold add_type. cbn.
          destruct (attr_of tc_messages P b); [now apply NoDup_dupdate|exact Hs]. }
        apply Q. constructor.
      + destruct HX as (E2 & _). rewrite E2 in E. now apply M.
    - intros c j H T. apply NTH in H as [(L & H)|(-> & ->)]; [eapply (g_own P G); eauto|].
      rewrite T in HX. destruct HX as (-> & _). discriminate.
    - intros c j H T. apply NTH in H as [(L & H)|(-> & ->)].
      + rewrite (g_names P G c j H T). do 3 f_equal. f_equal. apply map_ext_in. intros b I. apply in_rev in I.
        symmetry. apply names_app; [exact G|]. eapply SB; eauto.
      + rewrite T in HX. destruct HX as (_ & -> & Q). rewrite (prepare_attrs_keys _ _ Q).
        rewrite add_types_names, <- fold_left_app, add_names_nil, Hb. do 3 f_equal. f_equal. apply map_ext_in.
        intros b I. apply in_rev in I. symmetry. apply names_app; [exact G|]. now apply B.
  Qed.
  Lemma types_good P : types P -> good P.
  Proof.
    induction 1 as [|P meta bases messages body P' T IH B N M D].
    - split; intros [|c]; discriminate.
    - apply define_type_inv in D as (k & -> & D). now apply good_step with meta bases messages body.
  Qed.

  (** ** Which validators *)
  Lemma meta_up P c : good P -> forall d, In d (mro P c) -> type_class P d -> type_class P c.
  Proof.
    intros G. induction c as [c IH] using lt_wf_ind. intros d Hd T.
    destruct (mro_bound P G c d Hd) as (_ & L).
    unfold mro in Hd. destruct (nth_error P c) as [k|] eqn:E; [|contradiction].
    destruct (g_mro P G c k E) as (l & Hl & HL & HB). rewrite Hl in Hd. destruct Hd as [->|Hd]; [exact T|].
    apply HL in Hd as (b & Hb & Hd). pose proof (g_bases P G c k b E Hb) as Lb.
    destruct (IH b Lb d Hd T) as (j & Ej & Tj). exists k. split; [exact E|]. eapply (g_up P G); eauto.
  Qed.
  Lemma names_of_plain P c : good P -> ~ type_class P c -> validator_names P c = [].
  Proof.
    intros G N. unfold validator_names, attr_of.
    assert (H : forall d, In d (mro P c) -> ~ type_class P d) by (intros d Hd T; apply N; eapply meta_up; eauto).
    induction (mro P c) as [|d l IH]; cbn; [reflexivity|].
    destruct (nth_error P d) as [k|] eqn:E.
    - destruct (tc_validators k) eqn:V.
      + destruct (H d (or_introl eq_refl)). exists k. split; [exact E|]. apply (g_meta P G d k E). congruence.
      + apply IH. intros d' Hd'. apply H. now right.
    - apply IH. intros d' Hd'. apply H. now right.
  Qed.
  Lemma names_of_type P c k : good P -> nth_error P c = Some k -> tc_meta k = true ->
    validator_names P c = firsts (concat (map (validator_names P) (rev (tc_bases k))) ++ filter is_validate (map fst (tc_attrs k))).
  Proof.
    intros G E T. pose proof (g_names P G c k E T) as H. unfold validator_names at 1, attr_of.
    destruct (g_mro P G c k E) as (l & Hl & _). unfold mro. rewrite E, Hl. cbn. rewrite E, H. reflexivity.
  Qed.
  Lemma type_class_dec P c : type_class P c \/ ~ type_class P c.
  Proof.
    unfold type_class. destruct (nth_error P c) as [k|] eqn:E.
    - destruct (tc_meta k) eqn:T; [left; eauto|right]. intros (j & H & K). congruence.
    - right. intros (j & H & _). discriminate.
  Qed.

  Theorem which_validators P : types P -> forall c x,
    (In x (validator_names P c) <->
     validator_name x /\ exists d, In d (mro P c) /\ type_class P d /\ has_own P d x).
  Proof.
    intros T. apply types_good in T as G. induction c as [c IH] using lt_wf_ind. intros x.
    destruct (type_class_dec P c) as [(k & E & M)|N].
    - rewrite (names_of_type P c k G E M), firsts_in, in_app_iff, filter_In, is_validate_iff, in_concat.
      destruct (g_mro P G c k E) as (l & Hl & HL & HB).
      assert (R : mro P c = c :: l) by (unfold mro; now rewrite E). rewrite R. split.
      + intros [(n & Hn & Hx)|(Hx & V)].
        * apply in_map_iff in Hn as (b & <- & Hb). apply in_rev in Hb. pose proof (g_bases P G c k b E Hb) as Lb.
          apply (IH b Lb) in Hx as (V & d & Hd & Td & O). split; [exact V|]. exists d. split; [right; apply HL; eauto|]. auto.
        * split; [exact V|]. exists c. split; [now left|]. split; exists k; auto.
      + intros (V & d & [<-|Hd] & Td & O).
        * right. destruct O as (j & Ej & Hj). assert (j = k) by congruence. subst j. auto.
        * left. apply HL in Hd as (b & Hb & Hd). exists (validator_names P b). split.
          -- apply in_map. now apply in_rev in Hb.
          -- apply (IH b (g_bases P G c k b E Hb)). split; [exact V|]. exists d. auto.
    - rewrite (names_of_plain P c G N). split; [contradiction|]. intros (_ & d & Hd & Td & _). destruct N. eapply meta_up; eauto.
  Qed.
  Theorem validators_once P c : types P -> NoDup (validator_names P c).
  Proof.
    intros T. apply types_good in T as G. destruct (type_class_dec P c) as [(k & E & M)|N].
    - rewrite (names_of_type P c k G E M). apply firsts_NoDup.
    - rewrite (names_of_plain P c G N). constructor.
  Qed.

  (** ** A class statement *)
  Section Statement.
    Variables (P : list (tcls A)) (meta : bool) (bases : list tid) (messages : option (list (key * emsg)))
              (body : list (key * tattr A)) (P' : list (tcls A)).
    Hypotheses (T : types P) (B : forall b, In b bases -> b < length P) (N : NoDup (map fst body))
               (M : forall d, messages = Some d -> NoDup (map fst d))
               (D : define_type P meta bases messages body = Ok P').
    Let T' : types P' := types_class P meta bases messages body P' T B N M D.

    Lemma stm_class : exists k, P' = P ++ [k] /\ made_class P meta bases messages body k /\ nth_error P' (length P) = Some k.
    Proof using D.
      clear T'. apply define_type_inv in D as (k & -> & H). exists k. split; [reflexivity|]. split; [exact H|].
      rewrite nth_error_app2 by lia. now rewrite Nat.sub_diag.
    Qed.
    Lemma stm_old c : c < length P -> validator_names P' c = validator_names P c.
    Proof using All.
      clear T'. intros L. destruct stm_class as (k & -> & _). apply names_app; [now apply types_good|exact L].
    Qed.
    Lemma stm_old_attr {C} (get : tcls A -> option C) c : c < length P -> attr_of get P' c = attr_of get P c.
    Proof using All.
      clear T'. intros L. destruct stm_class as (k & -> & _). apply attr_of_app; [now apply types_good|exact L].
    Qed.

    Theorem order_of_validators : type_class P' (length P) ->
      validator_names P' (length P) =
      firsts (concat (map (validator_names P) (rev bases)) ++ filter is_validate (map fst body)).
    Proof using All.
      intros (k & E & Hm). rewrite (names_of_type P' _ k (types_good P' T') E Hm).
      destruct stm_class as (k' & HP & (Hb & _ & _ & HX) & E'). assert (k' = k) by congruence. subst k'.
      rewrite Hm in HX. destruct HX as (_ & _ & Q). rewrite (prepare_attrs_keys _ _ Q), Hb. do 2 f_equal.
      f_equal. apply map_ext_in. intros b I. apply in_rev in I. apply stm_old. now apply B.
    Qed.
    Theorem inherited_validators_first b r : type_class P' (length P) -> bases = r ++ [b] ->
      exists own, validator_names P' (length P) = validator_names P b ++ own.
    Proof using All.
      intros K E. rewrite (order_of_validators K), E, rev_app_distr. cbn. rewrite <- app_assoc.
      apply firsts_prefix. now apply validators_once.
    Qed.

    Lemma stm_attr {C} (get : tcls A -> option C) k : nth_error P' (length P) = Some k ->
      attr_of get P' (length P) = match get k with Some c => Some c | None => first_in get P' (tl (tc_mro k)) end.
    Proof using All.
      intros E. unfold attr_of, mro. rewrite E. destruct stm_class as (k' & _ & (_ & _ & (l & Hl & _) & _) & E').
      assert (k' = k) by congruence. subst k'. rewrite Hl. cbn. now rewrite E.
    Qed.

    Theorem own_validator x f self : type_class P' (length P) -> validator_name x -> dget x body = Some (TFun f) ->
      method P' (length P) self x = bind self (prepare 3 f).
    Proof using All.
      intros (k & E & Hm) V X. unfold method. rewrite (stm_attr _ k E).
      destruct stm_class as (k' & _ & (_ & _ & _ & HX) & E'). assert (k' = k) by congruence. subst k'.
      rewrite Hm in HX. destruct HX as (_ & _ & Q). destruct (prepare_attrs_get _ _ x Q) as (-> & _). rewrite X.
      apply is_validate_iff in V. now rewrite V.
    Qed.
  End Statement.

  (** ** Single inheritance *)
  Lemma merge_one n : forall l r, NoDup l -> merge n [l; []] = Some r -> r = l.
  Proof.
    induction n as [|n IH]; intros l r N; cbn [merge concat]; rewrite app_nil_r.
    - destruct l; [congruence|discriminate].
    - destruct l as [|h l]; [congruence|]. cbn [map firstn concat app find good_head forallb tl existsb negb].
      inversion N as [|? ? H1 H2]; subst. unfold good_head. cbn [forallb tl existsb negb andb].
      destruct (existsb (Nat.eqb h) l) eqn:X.
      + apply existsb_exists in X as (y & Hy & Ey). apply Nat.eqb_eq in Ey. now subst.
      + cbn [negb andb map drop_head]. rewrite Nat.eqb_refl. destruct (merge n [l; []]) as [r'|] eqn:R; [|discriminate].
        cbn. intros H. injection H as <-. f_equal. now apply IH.
  Qed.
  Lemma merge_single n b l r : NoDup (b :: l) -> merge n [b :: l; [b]] = Some r -> r = b :: l.
  Proof.
    destruct n as [|n]; [discriminate|]. intros N. cbn [merge concat app map firstn find]. unfold good_head. cbn [forallb tl existsb negb andb].
    inversion N as [|? ? H1 H2]; subst.
    destruct (existsb (Nat.eqb b) l) eqn:X.
    + apply existsb_exists in X as (y & Hy & Ey). apply Nat.eqb_eq in Ey. now subst.
    + cbn [negb andb map drop_head]. rewrite Nat.eqb_refl. destruct (merge n [l; []]) as [r'|] eqn:R; [|discriminate].
      cbn. intros H. injection H as <-. f_equal. now apply (merge_one n).
  Qed.
  Lemma merge_NoDup n : forall ls l, merge n ls = Some l -> NoDup l.
  Proof.
    induction n as [|n IH]; intros ls l; cbn [merge].
    - destruct (concat ls); [|discriminate]. intros H. injection H as <-. constructor.
    - destruct (concat ls); [intros H; injection H as <-; constructor|].
      destruct (find (good_head ls) _) as [h|] eqn:F; [|discriminate].
      destruct (merge n (map (drop_head h) ls)) as [l'|] eqn:R; [|discriminate].
      cbn. intros H. injection H as <-. constructor; [|now apply (IH _ _ R)].
      rewrite (merge_in _ _ _ R). intros (m & Hm & Hd). apply in_map_iff in Hm as (y & <- & Hy).
      apply find_some in F as (_ & F). unfold good_head in F. rewrite forallb_forall in F. specialize (F y Hy).
      destruct y as [|z y]; [contradiction|]. cbn in F, Hd. apply negb_true_iff in F.
      assert (K : ~ In h y).
      { intros K. assert (existsb (Nat.eqb h) y = true); [|congruence]. apply existsb_exists. exists h. split; [exact K|apply Nat.eqb_refl]. }
      destruct (Nat.eqb z h) eqn:Z; [contradiction|]. destruct Hd as [->|Hd]; [now rewrite Nat.eqb_refl in Z|contradiction].
  Qed.
  Lemma mro_NoDup P : types P -> forall c, NoDup (mro P c).
  Proof.
    induction 1 as [|P meta bases messages body P' T IH B N M D]; intros c.
    - unfold mro. destruct c; constructor.
    - pose proof (types_good P T) as G.
      unfold define_type in D. destruct (if meta || _ then _ else _) as [[[m vs] attrs]|]; [|discriminate]. cbn [rbind] in D.
      destruct (merge (S (length P)) _) as [l|] eqn:R; [|discriminate]. injection D as <-.
      destruct (Nat.lt_ge_cases c (length P)) as [L|L].
      + rewrite mro_app by exact L. apply IH.
      + unfold mro. rewrite nth_error_app2 by exact L. destruct (c - length P) as [|x]; [|destruct x; constructor].
        cbn. constructor; [|now apply (merge_NoDup _ _ _ R)].
        rewrite (merge_in _ _ _ R). intros (y & Hy & Hd). apply in_app_iff in Hy as [Hy|[<-|[]]].
        * apply in_map_iff in Hy as (b & <- & _). apply (mro_bound P G) in Hd. lia.
        * apply B in Hd. lia.
  Qed.

  Section Single.
    Variables (P : list (tcls A)) (meta : bool) (b : tid) (messages : option (list (key * emsg)))
              (body : list (key * tattr A)) (P' : list (tcls A)).
    Hypotheses (T : types P) (B : b < length P) (N : NoDup (map fst body))
               (M : forall d, messages = Some d -> NoDup (map fst d))
               (D : define_type P meta [b] messages body = Ok P').
    Let B' : forall c, In c [b] -> c < length P. Proof. intros c [<-|[]]; exact B. Qed.

    Lemma single_mro : mro P' (length P) = length P :: mro P b.
    Proof using All.
      pose proof (mro_NoDup P T b) as ND. destruct (mro_head P b (types_good P T) B) as (l & Hl).
      unfold define_type in D. cbn [map app] in D. rewrite Hl in D, ND |- *.
      destruct (if meta || _ then _ else _) as [[[m vs] attrs]|]; [|discriminate]. cbn [rbind] in D.
      destruct (merge (S (length P)) _) as [r|] eqn:R; [|discriminate]. injection D as <-.
      apply merge_single in R; [|exact ND]. unfold mro. rewrite nth_error_app2 by lia. rewrite Nat.sub_diag. cbn. now rewrite R.
    Qed.
    Lemma single_attr {C} (get : tcls A -> option C) k : nth_error P' (length P) = Some k -> get k = None ->
      attr_of get P' (length P) = attr_of get P b.
    Proof using All.
      intros E H. unfold attr_of. rewrite single_mro. cbn. rewrite E, H.
      destruct (stm_class P meta [b] messages body P' D) as (k' & -> & _). apply first_in_app.
      intros d Hd. apply (mro_bound P (types_good P T)) in Hd. lia.
    Qed.
    Theorem inherited_validator x self : dget x body = None -> method P' (length P) self x = method P b self x.
    Proof using All.
      intros X. destruct (stm_class P meta [b] messages body P' D) as (k & _ & (_ & _ & _ & HX) & E).
      unfold method. rewrite (single_attr _ k E); [reflexivity|].
      destruct (tc_meta k).
      - destruct HX as (_ & _ & Q). destruct (prepare_attrs_get _ _ x Q) as (-> & _). now rewrite X.
      - destruct HX as (_ & _ & ->). exact X.
    Qed.
    Theorem validators_of_a_subclass : type_class P' (length P) ->
      validator_names P' (length P) = validator_names P b ++
        filter (fun x => is_validate x && negb (kmem x (validator_names P b))) (map fst body).
    Proof using All.
      intros K. rewrite (order_of_validators P meta [b] messages body P' T B' N M D K). cbn. rewrite app_nil_r.
      rewrite <- add_names_nil, fold_left_app, add_names_nil, add_names.
      pose proof (validators_once P b T) as ND.
      rewrite (firsts_id _ ND). f_equal. rewrite firsts_id by (apply NoDup_filter'; exact N). rewrite filter_filter. apply filter_ext. reflexivity.
    Qed.
  End Single.

  (** ** Messages *)
  Lemma leftmost_app {C} (f : tid -> option C) l m :
    leftmost f (l ++ m) = match leftmost f l with Some b => Some b | None => leftmost f m end.
  Proof. induction l as [|c l IH]; cbn; [reflexivity|]. now destruct (f c). Qed.
  Lemma message_get P c (k : key) : message P c k = match attr_of tc_messages P c with Some m => dget k m | None => None end.
  Proof. unfold message, field_messages. cbn. now destruct (attr_of tc_messages P c). Qed.
  Lemma attr_messages_NoDup P c m : good P -> attr_of tc_messages P c = Some m -> NoDup (dkeys m).
  Proof.
    intros G. unfold attr_of. induction (mro P c) as [|d l IH]; cbn; [discriminate|].
    destruct (nth_error P d) as [k|] eqn:E; [|exact IH]. destruct (tc_messages k) as [m'|] eqn:X; [|exact IH].
    intros H. injection H as <-. eapply (g_msgs P G); eauto.
  Qed.
  Lemma collected_messages P (k : key) : good P -> forall bases s,
    dget k (fst (fold_left (add_type P) (rev bases) s)) =
    match leftmost (fun b => message P b k) bases with Some m => Some m | None => dget k (fst s) end.
  Proof.
    intros G. induction bases as [|b bases IH]; intros s; [reflexivity|]. cbn [rev leftmost]. rewrite fold_left_app. cbn [fold_left].
    rewrite message_get. unfold add_type at 1. cbn [fst]. destruct (attr_of tc_messages P b) as [m|] eqn:E; [|apply IH].
    rewrite dget_dupdate by (eapply attr_messages_NoDup; eauto). destruct (dget k m); [reflexivity|apply IH].
  Qed.
  Section Messages.
    Variables (P : list (tcls A)) (meta : bool) (bases : list tid) (messages : option (list (key * emsg)))
              (body : list (key * tattr A)) (P' : list (tcls A)).
    Hypotheses (T : types P) (B : forall b, In b bases -> b < length P) (N : NoDup (map fst body))
               (M : forall d, messages = Some d -> NoDup (map fst d))
               (D : define_type P meta bases messages body = Ok P').
    Theorem which_message (k : key) given : type_class P' (length P) -> NoDup (map fst given) ->
      dget k (field_messages P' (length P) given) =
      match dget k given with
      | Some m => Some m
      | None => match (match messages with Some d => dget k d | None => None end) with
                | Some m => Some m
                | None => leftmost (fun b => message P b k) bases
                end
      end.
    Proof using All.
      intros (j & E & Hm) ND. unfold field_messages. rewrite dget_dupdate by exact ND. destruct (dget k given); [reflexivity|].
      rewrite (stm_attr P meta bases messages body P' T B N M D _ j E).
      destruct (stm_class P meta bases messages body P' D) as (k' & _ & (_ & _ & _ & HX) & E').
      assert (k' = j) by congruence. subst k'. rewrite Hm in HX. destruct HX as (-> & _).
      rewrite dget_dupdate.
      2:{ destruct messages as [d|]; [now apply M|constructor]. }
      rewrite (collected_messages P k (types_good P T)). cbn. destruct messages as [d|]; cbn; [destruct (dget k d)|]; auto;
        now destruct (leftmost _ bases).
    Qed.
  End Messages.
  Theorem known_message P : types P -> forall c d j m (k : key), type_class P c -> In d (mro P c) -> type_class P d ->
    nth_error P d = Some j -> tc_messages j = Some m -> In k (dkeys m) -> message P c k <> None.
  Proof.
    induction 1 as [|P meta bases messages body P' T IH B N M D]; intros c d j m k Tc Hd Td E Hm Hk.
    { unfold mro in Hd. destruct c; contradiction. }
    pose proof (types_class P meta bases messages body P' T B N M D) as T'.
    destruct (mro_bound P' (types_good P' T') c d Hd) as (Ld & Lc).
    destruct (stm_class P meta bases messages body P' D) as (n & HP & C & EN).
    rewrite HP, app_length in Lc. cbn in Lc.
    destruct (Nat.eq_dec c (length P)) as [->|NE].
    - pose proof (which_message P meta bases messages body P' T B N M D k [] Tc (NoDup_nil _)) as W.
      fold (message P' (length P) k) in W.
      assert (Hd' := Hd). unfold mro in Hd'. rewrite EN in Hd'. destruct C as (Cb & Cm & (l & Cl & CL) & CX). rewrite Cl in Hd'.
      destruct Hd' as [<-|Hd'].
      + assert (n = j) by congruence. subst n. rewrite message_get.
        rewrite (stm_attr P meta bases messages body P' T B N M D _ j EN), Hm. intros K. apply dget_None_keys in K. contradiction.
      + apply CL in Hd' as (b & Hb & Hdb).
        assert (Hdb' : In d (mro P b)).
        { destruct Hdb as [->|Hdb]; [|exact Hdb]. destruct (mro_head P b (types_good P T) (B b Hb)) as (l0 & ->). now left. }
        assert (Tdp : type_class P d).
        { destruct Td as (j' & Ej & Tj). exists j'. split; [|exact Tj]. rewrite HP, nth_error_app1 in Ej; [exact Ej|].
          apply (mro_bound P (types_good P T)) in Hdb'. specialize (B b Hb). lia. }
        assert (Ed : nth_error P d = Some j).
        { rewrite HP, nth_error_app1 in E; [exact E|]. apply (mro_bound P (types_good P T)) in Hdb'. specialize (B b Hb). lia. }
        pose proof (meta_up P b (types_good P T) d Hdb' Tdp) as Tb.
        pose proof (IH b d j m k Tb Hdb' Tdp Ed Hm Hk) as R.
        change (dget k (field_messages P' (length P) [])) with (message P' (length P) k) in W. cbn [dget] in W. rewrite W.
        assert (L : leftmost (fun b => message P b k) bases <> None).
        { clear - Hb R. induction bases as [|b' l IH]; [contradiction|]. cbn [leftmost].
          destruct (message P b' k) eqn:X; [discriminate|]. destruct Hb as [->|Hb]; [contradiction|]. now apply IH. }
        destruct messages as [dm|]; [|exact L]. destruct (dget k dm); [discriminate|exact L].
    - assert (L : c < length P) by lia.
      rewrite message_get, (stm_old_attr P meta bases messages body P' T B N M D tc_messages c L), <- message_get.
      assert (Hd' : In d (mro P c)) by (rewrite HP, mro_app in Hd by exact L; exact Hd).
      assert (Ld' : d < length P) by lia.
      assert (Q : forall e, e < length P -> type_class P' e -> type_class P e).
      { intros e Le (i & Ei & Ti). exists i. split; [|exact Ti]. now rewrite HP, nth_error_app1 in Ei. }
      apply (IH c d j m k); auto. now rewrite HP, nth_error_app1 in E.
  Qed.
  Theorem no_message_lost P : types P -> forall c d (k : key), type_class P c -> In d (mro P c) -> type_class P d ->
    message P d k <> None -> message P c k <> None.
  Proof.
    intros T c d k Tc Hd Td H. assert (Td' := Td). destruct Td' as (j & E & Tj).
    assert (R : exists m, tc_messages j = Some m /\ message P d k = dget k m).
    { assert (R : exists m, tc_messages j = Some m).
      { clear - T E Tj. revert d j E Tj. induction T as [|P meta bases messages body P' T IH B N M D]; intros d j E Tj; [destruct d; discriminate|].
        destruct (stm_class P meta bases messages body P' D) as (n & HP & (_ & _ & _ & CX) & EN).
        destruct (Nat.lt_ge_cases d (length P)) as [L|L].
        - rewrite HP, nth_error_app1 in E by exact L. eauto.
        - assert (d = length P) as ->.
          { assert (H : d < length P') by (apply nth_error_Some; congruence). rewrite HP, app_length in H. cbn in H. lia. }
          assert (n = j) by congruence. subst n. rewrite Tj in CX. destruct CX as (-> & _). eauto. }
      destruct R as (m & Hm). exists m. split; [exact Hm|].
      rewrite message_get. unfold attr_of, mro. rewrite E. destruct (g_mro P (types_good P T) d j E) as (l & -> & _). cbn.
      now rewrite E, Hm. }
    destruct R as (m & Hm & R). apply (known_message P T c d j m k Tc Hd Td E Hm). apply dget_keys. congruence.
  Qed.
  Theorem ancestors P meta bases messages body P' : types P -> (forall b, In b bases -> b < length P) ->
    define_type P meta bases messages body = Ok P' ->
    NoDup (mro P' (length P)) /\
    forall d, In d (mro P' (length P)) <-> d = length P \/ exists b, In b bases /\ In d (mro P b).
  Proof.
    intros T B D. pose proof (types_good P T) as G.
    destruct (stm_class P meta bases messages body P' D) as (n & HP & (_ & _ & (l & Hl & HL) & _) & EN).
    unfold mro at 1 2. rewrite EN. split.
    - unfold define_type in D. destruct (if meta || _ then _ else _) as [[[m vs] attrs]|]; [|discriminate]. cbn [rbind] in D.
      destruct (merge (S (length P)) _) as [r|] eqn:R; [|discriminate]. injection D as D.
      rewrite <- D, nth_error_app2, Nat.sub_diag in EN by lia. injection EN as <-. cbn.
      constructor; [|now apply (merge_NoDup _ _ _ R)].
      rewrite (merge_in _ _ _ R). intros (y & Hy & Hd). apply in_app_iff in Hy as [Hy|[<-|[]]].
      + apply in_map_iff in Hy as (b & <- & _). apply (mro_bound P G) in Hd. lia.
      + apply B in Hd. lia.
    - intros d. rewrite Hl. cbn. rewrite HL. split.
      + intros [<-|(b & Hb & [->|H])]; [now left|right..]; exists b; split; auto.
        destruct (mro_head P b G (B b Hb)) as (q & ->). now left.
      + intros [->|(b & Hb & H)]; [now left|right; eauto].
  Qed.
  Theorem classes_unchanged P meta bases messages body P' : types P -> define_type P meta bases messages body = Ok P' ->
    forall c given self, c < length P ->
    field_messages P' c given = field_messages P c given /\ validator_names P' c = validator_names P c /\
    field_validators P' c self = field_validators P c self.
  Proof.
    intros T D c given self L. pose proof (types_good P T) as G.
    destruct (stm_class P meta bases messages body P' D) as (n & -> & _).
    assert (H : forall C (get : tcls A -> option C), attr_of get (P ++ [n]) c = attr_of get P c) by (intros; now apply attr_of_app).
    unfold field_messages, field_validators, validator_names, method. rewrite !H. repeat split.
    (* the functions *)
    assert (E : forall l, map (fun x => match attr_of (fun k => dget x (tc_attrs k)) (P ++ [n]) c with
        | Some (TFun f) => bind self f | _ => PF 0 false 0 true (fun _ => Some (XPy ETypeError)) end) l =
        map (fun x => match attr_of (fun k => dget x (tc_attrs k)) P c with
        | Some (TFun f) => bind self f | _ => PF 0 false 0 true (fun _ => Some (XPy ETypeError)) end) l).
    { intros l. apply map_ext. intros x. now rewrite H. }
    now rewrite E.
  Qed.
End Facts.

(** ** Calls *)
Section Calls.
  Context {A : Type}.
  Theorem context_is_optional (body : list A -> option exn) self v ctx :
    call (prepare 2 (PF 1 false 0 false body)) [v; ctx] = body [v] /\
    call (prepare 2 (PF 2 false 0 false body)) [v; ctx] = body [v; ctx] /\
    call (bind self (prepare 3 (PF 2 false 0 false body))) [v; ctx] = body [self; v] /\
    call (bind self (prepare 3 (PF 3 false 0 false body))) [v; ctx] = body [self; v; ctx] /\
    call (bind self (prepare 3 (PF 3 false 1 false body))) [v; ctx] = body [self; v; ctx].
  Proof. repeat split. Qed.
  Theorem bound_method_fails (body : list A -> option exn) self v ctx :
    call (prepare 2 (bind self (PF 2 false 0 false body))) [v; ctx] = Some (XPy ETypeError).
  Proof. reflexivity. Qed.
End Calls.

(** A validator that is no function. *)
Lemma odd_validator A (P : list (tcls A)) meta bases messages body x :
  (meta = true \/ exists b, In b bases /\ type_class P b) -> validator_name x -> In (x, TOther) body ->
  define_type P meta bases messages body = Raise (XPy ETypeError).
Proof.
  intros M V I. unfold define_type.
  assert (meta || existsb (fun b => match nth_error P b with Some k => tc_meta k | None => false end) bases = true) as ->.
  { destruct M as [->|(b & Ib & k & N & T)]; [reflexivity|]. apply orb_true_iff. right. apply existsb_exists. exists b. split; [assumption|]. now rewrite N. }
  destruct (fold_left (add_type P) (rev bases) ([], [])) as [m vs].
  assert (prepare_attrs body = Raise (XPy ETypeError)) as ->; [|reflexivity]. apply is_validate_iff in V.
  induction body as [|[y t] body IH]; [contradiction|]. cbn [prepare_attrs]. destruct I as [Q|I].
  - injection Q as -> ->. rewrite V. reflexivity.
  - destruct (is_validate y); [destruct t; [|reflexivity]|]; cbn [rbind]; now rewrite IH.
Qed.

(** A class statement that fails fails with a TypeError. *)
Lemma failing_class A (P : list (tcls A)) meta bases messages body e :
  define_type P meta bases messages body = Raise e -> e = XPy ETypeError.
Proof.
  unfold define_type.
  assert (PA : forall b e, prepare_attrs (A := A) b = Raise e -> e = XPy ETypeError).
  { clear. induction b as [|[x t] b IH]; cbn [prepare_attrs]; intros e; [discriminate|].
    destruct (is_validate x); [destruct t|]; cbn [rbind]; try (intros [= <-]; reflexivity);
      (destruct (prepare_attrs b) eqn:Q; cbn [rbind]; [discriminate|intros [= <-]; now apply IH]). }
  destruct (meta || _)%bool; cbn zeta.
  - destruct (fold_left _ _ _) as [m vs]. destruct (prepare_attrs body) eqn:Q; cbn [rbind].
    + destruct (merge _ _); [discriminate|congruence].
    + intros [= <-]. now apply PA in Q.
  - cbn [rbind]. destruct (merge _ _); [discriminate|congruence].
Qed.

Lemma prepared_again A (body : list A -> option exn) self v ctx :
  call (bind self (prepare 3 (prepare 3 (PF 2 false 0 false body)))) [v; ctx] = Some (XPy ETypeError) /\
  call (prepare 2 (prepare 2 (PF 1 false 0 false body))) [v; ctx] = Some (XPy ETypeError) /\
  call (bind self (prepare 3 (prepare 3 (PF 3 false 0 false body)))) [v; ctx] = body [self; v; ctx] /\
  call (prepare 2 (prepare 2 (PF 2 false 0 false body))) [v; ctx] = body [v; ctx].
Proof. repeat split; reflexivity. Qed.
