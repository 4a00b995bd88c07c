(** Data objects. *)
From Coq Require Import Lia.
From Verif.Model Require Import Py Core Cyclic DataObj.
From Verif.Spec Require Import DataObjSpec.
From Verif.Proofs Require Import DictLemmas.

(** ** Objects at addresses *)
Lemma put_length h a o : length (obj_put h a o) = length h.
Proof. revert a; induction h as [|p h IH]; intros [|a]; cbn; auto. Qed.
Lemma put_same h a o : a < length h -> nth_error (obj_put h a o) a = Some o.
Proof. revert a; induction h as [|p h IH]; intros [|a]; cbn; intros H; try lia; [reflexivity|apply IH; lia]. Qed.
Lemma put_other h a b o : b <> a -> nth_error (obj_put h a o) b = nth_error h b.
Proof. revert a b; induction h as [|p h IH]; intros [|a] [|b]; cbn; intros H; try reflexivity; try lia. apply IH. lia. Qed.
Lemma data_lt h a d : is_data h a d -> a < length h.
Proof. intros H. apply nth_error_Some. unfold is_data in H. congruence. Qed.
Lemma dict_of_data h a d : is_data h a d -> dict_of h a = d.
Proof. unfold is_data, dict_of, obj_at. now intros ->. Qed.
Lemma put_only h a o : only_at h (obj_put h a o) a.
Proof. split; [apply put_length|intros b N; now apply put_other]. Qed.
Lemma put_data h a d e : is_data h a d -> is_data (put_dict h a e) a e.
Proof. intros H. apply put_same. eapply data_lt; eauto. Qed.

Lemma name_in_spec x l : name_in x l = true <-> In x l.
Proof.
  unfold name_in. rewrite existsb_exists. split.
  - intros (y & I & E). destruct (pstr_eqb_spec x y); [subst; exact I|discriminate].
  - intros I. exists x. split; [exact I|]. now destruct (pstr_eqb_spec x x).
Qed.
Lemma class_private x : In x (class_names ++ slot_names) -> hd_error x = Some 95%N.
Proof.
  assert (F : forallb (fun x => match x with 95%N :: _ => true | _ => false end) (class_names ++ slot_names) = true) by reflexivity.
  rewrite forallb_forall in F. intros I. specialize (F x I). destruct x as [|c r]; [discriminate|]. cbn.
  destruct c as [|p]; [discriminate|]. do 7 (destruct p as [p|p|]; try discriminate). reflexivity.
Qed.
Lemma public_names x : public x -> name_in x class_names = false /\ name_in x slot_names = false.
Proof.
  intros P. split; destruct (name_in x _) eqn:E; try reflexivity; apply name_in_spec in E;
    destruct P; apply class_private; apply in_or_app; auto.
Qed.
Lemma class_and_slots x : name_in x slot_names = true -> name_in x class_names = false.
Proof.
  intros H. apply name_in_spec in H. cbn in H.
  destruct H as [<-|[<-|[<-|[]]]]; reflexivity.
Qed.

(** ** Attributes and subscription *)
Section Attr.
  Context (h : dheap) (a : nat) (d : list (key * hval)) (HD : is_data h a d).
  Lemma public_attr x : public x ->
    (forall v, dget (KStr x) d = Some v -> obj_getattr h a x = Ok (AStored v) /\ obj_getitem h a (KStr x) = Ok v) /\
    (dget (KStr x) d = None -> obj_getattr h a x = Raise (XPy EAttributeError) /\ obj_getitem h a (KStr x) = Raise (XPy EKeyError)).
  Proof.
    intros P. destruct (public_names x P) as [C S]. unfold obj_getattr, obj_getitem. rewrite S, C, (dict_of_data _ _ _ HD).
    split; [intros v ->; auto|intros ->; auto].
  Qed.
  Lemma public_set x v : public x -> obj_setattr h a x v = obj_setitem h a (KStr x) v.
  Proof. intros P. destruct (public_names x P) as [C S]. unfold obj_setattr, obj_setitem. now rewrite S. Qed.
  Lemma public_del x : public x -> In (KStr x) (dkeys d) -> obj_delattr h a x = obj_delitem h a (KStr x).
  Proof.
    intros P I. destruct (public_names x P) as [C S]. unfold obj_delattr, obj_delitem. rewrite S, (dict_of_data _ _ _ HD).
    apply dmem_In in I. now rewrite I.
  Qed.
  Lemma set_item x v : exists h' d', obj_setitem h a x v = (h', Ok tt) /\ only_at h h' a /\ is_data h' a d' /\
    forall y, dget y d' = if key_eqb y x then Some v else dget y d.
  Proof.
    unfold obj_setitem. eexists _, _. split; [reflexivity|]. split; [apply put_only|]. split; [eapply put_data; eauto|].
    intros y. rewrite (dict_of_data _ _ _ HD). apply dget_dset.
  Qed.
  Lemma del_item x : NoDup (dkeys d) ->
    (In x (dkeys d) -> exists h' d', obj_delitem h a x = (h', Ok tt) /\ only_at h h' a /\ is_data h' a d' /\
       forall y, dget y d' = if key_eqb y x then None else dget y d) /\
    (~ In x (dkeys d) -> obj_delitem h a x = (h, Raise (XPy EKeyError))).
  Proof.
    intros ND. unfold obj_delitem. rewrite (dict_of_data _ _ _ HD). split; intros I.
    - apply dmem_In in I. rewrite I. eexists _, _. split; [reflexivity|]. split; [apply put_only|]. split; [eapply put_data; eauto|].
      intros y. now apply dget_ddel.
    - apply dmem_nIn in I. now rewrite I.
  Qed.
  Lemma stored_hides x v : dget (KStr x) d = Some v -> ~ In x slot_names -> obj_getattr h a x = Ok (AStored v).
  Proof.
    intros G S. unfold obj_getattr. destruct (name_in x slot_names) eqn:E; [apply name_in_spec in E; contradiction|].
    now rewrite (dict_of_data _ _ _ HD), G.
  Qed.
  Lemma slots_first x : In x slot_names -> obj_getattr h a x = Ok (AClass x).
  Proof. intros S. unfold obj_getattr. apply name_in_spec in S. now rewrite S. Qed.

  Lemma method_free {A} x (b : act A) : dget (k x) d = None -> method h a x b = b.
  Proof. intros N. unfold method. rewrite (dict_of_data _ _ _ HD). apply dmem_dget in N. now rewrite N. Qed.
  Lemma method_hidden {A} x (b : act A) : dget (k x) d <> None -> method h a x b = (h, Raise (XPy ETypeError)).
  Proof. intros N. unfold method. rewrite (dict_of_data _ _ _ HD). unfold dmem. destruct (dget (k x) d); [reflexivity|congruence]. Qed.

  Lemma contents : obj_len h a = length d /\ obj_iter h a = d /\ (forall x, obj_contains h a x = true <-> exists v, In (x, v) d) /\
    (dget (k "_keys") d = None -> obj_keys h a = (h, Ok (map fst d))) /\
    (dget (k "_clear") d = None -> exists h', obj_clear h a = (h', Ok tt) /\ only_at h h' a /\ is_data h' a []).
  Proof.
    unfold obj_len, obj_iter, obj_contains. rewrite (dict_of_data _ _ _ HD). split; [reflexivity|]. split; [reflexivity|]. split; [|split].
    - intros x. rewrite dmem_In. unfold dkeys. rewrite in_map_iff. split.
      + intros ([y v] & <- & I). now exists v.
      + intros (v & I). now exists (x, v).
    - intros N. unfold obj_keys. now rewrite (method_free _ _ N), (dict_of_data _ _ _ HD).
    - intros N. unfold obj_clear. rewrite (method_free _ _ N). eexists. split; [reflexivity|]. split; [apply put_only|].
      eapply put_data; eauto.
  Qed.
  Lemma get_item_default x w : dget (k "_get") d = None ->
    obj_get h a x w = (h, Ok match dget x d with Some v => v | None => w end).
  Proof. intros N. unfold obj_get. rewrite (method_free _ _ N), (dict_of_data _ _ _ HD). reflexivity. Qed.
  Lemma pop_item x w : NoDup (dkeys d) -> dget (k "_pop") d = None ->
    (forall v, dget x d = Some v -> exists h' d', obj_pop h a x w = (h', Ok v) /\ only_at h h' a /\ is_data h' a d' /\
       forall y, dget y d' = if key_eqb y x then None else dget y d) /\
    (dget x d = None -> obj_pop h a x w = (h, match w with Some v => Ok v | None => Raise (XPy EKeyError) end)).
  Proof.
    intros ND N. unfold obj_pop. rewrite (method_free _ _ N), (dict_of_data _ _ _ HD). split.
    - intros v ->. eexists _, _. split; [reflexivity|]. split; [apply put_only|]. split; [eapply put_data; eauto|].
      intros y. now apply dget_ddel.
    - intros ->. now destruct w.
  Qed.
  Lemma setdefault_item x w : dget (k "_setdefault") d = None ->
    (forall v, dget x d = Some v -> obj_setdefault h a x w = (h, Ok v)) /\
    (dget x d = None -> exists h' d', obj_setdefault h a x w = (h', Ok w) /\ only_at h h' a /\ is_data h' a d' /\
       d' = d ++ [(x, w)]).
  Proof.
    intros N. unfold obj_setdefault. rewrite (method_free _ _ N), (dict_of_data _ _ _ HD). split.
    - now intros v ->.
    - intros G. rewrite G. eexists _, _. split; [reflexivity|]. split; [apply put_only|]. split; [eapply put_data; eauto|].
      apply dkeys_dset_new. now apply dget_None_keys.
  Qed.
End Attr.

(** ** Updates *)
Lemma dget_app {A} x (d e : list (key * A)) : dget x (d ++ e) = match dget x d with Some v => Some v | None => dget x e end.
Proof. induction d as [|[y w] d IH]; cbn; [reflexivity|]. destruct (key_eqb x y); auto. Qed.
Lemma dupdate_last {A} (e : list (key * A)) : forall d x,
  dget x (dupdate d e) = match dget x (rev e) with Some v => Some v | None => dget x d end.
Proof.
  unfold dupdate. induction e as [|[y w] e IH]; intros d x; cbn [fold_left rev fst snd]; [reflexivity|].
  rewrite IH, dget_dset, dget_app. destruct (dget x (rev e)); [reflexivity|]. cbn. destruct (key_eqb x y); reflexivity.
Qed.
Lemma dupdate_twice {A} (d e f : list (key * A)) : dupdate (dupdate d e) f = dupdate d (e ++ f).
Proof. unfold dupdate. now rewrite fold_left_app. Qed.

Lemma update_spec h a d s kw l : is_data h a d -> dget (k "_update") d = None ->
  ~ In (k "self") (dkeys kw) -> ~ In (k "source") (dkeys kw) -> source_pairs h s = Ok l ->
  exists h' d', obj_update h a (Some s) kw = (h', Ok tt) /\ only_at h h' a /\ is_data h' a d' /\
    forall x, dget x d' = match dget x (rev (l ++ kw)) with Some v => Some v | None => dget x d end.
Proof.
  intros HD N K1 K2 S. unfold obj_update. rewrite (method_free _ _ _ HD _ _ N). unfold update_args.
  apply dmem_nIn in K1. apply dget_None_keys in K2. rewrite K1, K2. unfold update_body. rewrite S.
  eexists _, _. split; [reflexivity|]. split; [apply put_only|]. split; [eapply put_data; eauto|].
  intros x. rewrite dupdate_twice, dupdate_last, (dict_of_data _ _ _ HD). reflexivity.
Qed.
Lemma update_no_source h a d kw : is_data h a d -> ~ In (k "source") (dkeys kw) ->
  obj_update h a None kw = (h, Raise (XPy ETypeError)).
Proof.
  intros HD K. unfold obj_update, method. destruct (dmem _ _); [reflexivity|]. unfold update_args.
  apply dget_None_keys in K. rewrite K. destruct (dmem _ _); reflexivity.
Qed.
Lemma update_source_kw h a d s kw : is_data h a d -> In (k "source") (dkeys kw) ->
  obj_update h a (Some s) kw = (h, Raise (XPy ETypeError)).
Proof.
  intros HD K. unfold obj_update, method. destruct (dmem _ _); [reflexivity|]. unfold update_args.
  apply dget_keys in K. destruct (dget _ kw); [|congruence]. destruct (dmem _ _); reflexivity.
Qed.

Lemma nth_new {A} (l : list A) x : nth_error (l ++ [x]) (length l) = Some x.
Proof. rewrite nth_error_app2, Nat.sub_diag; auto. Qed.
Lemma kept_app (h e : dheap) : kept h (h ++ e).
Proof. intros a L. now apply nth_error_app1. Qed.
Lemma kept_put (h h' : dheap) b o : length h <= b -> kept h h' -> kept h (obj_put h' b o).
Proof. intros L K a La. rewrite put_other; [auto|lia]. Qed.

Lemma source_pairs_app h e s l : source_pairs h s = Ok l -> source_pairs (h ++ e) s = Ok l.
Proof.
  destruct s as [|b|p]; cbn; auto. unfold obj_at. destruct (nth_error h b) as [o|] eqn:E; [|discriminate].
  rewrite nth_error_app1 by (apply nth_error_Some; congruence). now rewrite E.
Qed.
Lemma new_spec h args kw l : ~ In (k "self") (dkeys kw) -> ~ In (k "source") (dkeys kw) ->
  match args with [] => l = [] | s :: _ => source_pairs h s = Ok l end ->
  exists h' d, obj_new h args kw = (h', Ok (length h)) /\ length h' = S (length h) /\ kept h h' /\ is_data h' (length h) d /\
    forall x, dget x d = dget x (rev (l ++ kw)).
Proof.
  intros K1 K2 S. unfold obj_new. pose proof K1 as K1'. apply dmem_nIn in K1'. rewrite K1'.
  assert (HD : is_data (h ++ [DData []]) (length h) []) by apply nth_new.
  set (s := match args with [] => SPairs [] | s :: _ => s end).
  assert (SP : source_pairs (h ++ [DData []]) s = Ok l).
  { subst s. destruct args as [|s r]; [now subst|]. now apply source_pairs_app. }
  destruct (update_spec _ _ _ s kw l HD eq_refl K1 K2 SP) as (h' & d & E & (L & O) & D & G). rewrite E.
  exists h', d. split; [reflexivity|]. split; [rewrite L, app_length; cbn; lia|]. split.
  - intros a La. rewrite O by lia. now apply nth_error_app1.
  - split; [exact D|]. intros x. rewrite G. now destruct (dget x (rev _)).
Qed.
Lemma new_reserved h args kw : In (k "self") (dkeys kw) \/ In (k "source") (dkeys kw) ->
  snd (obj_new h args kw) = Raise (XPy ETypeError).
Proof.
  intros I. unfold obj_new. destruct (dmem (k "self") kw) eqn:E; [reflexivity|].
  destruct I as [I|I]; [apply dmem_In in I; congruence|].
  rewrite (update_source_kw _ _ [] _ kw); [reflexivity|apply nth_new|exact I].
Qed.

Lemma dupdate_fresh {A} (e : list (key * A)) : forall d, NoDup (dkeys (d ++ e)) -> dupdate d e = d ++ e.
Proof.
  unfold dupdate. induction e as [|[y w] e IH]; intros d ND; cbn; [now rewrite app_nil_r|].
  rewrite dkeys_dset_new.
  - rewrite IH, <- app_assoc; [reflexivity|]. now rewrite <- app_assoc.
  - unfold dkeys in *. rewrite map_app in ND. cbn in ND. apply NoDup_remove_2 in ND. intros I. apply ND. apply in_or_app. now left.
Qed.
Lemma same_obj_refl v : same_obj v v = true.
Proof. destruct v; cbn; apply Nat.eqb_refl. Qed.
Lemma same_obj_eq v w : same_obj v w = true <-> v = w.
Proof. destruct v, w; cbn; split; try discriminate; try congruence; rewrite ?Nat.eqb_eq; congruence. Qed.

Lemma copy_spec h a d : is_data h a d -> NoDup (dkeys d) -> dget (k "_copy") d = None ->
  exists h', obj_copy h a = (h', Ok (length h)) /\ length h' = S (length h) /\ kept h h' /\ is_data h' (length h) d.
Proof.
  intros HD ND N. unfold obj_copy. rewrite (method_free _ _ _ HD _ _ N). unfold obj_new.
  change (dmem (k "self") []) with false. cbv iota.
  assert (HD' : is_data (h ++ [DData []]) (length h) []) by apply nth_new.
  assert (SP : source_pairs (h ++ [DData []]) (SRef a) = Ok d).
  { apply source_pairs_app. cbn. unfold obj_at. unfold is_data in HD. now rewrite HD. }
  unfold obj_update. rewrite (method_free _ _ _ HD' "_update") by reflexivity. unfold update_args.
  change (dmem (k "self") []) with false. change (dget (k "source") []) with (@None hval). cbv iota. unfold update_body. rewrite SP.
  cbn [rbind]. eexists. split; [reflexivity|]. unfold put_dict. split; [rewrite put_length, app_length; cbn; lia|]. split.
  - apply kept_put; [lia|apply kept_app].
  - unfold is_data. rewrite put_same by (rewrite app_length; cbn; lia). do 2 f_equal.
    rewrite (dict_of_data _ _ _ HD'). cbn [dupdate fold_left]. change (fold_left _ [] ?x) with x.
    rewrite (dupdate_fresh d []) by exact ND. reflexivity.
Qed.

(** ** Defaults *)
Lemma only_trans h h1 h2 a : only_at h h1 a -> only_at h1 h2 a -> only_at h h2 a.
Proof. intros [L O] [L' O']. split; [congruence|]. intros b N. rewrite O', O; auto. Qed.
Lemma only_refl h a : only_at h h a.
Proof. now split. Qed.
Lemma setdefaults_loop_spec l : forall h a d, is_data h a d -> dget (k "_setdefault") d = None ->
  ~ In (k "_setdefault") (dkeys l) ->
  exists h' d', setdefaults_loop h a l = (h', Ok tt) /\ only_at h h' a /\ is_data h' a d' /\
    forall x, dget x d' = match dget x d with Some v => Some v | None => dget x l end.
Proof.
  induction l as [|[y w] l IH]; intros h a d HD N NI; cbn [setdefaults_loop].
  - exists h, d. split; [reflexivity|]. split; [apply only_refl|]. split; [exact HD|]. intros x. now destruct (dget x d).
  - destruct (setdefault_item h a d HD y w N) as [P Q].
    destruct (dget y d) as [v|] eqn:G.
    + rewrite (P v eq_refl). destruct (IH h a d HD N) as (h' & d' & E & O & D & V).
      { intros I. apply NI. now right. }
      exists h', d'. split; [exact E|]. split; [exact O|]. split; [exact D|]. intros x. rewrite V. cbn [dget].
      destruct (dget x d) eqn:X; [reflexivity|]. destruct (key_eqb_spec x y) as [->|]; [congruence|reflexivity].
    + destruct (Q eq_refl) as (h1 & d1 & E1 & O1 & D1 & ->). rewrite E1.
      destruct (IH h1 a _ D1) as (h' & d' & E & O & D & V).
      { rewrite dget_app, N. cbn [dget]. destruct (key_eqb_spec (k "_setdefault") y) as [<-|]; [|reflexivity].
        destruct NI. now left. }
      { intros I. apply NI. now right. }
      exists h', d'. split; [exact E|]. split; [eapply only_trans; eauto|]. split; [exact D|]. intros x.
      rewrite V, dget_app. destruct (dget x d); [reflexivity|]. cbn [dget]. destruct (key_eqb x y); reflexivity.
Qed.
Lemma setdefaults_spec h a d s l : is_data h a d -> dget (k "_setdefaults") d = None -> dget (k "_setdefault") d = None ->
  source_pairs h s = Ok l -> ~ In (k "_setdefault") (dkeys l) ->
  exists h' d', obj_setdefaults h a s = (h', Ok a) /\ only_at h h' a /\ is_data h' a d' /\
    forall x, dget x d' = match dget x d with Some v => Some v | None => dget x l end.
Proof.
  intros HD N1 N2 S NI. unfold obj_setdefaults. rewrite (method_free _ _ _ HD _ _ N1), S.
  destruct (setdefaults_loop_spec l h a d HD N2 NI) as (h' & d' & E & R). rewrite E. exists h', d'. split; [reflexivity|exact R].
Qed.

(** ** Dictionaries *)
Definition grows (h h' : dheap) : Prop :=
  length h <= length h' /\ kept h h' /\
  forall a, length h <= a -> a < length h' -> exists d, nth_error h' a = Some (DDict d).
Lemma grows_refl h : grows h h.
Proof. split; [lia|]. split; [now intros a L|]. intros a L L'. lia. Qed.
Lemma grows_trans h h1 h2 : grows h h1 -> grows h1 h2 -> grows h h2.
Proof.
  intros (L & K & D) (L' & K' & D'). split; [lia|]. split.
  - intros a La. rewrite K', K; auto; lia.
  - intros a La La'. destruct (Nat.lt_ge_cases a (length h1)) as [C|C]; [|eauto]. rewrite K' by exact C. auto.
Qed.
Lemma grows_put h h1 b d : grows h h1 -> length h <= b -> grows h (obj_put h1 b (DDict d)).
Proof.
  intros (L & K & D) Lb. split; [rewrite put_length; exact L|]. split; [now apply kept_put|].
  intros a La La'. rewrite put_length in La'. destruct (Nat.eq_dec a b) as [->|N].
  - exists d. now apply put_same.
  - rewrite put_other by exact N. auto.
Qed.
Lemma grows_new h d : grows h (h ++ [DDict d]).
Proof.
  split; [rewrite app_length; lia|]. split; [apply kept_app|]. intros a La La'. rewrite app_length in La'. cbn in La'.
  replace a with (length h) by lia. exists d. apply nth_new.
Qed.
Lemma grows_data h h' a d : grows h h' -> is_data h a d <-> is_data h' a d.
Proof.
  intros (L & K & D). unfold is_data. split; intros H.
  - rewrite K; [exact H|]. apply nth_error_Some. congruence.
  - destruct (Nat.lt_ge_cases a (length h)) as [C|C]; [rewrite <- K; auto|].
    destruct (D a C) as (e & E); [apply nth_error_Some; congruence|]. congruence.
Qed.
Lemma data_at_spec h v c : data_at h v = Some c <-> v = HRef c /\ exists e, is_data h c e.
Proof.
  unfold data_at, is_data, obj_at. destruct v as [i|b]; [split; [discriminate|intros [? _]; discriminate]|].
  destruct (nth_error h b) as [[d|d|l]|] eqn:E; split; try discriminate.
  - intros [= <-]. eauto.
  - intros [[= <-] _]. reflexivity.
  - intros [[= <-] (e & X)]. congruence.
  - intros [[= <-] (e & X)]. congruence.
  - intros [[= <-] (e & X)]. congruence.
Qed.
Lemma data_at_none h v : data_at h v = None <-> ~ exists c e, v = HRef c /\ is_data h c e.
Proof.
  split.
  - intros N (c & e & -> & D). assert (X : data_at h (HRef c) = Some c) by (apply data_at_spec; eauto). congruence.
  - intros N. destruct (data_at h v) as [c|] eqn:E; [|reflexivity]. apply data_at_spec in E. destruct E as [-> (e & D)].
    destruct N. eauto.
Qed.

Definition conv (m : nat) (h h' : dheap) (p q : key * hval) : Prop :=
  fst q = fst p /\
  ((exists c e b', snd p = HRef c /\ is_data h c e /\ snd q = HRef b' /\ as_dict m h h' c b') \/
   (~ (exists c e, snd p = HRef c /\ is_data h c e) /\ snd q = snd p)).

Fixpoint as_dict_frame m h h1 h2 (K : forall a, m <= a -> a < length h1 -> nth_error h2 a = nth_error h1 a)
  c b (A : as_dict m h h1 c b) {struct A} : as_dict m h h2 c b.
Proof.
  destruct A as [a b d d' D L E F]. apply (as_dict_intro m h h2 a b d d'); [exact D|exact L| |].
  - rewrite K; [exact E|exact L|]. apply nth_error_Some. congruence.
  - clear D E. induction F as [|p q d d' [Q R] F IH]; constructor; [|exact IH]. split; [exact Q|].
    destruct R as [(c & e & b' & P1 & P2 & P3 & P4)|R]; [left|now right].
    exists c, e, b'. split; [exact P1|]. split; [exact P2|]. split; [exact P3|]. exact (as_dict_frame m h h1 h2 K c b' P4).
Qed.
Lemma conv_frame m h h1 h2 p q : (forall a, m <= a -> a < length h1 -> nth_error h2 a = nth_error h1 a) ->
  conv m h h1 p q -> conv m h h2 p q.
Proof.
  intros K [Q R]. split; [exact Q|]. destruct R as [(c & e & b' & P1 & P2 & P3 & P4)|R]; [left|now right].
  exists c, e, b'. repeat split; auto. eapply as_dict_frame; eauto.
Qed.
Fixpoint as_dict_weaken m m' h h' (L : m' <= m) c b (A : as_dict m h h' c b) {struct A} : as_dict m' h h' c b.
Proof.
  destruct A as [a b d d' D Lb E F]. apply (as_dict_intro m' h h' a b d d'); [exact D|lia|exact E|].
  clear D E. induction F as [|p q d d' [Q R] F IH]; constructor; [|exact IH]. split; [exact Q|].
  destruct R as [(c & e & b' & P1 & P2 & P3 & P4)|R]; [left|now right].
  exists c, e, b'. split; [exact P1|]. split; [exact P2|]. split; [exact P3|]. exact (as_dict_weaken m m' h h' L c b' P4).
Qed.
Fixpoint as_dict_source m h0 h h' (K : forall a d, is_data h0 a d <-> is_data h a d)
  c b (A : as_dict m h h' c b) {struct A} : as_dict m h0 h' c b.
Proof.
  destruct A as [a b d d' D L E F]. apply (as_dict_intro m h0 h' a b d d'); [now apply K|exact L|exact E|].
  clear D E. induction F as [|p q d d' [Q R] F IH]; constructor; [|exact IH]. split; [exact Q|].
  destruct R as [(c & e & b' & P1 & P2 & P3 & P4)|[R1 R2]]; [left|right].
  - exists c, e, b'. split; [exact P1|]. split; [now apply K|]. split; [exact P3|]. exact (as_dict_source m h0 h h' K c b' P4).
  - split; [|exact R2]. intros (c & e & X & Y). apply R1. exists c, e. split; [exact X|now apply K].
Qed.

Lemma dset_middle (dn l : list (key * hval)) x v w : ~ In x (dkeys dn) -> dset x w (dn ++ (x, v) :: l) = dn ++ (x, w) :: l.
Proof.
  intros N. induction dn as [|[y z] dn IH]; cbn; [now rewrite key_eqb_refl|].
  destruct (key_eqb_spec x y) as [->|]; [destruct N; now left|]. f_equal. apply IH. intros I. apply N. now right.
Qed.

Lemma forall2_weaken {A B} (P Q : A -> B -> Prop) l l' : (forall x y, P x y -> Q x y) -> Forall2 P l l' -> Forall2 Q l l'.
Proof. induction 2; constructor; auto. Qed.
(** What a call gives if it ends. *)
Definition call_ok (rec : dheap -> nat -> act nat) : Prop :=
  forall h c e, is_data h c e -> wf h -> forall h' r, rec h c = (h', r) ->
    grows h h' /\ wf h' /\ forall b, r = Ok b -> b = length h /\ as_dict (length h) h h' c b.

Lemma wf_put h b d : wf h -> NoDup (dkeys d) -> wf (obj_put h b (DDict d)).
Proof.
  intros W N a e H. destruct (Nat.eq_dec a b) as [->|Ne].
  - destruct (Nat.lt_ge_cases b (length h)) as [L|L].
    + rewrite (put_same _ _ _ L) in H. destruct H as [H|H]; [discriminate|]. injection H as <-. exact N.
    + destruct H as [H|H]; apply f_equal with (f := fun o => match o with Some _ => true | None => false end) in H;
        assert (X : nth_error (obj_put h b (DDict d)) b = None) by (apply nth_error_None; rewrite put_length; exact L);
        rewrite X in H; discriminate.
  - rewrite put_other in H by exact Ne. now apply (W a).
Qed.
Lemma wf_new h o : wf h -> (forall d, o = DData d \/ o = DDict d -> NoDup (dkeys d)) -> wf (h ++ [o]).
Proof.
  intros W N a d H. destruct (Nat.lt_ge_cases a (length h)) as [L|L].
  - rewrite nth_error_app1 in H by exact L. now apply (W a).
  - destruct (Nat.eq_dec a (length h)) as [->|Ne].
    + rewrite nth_new in H. apply N. destruct H as [H|H]; injection H as ->; auto.
    + assert (X : nth_error (h ++ [o]) a = None) by (apply nth_error_None; rewrite app_length; cbn; lia).
      rewrite X in H. destruct H; discriminate.
Qed.

Lemma loop_ok rec : call_ok rec -> forall l h h1 dn done r h',
  grows h h1 -> wf h1 -> length h < length h1 ->
  nth_error h1 (length h) = Some (DDict (dn ++ l)) -> Forall2 (conv (S (length h)) h h1) done dn ->
  to_dict_loop rec h1 (length h) l = (h', r) ->
  grows h h' /\ wf h' /\ length h < length h' /\
  forall u, r = Ok u -> exists d', nth_error h' (length h) = Some (DDict d') /\ Forall2 (conv (S (length h)) h h') (done ++ l) d'.
Proof.
  intros R. induction l as [|[x v] l IH]; intros h h1 dn done r h' G W L E F T; cbn [to_dict_loop] in T.
  - injection T as <- <-. split; [exact G|]. split; [exact W|]. split; [exact L|]. intros _ _. exists dn.
    rewrite app_nil_r in E |- *. now split.
  - destruct (data_at h1 v) as [c|] eqn:V.
    + apply data_at_spec in V. destruct V as [-> (e & De)].
      destruct (rec h1 c) as [h2 [b'|ex]] eqn:Q.
      * destruct (R h1 c e De W h2 _ Q) as (G2 & W2 & B). destruct (B b' eq_refl) as [-> A]. clear B.
        assert (E2 : nth_error h2 (length h) = Some (DDict (dn ++ (x, HRef c) :: l))).
        { destruct G2 as (_ & K & _). rewrite K by exact L. exact E. }
        unfold obj_at in T. rewrite E2 in T.
        assert (ND : NoDup (dkeys (dn ++ (x, HRef c) :: l))) by (eapply (W2 (length h)); right; exact E2).
        assert (Nx : ~ In x (dkeys dn)).
        { unfold dkeys in ND. rewrite map_app in ND. cbn in ND. apply NoDup_remove_2 in ND. intros I. apply ND.
          apply in_or_app. now left. }
        rewrite dset_middle in T by exact Nx.
        assert (L2 : length h < length h2) by (destruct G2; lia).
        set (h3 := obj_put h2 (length h) (DDict (dn ++ (x, HRef (length h1)) :: l))) in *.
        assert (K12 : forall a, S (length h) <= a -> a < length h1 -> nth_error h3 a = nth_error h1 a).
        { intros a La La'. subst h3. rewrite put_other by lia. destruct G2 as (_ & K & _). auto. }
        assert (A3 : as_dict (S (length h)) h h3 c (length h1)).
        { apply (as_dict_frame _ _ h2); [intros a La La'; subst h3; apply put_other; lia|].
          apply (as_dict_source _ h h1); [intros; now apply grows_data|]. eapply as_dict_weaken; [|exact A]. exact L. }
        specialize (IH h h3 (dn ++ [(x, HRef (length h1))]) (done ++ [(x, HRef c)]) r h').
        rewrite <- !app_assoc in IH. apply IH.
        -- apply grows_put; [eapply grows_trans; eauto|lia].
        -- apply wf_put; [exact W2|]. unfold dkeys in *. rewrite map_app in *. exact ND.
        -- subst h3. now rewrite put_length.
        -- subst h3. now apply put_same.
        -- apply Forall2_app; [|constructor; [|constructor]].
           ++ eapply forall2_weaken with (2 := F). intros p q. apply conv_frame. exact K12.
           ++ split; [reflexivity|]. left. exists c, e, (length h1). repeat split; auto.
              apply (grows_data h h1); auto.
        -- exact T.
      * injection T as <- <-. destruct (R h1 c e De W h2 _ Q) as (G2 & W2 & _).
        split; [eapply grows_trans; eauto|]. split; [exact W2|]. split; [destruct G2; lia|]. discriminate.
    + apply data_at_none in V.
      specialize (IH h h1 (dn ++ [(x, v)]) (done ++ [(x, v)]) r h'). rewrite <- !app_assoc in IH. apply IH; auto.
      apply Forall2_app; [exact F|constructor; [|constructor]]. split; [reflexivity|]. right. split; [|reflexivity].
      intros (c & e & P & D). apply V. exists c, e. split; [exact P|]. now apply (grows_data h h1).
Qed.

Lemma to_dict_ok n : call_ok (to_dict n).
Proof.
  induction n as [|n IH]; intros h a d HD W h' r T; cbn [to_dict] in T.
  - injection T as <- <-. split; [apply grows_refl|]. split; [exact W|]. discriminate.
  - unfold method in T. destruct (dmem _ _).
    { injection T as <- <-. split; [apply grows_refl|]. split; [exact W|]. discriminate. }
    rewrite (dict_of_data _ _ _ HD) in T.
    destruct (to_dict_loop (to_dict n) (h ++ [DDict d]) (length h) d) as [h1 r1] eqn:Q. injection T as <- <-.
    destruct (loop_ok _ IH d h (h ++ [DDict d]) [] [] r1 h1) as (G & W1 & L & R); auto.
    + apply grows_new.
    + apply wf_new; [exact W|]. intros e [X|X]; [discriminate|]. injection X as ->. apply (W a). now left.
    + rewrite app_length. cbn. lia.
    + apply nth_new.
    + split; [exact G|]. split; [exact W1|]. intros b. destruct r1 as [t|x]; [|discriminate]. cbn. intros [= <-].
      split; [reflexivity|]. destruct (R t eq_refl) as (d' & E & F). apply (as_dict_intro _ _ _ a _ d d'); [exact HD|lia|exact E|].
      cbn [app] in F. eapply forall2_weaken with (2 := F). intros p q [Q1 Q2]. split; [exact Q1|].
      destruct Q2 as [(c & e & b' & P1 & P2 & P3 & P4)|Q2]; [left|now right]. exists c, e, b'. repeat split; auto.
      eapply as_dict_weaken; [|exact P4]. lia.
Qed.
Lemma to_dict_result n h a d h' b : is_data h a d -> wf h -> to_dict n h a = (h', Ok b) ->
  b = length h /\ kept h h' /\ as_dict (length h) h h' a b.
Proof.
  intros HD W T. destruct (to_dict_ok n h a d HD W h' _ T) as ((L & K & _) & _ & R). destruct (R b eq_refl) as [-> A]. auto.
Qed.
Lemma to_dict_kept n h a d h' r : is_data h a d -> wf h -> to_dict n h a = (h', r) -> kept h h'.
Proof. intros HD W T. destruct (to_dict_ok n h a d HD W h' _ T) as ((L & K & _) & _ & R). exact K. Qed.

(** When it ends. *)
Fixpoint as_dict_finite m h h' a b (A : as_dict m h h' a b) {struct A} : finite h a.
Proof.
  destruct A as [a b d d' D L E F]. constructor. intros c (d0 & x & e & H1 & H2 & H3).
  unfold is_data in *. rewrite D in H1. injection H1 as <-. clear D E.
  induction F as [|p q d d' [Q R] F IH]; [destruct H2|]. destruct H2 as [->|H2]; [|exact (IH H2)].
  destruct R as [(c' & e' & b' & P1 & P2 & P3 & P4)|[R1 R2]].
  - cbn in P1. injection P1 as <-. exact (as_dict_finite m h h' c b' P4).
  - destruct R1. exists c, e. split; [reflexivity|exact H3].
Qed.
Fixpoint depth (h : dheap) (n : nat) (a : nat) : Prop :=
  match n with O => False | S n => forall c, holds h a c -> depth h n c end.
Lemma depth_mono h n : forall m a, n <= m -> depth h n a -> depth h m a.
Proof.
  induction n as [|n IH]; intros m a L D; [destruct D|]. destruct m as [|m]; [lia|]. intros c H. apply IH; [lia|]. now apply D.
Qed.
Lemma finite_depth h a : finite h a -> exists n, depth h n a.
Proof.
  induction 1 as [a H IH].
  destruct (nth_error h a) as [[d|d|l]|] eqn:E;
    try (exists 1; intros c (d0 & x & e & H1 & _); unfold is_data in H1; congruence).
  assert (X : forall l, (forall x v, In (x, v) l -> In (x, v) d) ->
            exists n, forall c x, In (x, HRef c) l -> forall e, is_data h c e -> depth h n c).
  { induction l as [|[y v] l IHl]; intros S.
    - exists 0. intros c x [].
    - destruct IHl as (n & Hn); [intros x w I; apply S; now right|].
      destruct (data_at h v) as [b|] eqn:V.
      + apply data_at_spec in V. destruct V as [-> (e0 & D0)].
        destruct (IH b) as (m & Hm). { exists d, y, e0. repeat split; auto. apply S. now left. }
        exists (Nat.max n m). intros c x [[= _ ->]|I] e D.
        * eapply depth_mono; [|exact Hm]. lia.
        * eapply depth_mono; [|eapply Hn; eauto]. lia.
      + exists n. intros c x [[= _ ->]|I] e D; [|eauto]. apply data_at_none in V. destruct V. eauto. }
  destruct (X d (fun _ _ I => I)) as (n & Hn). exists (S n). intros c (d0 & x & e & H1 & H2 & H3).
  unfold is_data in H1. rewrite E in H1. injection H1 as <-. eauto.
Qed.

Definition nameless (h : dheap) (a : nat) : Prop := forall c d, within h a c -> is_data h c d -> dget (k "_to_dict") d = None.
Lemma holds_grows h h' a c : grows h h' -> holds h a c <-> holds h' a c.
Proof.
  intros G. split; intros (d & x & e & H1 & H2 & H3); exists d, x, e; repeat split; auto;
    first [now apply (grows_data h h') | now apply (grows_data h h') in H1 | now apply (grows_data h h') in H3].
Qed.
Lemma within_grows h h' a c : grows h h' -> within h' a c -> within h a c.
Proof. intros G. induction 1 as [|a c e H W IH]; [constructor|]. econstructor; [|exact IH]. now apply (holds_grows h h'). Qed.
Lemma depth_grows h h' n : grows h h' -> forall a, depth h n a -> depth h' n a.
Proof. intros G. induction n as [|n IH]; intros a D; [exact D|]. intros c H. apply IH, D. now apply (holds_grows h h'). Qed.
Lemma nameless_grows h h' a : grows h h' -> nameless h a -> nameless h' a.
Proof. intros G N c d W D. apply (N c d); [eapply within_grows; eauto|now apply (grows_data h h')]. Qed.
Lemma nameless_part h a c : nameless h a -> holds h a c -> nameless h c.
Proof. intros N H e d W. apply N. econstructor; eauto. Qed.

Lemma loop_total rec l : forall h h1 dn done,
  call_ok rec ->
  (forall h2 c e x, grows h h2 -> wf h2 -> In (x, HRef c) l -> is_data h2 c e -> exists h3 b, rec h2 c = (h3, Ok b)) ->
  grows h h1 -> wf h1 -> length h < length h1 ->
  nth_error h1 (length h) = Some (DDict (dn ++ l)) -> Forall2 (conv (S (length h)) h h1) done dn ->
  exists h', to_dict_loop rec h1 (length h) l = (h', Ok tt).
Proof.
  induction l as [|[x v] l IH]; intros h h1 dn done R T G W L E F; [eexists; reflexivity|]. cbn [to_dict_loop].
  destruct (data_at h1 v) as [c|] eqn:V.
  - apply data_at_spec in V. destruct V as [-> (e & De)].
    destruct (T h1 c e x G W (or_introl eq_refl) De) as (h2 & b' & Q). rewrite Q.
    destruct (R h1 c e De W h2 _ Q) as (G2 & W2 & B). destruct (B b' eq_refl) as [-> A]. clear B.
    assert (E2 : nth_error h2 (length h) = Some (DDict (dn ++ (x, HRef c) :: l))).
    { destruct G2 as (_ & K & _). rewrite K by exact L. exact E. }
    unfold obj_at. rewrite E2.
    assert (ND : NoDup (dkeys (dn ++ (x, HRef c) :: l))) by (eapply (W2 (length h)); right; exact E2).
    assert (Nx : ~ In x (dkeys dn)).
    { unfold dkeys in ND. rewrite map_app in ND. cbn in ND. apply NoDup_remove_2 in ND. intros I. apply ND.
      apply in_or_app. now left. }
    rewrite dset_middle by exact Nx.
    assert (L2 : length h < length h2) by (destruct G2; lia).
    set (h3 := obj_put h2 (length h) (DDict (dn ++ (x, HRef (length h1)) :: l))) in *.
    apply (IH h h3 (dn ++ [(x, HRef (length h1))]) (done ++ [(x, HRef c)]) R).
    + intros h4 c' e' x' G4 W4 I. apply (T h4 c' e' x' G4 W4). now right.
    + apply grows_put; [eapply grows_trans; eauto|lia].
    + apply wf_put; [exact W2|]. unfold dkeys in *. rewrite map_app in *. exact ND.
    + subst h3. now rewrite put_length.
    + subst h3. rewrite put_same by exact L2. now rewrite <- app_assoc.
    + apply Forall2_app; [|constructor; [|constructor]].
      * eapply forall2_weaken with (2 := F). intros p q. apply conv_frame.
        intros a La La'. subst h3. rewrite put_other by lia. destruct G2 as (_ & K & _). auto.
      * split; [reflexivity|]. left. exists c, e, (length h1). repeat split; auto; [now apply (grows_data h h1)|].
        apply (as_dict_frame _ _ h2); [intros a La La'; subst h3; apply put_other; lia|].
        apply (as_dict_source _ h h1); [intros; now apply grows_data|]. eapply as_dict_weaken; [|exact A]. exact L.
  - apply data_at_none in V. apply (IH h h1 (dn ++ [(x, v)]) (done ++ [(x, v)]) R); auto.
    + intros h4 c' e' x' G4 W4 I. apply (T h4 c' e' x' G4 W4). now right.
    + now rewrite <- app_assoc.
    + apply Forall2_app; [exact F|constructor; [|constructor]]. split; [reflexivity|]. right. split; [|reflexivity].
      intros (c & e & P & D). apply V. exists c, e. split; [exact P|]. now apply (grows_data h h1).
Qed.
Lemma to_dict_total n : forall h a d, is_data h a d -> wf h -> depth h n a -> nameless h a ->
  exists h' b, to_dict n h a = (h', Ok b).
Proof.
  induction n as [|n IH]; intros h a d HD W D N; [destruct D|]. cbn [to_dict].
  rewrite (method_free _ _ _ HD); [|apply (N a d); [constructor|exact HD]]. rewrite (dict_of_data _ _ _ HD).
  destruct (loop_total (to_dict n) d h (h ++ [DDict d]) [] []) as (h' & E); auto.
  - apply to_dict_ok.
  - intros h2 c e x G W2 I De.
    assert (Hc : holds h a c). { exists d, x, e. repeat split; auto. now apply (grows_data h h2). }
    apply (IH h2 c e De W2).
    + apply (depth_grows h); auto.
    + apply (nameless_grows h); [exact G|]. eapply nameless_part; eauto.
  - apply grows_new.
  - apply wf_new; [exact W|]. intros e [X|X]; [discriminate|]. injection X as ->. apply (W a). now left.
  - rewrite app_length. cbn. lia.
  - apply nth_new.
  - rewrite E. cbn. eauto.
Qed.
Lemma to_dict_ends h a d : is_data h a d -> wf h ->
  (forall c e, within h a c -> is_data h c e -> dget (k "_to_dict") e = None) ->
  (finite h a <-> exists n0, forall n, n0 <= n -> exists h' b, to_dict n h a = (h', Ok b)).
Proof.
  intros HD W N. split.
  - intros F. destruct (finite_depth h a F) as (n0 & D). exists n0. intros n L. apply (to_dict_total n h a d HD W); [|exact N].
    eapply depth_mono; eauto.
  - intros (n0 & H). destruct (H n0 (le_n _)) as (h' & b & E). destruct (to_dict_result n0 h a d h' b HD W E) as (_ & _ & A).
    eapply as_dict_finite; eauto.
Qed.

Lemma loop_raises rec l : forall h h1,
  call_ok rec ->
  (forall h2 c e x, grows h h2 -> wf h2 -> In (x, HRef c) l -> is_data h2 c e -> forall h3 ex, rec h2 c = (h3, Raise ex) -> ex = XFuel) ->
  grows h h1 -> wf h1 -> length h < length h1 ->
  forall h' ex, to_dict_loop rec h1 (length h) l = (h', Raise ex) -> ex = XFuel.
Proof.
  induction l as [|[x v] l IH]; intros h h1 R T G W L h' ex E; [discriminate|]. cbn [to_dict_loop] in E.
  destruct (data_at h1 v) as [c|] eqn:V.
  - apply data_at_spec in V. destruct V as [-> (e & De)].
    destruct (rec h1 c) as [h2 [b'|ex']] eqn:Q.
    + destruct (R h1 c e De W h2 _ Q) as (G2 & W2 & _).
      eapply (IH h); [exact R| | | | |exact E].
      * intros h4 c' e' x' G4 W4 I. apply (T h4 c' e' x' G4 W4). now right.
      * apply grows_put; [eapply grows_trans; eauto|lia].
      * apply wf_put; [exact W2|]. apply NoDup_dset. unfold obj_at.
        destruct (nth_error h2 (length h)) as [[d|d|m]|] eqn:Z; try constructor. apply (W2 (length h)). now right.
      * rewrite put_length. destruct G2. lia.
    + injection E as <- <-. eapply (T h1 c e x); eauto. now left.
  - eapply (IH h); [exact R| | | | |exact E]; auto.
    intros h4 c' e' x' G4 W4 I. apply (T h4 c' e' x' G4 W4). now right.
Qed.
Lemma to_dict_raises n : forall h a d, is_data h a d -> wf h -> nameless h a ->
  forall h' ex, to_dict n h a = (h', Raise ex) -> ex = XFuel.
Proof.
  induction n as [|n IH]; intros h a d HD W N h' ex T; cbn [to_dict] in T; [congruence|].
  rewrite (method_free _ _ _ HD) in T; [|apply (N a d); [constructor|exact HD]]. rewrite (dict_of_data _ _ _ HD) in T.
  destruct (to_dict_loop (to_dict n) (h ++ [DDict d]) (length h) d) as [h1 [t|x]] eqn:Q; [discriminate|].
  injection T as <- <-. eapply (loop_raises (to_dict n) d h (h ++ [DDict d])); [apply to_dict_ok| | | | |exact Q].
  - intros h2 c e y G W2 I De. assert (Hc : holds h a c). { exists d, y, e. repeat split; auto. now apply (grows_data h h2). }
    apply (IH h2 c e De W2). apply (nameless_grows h); [exact G|]. eapply nameless_part; eauto.
  - apply grows_new.
  - apply wf_new; [exact W|]. intros e [X|X]; [discriminate|]. injection X as ->. apply (W a). now left.
  - rewrite app_length. cbn. lia.
Qed.
Lemma to_dict_endless h a d : is_data h a d -> wf h ->
  (forall c e, within h a c -> is_data h c e -> dget (k "_to_dict") e = None) ->
  ~ finite h a -> forall n, snd (to_dict n h a) = Raise XFuel.
Proof.
  intros HD W N F n. destruct (to_dict n h a) as [h' [b|ex]] eqn:E; cbn.
  - destruct F. destruct (to_dict_result n h a d h' b HD W E) as (_ & _ & A). eapply as_dict_finite; eauto.
  - f_equal. eapply to_dict_raises; eauto.
Qed.

(** ** Equality *)
Section Equality.
  Context (h : dheap) (aeq : nat -> nat -> bool).
  Let R v w := v = w \/ same_data h aeq v w.
  Lemma lists_eq_answers eq : (forall v w b, eq v w = Ok b -> (b = true <-> same_data h aeq v w)) ->
    forall l l' b, length l = length l' -> lists_eq eq l l' = Ok b -> (b = true -> Forall2 R l l') /\ (Forall2 R l l' -> b = true).
  Proof.
    intros H. induction l as [|x l IH]; intros [|y l'] b L E; try discriminate; cbn in E.
    - injection E as <-. split; auto.
    - unfold eq_part in E. destruct (same_obj x y) eqn:S.
      + apply same_obj_eq in S. cbn in E. destruct (IH l' b) as [P Q]; [now injection L|exact E|]. split.
        * intros ->. constructor; [now left|auto].
        * intros F. inversion F; subst. auto.
      + destruct (eq x y) as [c|] eqn:Q; [|discriminate]. cbn in E. apply H in Q. destruct c.
        * destruct (IH l' b) as [P P']; [now injection L|exact E|]. split.
          -- intros ->. constructor; [right; now apply Q|auto].
          -- intros F. inversion F; subst. auto.
        * injection E as <-. split; [discriminate|]. intros F. inversion F as [|? ? ? ? [X|X]]; subst.
          -- now rewrite same_obj_refl in S.
          -- now apply Q.
  Qed.
  Lemma dicts_eq_answers eq : (forall v w b, eq v w = Ok b -> (b = true <-> same_data h aeq v w)) ->
    forall d d' b, dicts_eq eq d d' = Ok b -> (b = true <-> forall x v, In (x, v) d -> exists w, dget x d' = Some w /\ R v w).
  Proof.
    intros H. induction d as [|[x v] d IH]; intros d' b E; cbn in E.
    - injection E as <-. split; auto. intros _ x v [].
    - destruct (dget x d') as [w|] eqn:G.
      2:{ injection E as <-. split; [discriminate|]. intros F. destruct (F x v (or_introl eq_refl)) as (w & X & _). congruence. }
      unfold eq_part in E. destruct (same_obj v w) eqn:S.
      + apply same_obj_eq in S. cbn in E. specialize (IH d' b E). rewrite IH. split.
        * intros F y z [[= <- <-]|I]; [exists w; split; [exact G|now left]|auto].
        * intros F y z I. apply F. now right.
      + destruct (eq v w) as [c|] eqn:Q; [|discriminate]. cbn in E. apply H in Q. destruct c.
        * specialize (IH d' b E). rewrite IH. split.
          -- intros F y z [[= <- <-]|I]; [exists w; split; [exact G|right; now apply Q]|auto].
          -- intros F y z I. apply F. now right.
        * injection E as <-. split; [discriminate|]. intros F. destruct (F x v (or_introl eq_refl)) as (w' & X & Y).
          rewrite G in X. injection X as <-. destruct Y as [->|Y]; [now rewrite same_obj_refl in S|now apply Q].
  Qed.
  Lemma data_eq_answers n : forall v w b, data_eq h aeq n v w = Ok b -> (b = true <-> same_data h aeq v w).
  Proof.
    induction n as [|n IH]; intros v w b E; [discriminate|]. cbn [data_eq] in E. unfold obj_at in E.
    destruct v as [i|a], w as [j|a'].
    - injection E as <-. split; [now constructor|]. now inversion 1.
    - injection E as <-. split; [discriminate|]. inversion 1.
    - injection E as <-. split; [discriminate|]. inversion 1.
    - destruct (nth_error h a) as [[d|d|l]|] eqn:X, (nth_error h a') as [[d'|d'|l']|] eqn:Y;
        try (injection E as <-; split; [discriminate|inversion 1; congruence]).
      + destruct (Nat.eqb_spec (length d) (length d')) as [L|L].
        * rewrite (dicts_eq_answers _ IH _ _ _ E). split; [intros F; now apply (sd_data h aeq a a' d d')|].
          inversion 1; try congruence. subst. replace d with d0 by congruence. replace d' with d'0 by congruence. assumption.
        * injection E as <-. split; [discriminate|]. inversion 1; congruence.
      + destruct (Nat.eqb_spec (length d) (length d')) as [L|L].
        * rewrite (dicts_eq_answers _ IH _ _ _ E). split; [intros F; now apply (sd_dict h aeq a a' d d')|].
          inversion 1; try congruence. subst. replace d with d0 by congruence. replace d' with d'0 by congruence. assumption.
        * injection E as <-. split; [discriminate|]. inversion 1; congruence.
      + destruct (Nat.eqb_spec (length l) (length l')) as [L|L].
        * destruct (lists_eq_answers _ IH _ _ _ L E) as [P Q]. split; [intros F; apply (sd_list h aeq a a' l l'); auto|].
          inversion 1; try congruence. subst. apply Q. replace l with l0 by congruence. replace l' with l'0 by congruence. assumption.
        * injection E as <-. split; [discriminate|]. inversion 1; subst; try congruence.
          destruct L. replace l with l0 by congruence. replace l' with l'0 by congruence.
          match goal with F : Forall2 _ _ _ |- _ => clear - F; induction F; cbn; congruence end.
  Qed.

  Context (rank : nat -> nat) (RK : ranked_parts h rank).
  Definition vrank (v : hval) : nat := match v with HAtom _ => 0 | HRef a => S (rank a) end.
  Lemma data_eq_total n : forall v w, vrank v < n -> exists b, data_eq h aeq n v w = Ok b.
  Proof.
    induction n as [|n IH]; intros v w L; [lia|]. cbn [data_eq]. unfold obj_at.
    destruct v as [i|a], w as [j|a']; try (eexists; reflexivity).
    assert (P : forall b, part_of h a b -> S (rank b) < n) by (intros b Pb; apply RK in Pb; cbn in L; lia).
    unfold part_of in P.
    assert (DD : forall d d', (forall b x, In (x, HRef b) d -> S (rank b) < n) -> exists b, dicts_eq (data_eq h aeq n) d d' = Ok b).
    { induction d as [|[x v] d IHd]; intros d' Pd; cbn; [eauto|]. destruct (dget x d') as [w|]; [|eauto].
      unfold eq_part. destruct (IHd d') as (b & B); [intros b y I; eapply Pd; right; exact I|].
      destruct (same_obj v w); cbn; [eauto|].
      destruct (IH v w) as (c & C).
      { destruct v as [i|b0]; cbn; [cbn in L; lia|]. eapply Pd. now left. }
      rewrite C. cbn. destruct c; eauto. }
    assert (LL : forall l l', (forall b, In (HRef b) l -> S (rank b) < n) -> exists b, lists_eq (data_eq h aeq n) l l' = Ok b).
    { induction l as [|v l IHl]; intros [|w l'] Pd; cbn; try (eexists; reflexivity).
      unfold eq_part. destruct (IHl l') as (b & B); [intros b I; eapply Pd; right; exact I|].
      destruct (same_obj v w); cbn; [eauto|].
      destruct (IH v w) as (c & C).
      { destruct v as [i|b0]; cbn; [cbn in L; lia|]. eapply Pd. now left. }
      rewrite C. cbn. destruct c; eauto. }
    destruct (nth_error h a) as [[d|d|l]|] eqn:X, (nth_error h a') as [[d'|d'|l']|] eqn:Y; try (eexists; reflexivity).
    - destruct (Nat.eqb _ _); [|eauto]. apply DD. intros b x I. apply P. eauto.
    - destruct (Nat.eqb _ _); [|eauto]. apply DD. intros b x I. apply P. eauto.
    - destruct (Nat.eqb _ _); [|eauto]. apply LL. intros b I. now apply P.
  Qed.
End Equality.

Lemma dicts_eq_self eq d d' : NoDup (dkeys d) -> (forall x v, In (x, v) d' -> In (x, v) d) -> dicts_eq eq d' d = Ok true.
Proof.
  intros N. induction d' as [|[x v] d' IH]; intros S; cbn; [reflexivity|].
  rewrite (In_dget x v d N) by (apply S; now left). unfold eq_part. rewrite same_obj_refl. cbn. apply IH. intros y w I. apply S. now right.
Qed.
Lemma copy_equal h a d h' c n aeq : is_data h a d -> NoDup (dkeys d) -> dget (k "_copy") d = None -> obj_copy h a = (h', Ok c) ->
  data_eq h' aeq (S n) (HRef c) (HRef a) = Ok true /\ data_eq h' aeq (S n) (HRef a) (HRef c) = Ok true.
Proof.
  intros HD ND N E. destruct (copy_spec h a d HD ND N) as (h1 & E1 & L & K & D). rewrite E in E1. injection E1 as -> ->.
  cbn [data_eq]. unfold obj_at. unfold is_data in *. rewrite D, K, HD by (eapply data_lt; eauto). rewrite Nat.eqb_refl.
  split; apply dicts_eq_self; auto.
Qed.

Lemma slots_fixed h a v :
  obj_setattr h a (u "__dict__") v = (h, Raise (XPy ETypeError)) /\ obj_delattr h a (u "__dict__") = (h, Raise (XPy ETypeError)) /\
  obj_setattr h a (u "__class__") v = (h, Raise (XPy ETypeError)) /\ obj_delattr h a (u "__class__") = (h, Raise (XPy ETypeError)) /\
  obj_setattr h a (u "__weakref__") v = (h, Raise (XPy EAttributeError)) /\ obj_delattr h a (u "__weakref__") = (h, Raise (XPy EAttributeError)).
Proof. repeat split; reflexivity. Qed.
Lemma del_absent h a d x : is_data h a d -> ~ In (KStr x) (dkeys d) -> name_in x slot_names = false ->
  obj_delattr h a x = (h, Raise (XPy EAttributeError)).
Proof.
  intros H N S. unfold obj_delattr. rewrite S, (dict_of_data _ _ _ H).
  destruct (dmem (KStr x) d) eqn:E; [|reflexivity]. apply dmem_In in E. contradiction.
Qed.
