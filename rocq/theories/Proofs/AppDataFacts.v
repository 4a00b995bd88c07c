(** Facts about application data. *)
From Verif.Model Require Import Py Core AppData.
From Verif.Spec Require Import AppDataSpec.
From Verif.Proofs Require Import DictLemmas.

Section Facts.
  Context {A : Type} (empty : A) (model : nat -> mdl) (a : A).
  Notation answers := (callback -> option A -> tree -> option tree).
  (** Sees only [a], and is the same for programs that agree on it. *)
  Definition good {X} (p q : @traced A X) : Prop := p = q /\ all_saw a p.

  Lemma good_ret {X} (r : option X) : good ([], r) ([], r).
  Proof. split; [reflexivity|]. intros ? ? []. Qed.
  Lemma good_post {X Y} (p q : @traced A X) (h : option X -> option Y) : good p q ->
    good (let '(e, r) := p in (e, h r)) (let '(e, r) := q in (e, h r)).
  Proof. intros [-> H]. destruct q as [e r]. split; [reflexivity|exact H]. Qed.
  Lemma saw_app (e1 e2 : list (@event A)) {X} (r : option X) :
    (forall b s, In (b, s) e1 -> s = Some a) -> (forall b s, In (b, s) e2 -> s = Some a) -> all_saw a (e1 ++ e2, r).
  Proof. intros H1 H2 b s Hi. cbn in Hi. apply in_app_or in Hi as [Hi|Hi]; eauto. Qed.
  Lemma good_bind {X Y} (p q : @traced A X) (f g : X -> @traced A Y) :
    good p q -> (forall x, good (f x) (g x)) -> good (tbind p f) (tbind q g).
  Proof.
    intros [-> H] Hf. destruct q as [e [x|]]; cbn; [|split; [reflexivity|exact H]].
    destruct (Hf x) as [-> H2]. destruct (g x) as [e2 r]. split; [reflexivity|]. now apply saw_app.
  Qed.
  Lemma good_each {X Y} (f g : X -> @traced A Y) l : (forall x, In x l -> good (f x) (g x)) -> good (each f l) (each g l).
  Proof.
    induction l as [|x l IH]; intros H; cbn; [apply good_ret|].
    destruct (H x (or_introl eq_refl)) as [-> H1]. destruct IH as [-> H2]; [intros; apply H; now right|].
    destruct (g x) as [e1 y], (each g l) as [e2 ys]. split; [reflexivity|]. now apply saw_app.
  Qed.
  Lemma good_first {X Y} (f g : X -> @traced A Y) l : (forall x, In x l -> good (f x) (g x)) -> good (first_of f l) (first_of g l).
  Proof.
    induction l as [|x l IH]; intros H; cbn; [apply good_ret|].
    destruct (H x (or_introl eq_refl)) as [-> H1]. destruct IH as [-> H2]; [intros; apply H; now right|].
    destruct (g x) as [e1 [y|]]; [split; [reflexivity|exact H1]|].
    destruct (first_of g l) as [e2 ys]. split; [reflexivity|]. now apply saw_app.
  Qed.

  Context (f g : answers) (Hfg : agree_on a f g).
  Lemma good_call b x v : a_app x = Some a -> good (call f b x v) (call g b x v).
  Proof using Hfg. intros E. unfold call. rewrite E, Hfg. split; [reflexivity|]. intros b' s [[= _ <-]|[]]. reflexivity. Qed.
  Lemma good_validators vs v x : a_app x = Some a -> good (run_validators f vs v x) (run_validators g vs v x).
  Proof using Hfg.
    intros E. unfold run_validators. apply (good_post _ _ (fun r => match r with Some _ => Some v | None => None end)).
    apply good_each. intros. now apply good_call.
  Qed.
  Lemma good_union ms v x : a_app x = Some a -> good (resolve_union f ms v x) (resolve_union g ms v x).
  Proof using Hfg. intros E. apply good_first. intros. now apply good_call. Qed.

  Definition fgood (fc gc : afield -> tree -> @actx A -> @traced A tree) : Prop :=
    forall fl v x, a_app x = Some a -> good (fc fl v x) (gc fl v x).

  Lemma good_loop fc gc c d x : fgood fc gc -> a_app x = Some a ->
    good (loop_fields model fc c d x) (loop_fields model gc c d x).
  Proof using Type.
    intros H E. unfold loop_fields. apply (good_post _ _ (fun r => r)). apply good_each. intros [n [t vs rq df]] _.
    apply (good_post _ _ (fun w => match w with Some w => Some (n, w) | None => None end)). apply H. now destruct (compound t).
  Qed.
  Lemma good_mv c d x : a_app x = Some a -> good (model_validators f model c d x) (model_validators g model c d x).
  Proof using Hfg.
    intros E. unfold model_validators. apply (good_post _ _ (fun r => match r with Some _ => Some d | None => None end)).
    apply good_each. intros nv _. destruct (dget (fst nv) d); [now apply good_call|apply good_ret].
  Qed.

  (** A context whose application data will be [a]. *)
  Definition leads (x : @actx A) (app : option A) : Prop :=
    a_app x = Some a \/ a_init x = false /\ a_app x = None /\ effective empty app = a.
  Lemma filled x app oo : leads x app -> a_app (fill_context empty x app oo) = Some a.
  Proof using Type.
    unfold fill_context, leads, effective. intros [E|(I & E & H)].
    - destruct (a_init x); cbn; now rewrite E.
    - rewrite I. cbn. rewrite E. now rewrite <- H.
  Qed.
  Lemma good_import fc gc c d x app oo : fgood fc gc -> leads x app ->
    good (fst (import_model empty model fc c d x app oo)) (fst (import_model empty model gc c d x app oo)).
  Proof using Type. intros H L. cbn. apply good_loop; [exact H|now apply filled]. Qed.
  Lemma good_validate_model fc gc c d ctx pa cv app : fgood fc gc ->
    leads (match ctx with Some x => x | None => validation_context pa cv end) app ->
    good (validate_model empty f model fc c d ctx pa cv app) (validate_model empty g model gc c d ctx pa cv app).
  Proof using Hfg.
    intros H L. unfold validate_model. set (x := match ctx with Some x => x | None => _ end) in *.
    unfold import_model. set (x' := fill_context empty x app true). assert (E : a_app x' = Some a) by now apply filled.
    destruct (good_loop fc gc c d x' H E) as [-> H1]. destruct (loop_fields model gc c d x') as [e r].
    destruct (good_mv c (match r with Some d' => d' | None => d end) x' E) as [-> H2].
    destruct (model_validators g model c _ x') as [e' r']. split; [reflexivity|]. now apply saw_app.
  Qed.
  Lemma good_convert_model fc gc c d ctx pa cv sv app : fgood fc gc ->
    match ctx with Some x => leads x app | None => effective empty app = a end ->
    good (convert_model empty f model fc c d ctx pa cv sv app) (convert_model empty g model gc c d ctx pa cv sv app).
  Proof using Hfg.
    intros H L. unfold convert_model.
    destruct (match ctx with Some x => a_validate x | None => sv end).
    - apply good_validate_model; [exact H|]. destruct ctx; [exact L|right; repeat split; exact L].
    - apply good_import; [exact H|]. destruct ctx; [exact L|right; repeat split; exact L].
  Qed.

  Lemma good_convert n :
    (forall t v x, a_app x = Some a -> good (convert_ty empty f model n t v x) (convert_ty empty g model n t v x)) /\
    fgood (convert_field empty f model n) (convert_field empty g model n).
  Proof using Hfg.
    induction n as [|n [IHt IHf]]; (split; [intros t v x E|intros [t vs rq df] v x E]); try (apply good_ret).
    - cbn [convert_ty]. destruct t as [i|fl|fl|c|ms].
      + now apply good_call.
      + destruct v; try apply good_ret. apply (good_post _ _ (option_map Items)). apply good_each. intros. now apply IHf.
      + destruct v; try apply good_ret. apply (good_post _ _ (option_map Entries)). apply good_each. intros kw _.
        apply (good_post _ _ (option_map (pair (fst kw)))). now apply IHf.
      + destruct v; try apply good_ret. apply (good_post _ _ (option_map Entries)). destruct (a_convert x && a_oo x).
        * apply good_convert_model; [exact IHf|now left].
        * apply good_import; [exact IHf|now left].
      + apply (good_post _ _ (option_map snd)). now apply good_union.
    - assert (G : good
        (if a_validate x then
           match t with
           | UnionT ms => tbind (resolve_union f ms v x) (fun mv =>
               tbind (if a_convert x then call f (Native (fst (fst mv))) x v else ([], Some v)) (fun w => run_validators f (snd (fst mv)) w x))
           | _ => tbind (if a_convert x then convert_ty empty f model n t v x
                         else if compound t then tbind (convert_ty empty f model n t v x) (fun _ => ([], Some v)) else ([], Some v))
                    (fun w => run_validators f vs w x)
           end
         else convert_ty empty f model n t v x)
        (if a_validate x then
           match t with
           | UnionT ms => tbind (resolve_union g ms v x) (fun mv =>
               tbind (if a_convert x then call g (Native (fst (fst mv))) x v else ([], Some v)) (fun w => run_validators g (snd (fst mv)) w x))
           | _ => tbind (if a_convert x then convert_ty empty g model n t v x
                         else if compound t then tbind (convert_ty empty g model n t v x) (fun _ => ([], Some v)) else ([], Some v))
                    (fun w => run_validators g vs w x)
           end
         else convert_ty empty g model n t v x)).
      { destruct (a_validate x); [|now apply IHt].
        assert (C : good
          (tbind (if a_convert x then convert_ty empty f model n t v x
                  else if compound t then tbind (convert_ty empty f model n t v x) (fun _ => ([], Some v)) else ([], Some v))
             (fun w => run_validators f vs w x))
          (tbind (if a_convert x then convert_ty empty g model n t v x
                  else if compound t then tbind (convert_ty empty g model n t v x) (fun _ => ([], Some v)) else ([], Some v))
             (fun w => run_validators g vs w x))).
        { apply good_bind; [|intros; now apply good_validators]. destruct (a_convert x); [now apply IHt|].
          destruct (compound t); [|apply good_ret]. apply good_bind; [now apply IHt|intros; apply good_ret]. }
        destruct t; try exact C. apply good_bind; [now apply good_union|]. intros mv.
        apply good_bind; [destruct (a_convert x); [now apply good_call|apply good_ret]|]. intros. now apply good_validators. }
      destruct v; [apply good_ret|exact G ..].
  Qed.

  Lemma good_export_fields ft gt c d x : (forall t v x, a_app x = Some a -> good (ft t v x) (gt t v x)) -> a_app x = Some a ->
    good (export_fields model ft c d x) (export_fields model gt c d x).
  Proof using Type.
    intros H E. apply good_each. intros [n [t vs rq df]] _. cbn [fst snd]. destruct (dget n d) as [v|]; [|apply good_ret].
    assert (G : good (let '(e, w) := ft t v x in (e, option_map (pair n) w)) (let '(e, w) := gt t v x in (e, option_map (pair n) w)))
      by (apply (good_post _ _ (option_map (pair n))); now apply H).
    destruct v; [apply good_ret|exact G ..].
  Qed.
  Lemma good_export n prim t v x : a_app x = Some a -> good (export_ty empty f model n prim t v x) (export_ty empty g model n prim t v x).
  Proof using Hfg.
    revert t v x. induction n as [|n IH]; intros t v x E; [apply good_ret|]. cbn [export_ty].
    destruct t as [i|[t' ? ? ?]|[t' ? ? ?]|c|ms].
    - now apply good_call.
    - destruct v; try apply good_ret. apply (good_post _ _ (option_map Items)). apply good_each. intros. now apply IH.
    - destruct v; try apply good_ret. apply (good_post _ _ (option_map Entries)). apply good_each. intros kw _.
      apply (good_post _ _ (option_map (pair (fst kw)))). now apply IH.
    - destruct v; try apply good_ret. apply (good_post _ _ (option_map Entries)). apply good_export_fields; [exact IH|].
      apply filled. now left.
    - apply good_bind; [now apply good_union|]. intros. now apply good_call.
  Qed.

  Lemma good_validate_instance n c d pa cv app : effective empty app = a ->
    good (validate_instance empty f model n c d pa cv app) (validate_instance empty g model n c d pa cv app).
  Proof using Hfg.
    intros E. unfold validate_instance. destruct d as [|p d]; [destruct pa; [apply good_ret|]|];
      (apply good_convert_model; [apply good_convert|exact E]).
  Qed.
  Lemma good_new n c d pa va app : effective empty app = a ->
    good (new_instance empty f model n c d pa va app) (new_instance empty g model n c d pa va app).
  Proof using Hfg.
    intros E. apply good_bind; [apply good_convert_model; [apply good_convert|exact E]|].
    intros d'. destruct va; [now apply good_validate_instance|apply good_ret].
  Qed.
  Lemma good_export_instance n c prim d app : effective empty app = a ->
    good (export_instance empty f model n c prim d app) (export_instance empty g model n c prim d app).
  Proof using Hfg.
    intros E. apply good_export_fields; [intros; now apply good_export|]. apply filled. right. now repeat split.
  Qed.
  Lemma good_import_instance n c d raw app : effective empty app = a ->
    good (import_instance empty f model n c d raw false app) (import_instance empty g model n c d raw false app).
  Proof using Hfg.
    intros E. apply good_bind; [apply good_convert_model; [apply good_convert|exact E]|]. intros. apply good_ret.
  Qed.
End Facts.

(** The four calls. *)
Lemma all_calls {A} (empty : A) model a f g : agree_on a f g -> forall n c app, effective empty app = a ->
  (forall raw pa va, good a (new_instance empty f model n c raw pa va app) (new_instance empty g model n c raw pa va app)) /\
  (forall d pa cv, good a (validate_instance empty f model n c d pa cv app) (validate_instance empty g model n c d pa cv app)) /\
  (forall d raw, good a (import_instance empty f model n c d raw false app) (import_instance empty g model n c d raw false app)) /\
  (forall d prim, good a (export_instance empty f model n c prim d app) (export_instance empty g model n c prim d app)).
Proof.
  intros H n c app E. split; [|split; [|split]]; intros;
    first [now apply good_new|now apply good_validate_instance|now apply good_import_instance|now apply good_export_instance].
Qed.

(** Every validator of a model for a field that has data is called. *)
Lemma each_calls {A X Y} (f : X -> @traced A Y) l x ev : In x l -> In ev (fst (f x)) -> In ev (fst (each f l)).
Proof.
  induction l as [|y l IH]; [intros []|]. cbn. destruct (f y) as [e1 r1] eqn:E, (each f l) as [e2 r2]. cbn.
  intros [->|Hi] Hev; apply in_or_app; [left; now rewrite E in Hev|right; now apply IH].
Qed.
Lemma each_map {A X Y Z} (h : X -> @traced A Y) (p : Y -> Z) (q : X -> Z) l e r :
  (forall x e y, h x = (e, Some y) -> p y = q x) -> each h l = (e, Some r) -> map p r = map q l.
Proof.
  intros H. revert e r. induction l as [|x l IH]; cbn; intros e r; [now intros [= <- <-]|].
  destruct (h x) as [e1 [y|]] eqn:E; destruct (each h l) as [e2 [ys|]]; try discriminate.
  intros [= <- <-]. cbn. now rewrite (H _ _ _ E), (IH _ _ eq_refl).
Qed.
Lemma each_keys {A} (model : nat -> mdl) (fc : afield -> tree -> @actx A -> @traced A tree) c d x e r :
  loop_fields model fc c d x = (e, Some r) -> dkeys r = dkeys (md_fields (model c)).
Proof.
  unfold loop_fields. destruct (each _ _) as [e1 r1] eqn:E. intros [= <- ->]. revert E. apply each_map.
  intros [n [t vs rq df]] e' y. destruct (fc _ _ _) as [e2 [w|]]; [|discriminate]. now intros [= <- <-].
Qed.
Lemma validators_called {A} (empty : A) answer model n c d pa cv app e r m i :
  d <> [] -> validate_instance empty answer model n c d pa cv app = (e, Some r) ->
  In (m, i) (md_validators (model c)) -> In m (dkeys (md_fields (model c))) -> In (ModelValidator i, Some (effective empty app)) e.
Proof.
  intros Hd H Hm Hk. unfold validate_instance in H. destruct d as [|p d]; [congruence|]. clear Hd.
  unfold convert_model, validate_model, import_model in H.
  set (x := fill_context empty _ app true) in H.
  assert (E : a_app x = Some (effective empty app)) by reflexivity.
  destruct (loop_fields model _ c (p :: d) x) as [e1 [d1|]] eqn:L;
    [|destruct (model_validators answer model c (p :: d) x) as [? [?|]]; discriminate H].
  destruct (model_validators answer model c d1 x) as [e2 r2] eqn:M.
  assert (In (ModelValidator i, Some (effective empty app)) e2).
  { unfold model_validators in M.
    destruct (each _ (md_validators (model c))) as [e3 r3] eqn:G in M. injection M as <- _.
    change e3 with (fst (e3, r3)). rewrite <- G. apply each_calls with (x := (m, i)); [exact Hm|]. cbn.
    apply each_keys in L. rewrite <- L in Hk. destruct (dget m d1) as [v|] eqn:D; [left; reflexivity|].
    exfalso. revert Hk. now apply dget_None_keys. }
  destruct r2; [|discriminate H]. injection H as <- _. apply in_or_app. now right.
Qed.

(** Every converter of a field that has a value is called. *)
Lemma bind_calls {A X Y} (p : @traced A X) (f : X -> @traced A Y) ev : In ev (fst p) -> In ev (fst (tbind p f)).
Proof. destruct p as [e [x|]]; cbn; [|auto]. destruct (f x) as [e' r]. cbn. intros. apply in_or_app. now left. Qed.
Lemma leaf_called {A} (empty : A) answer model n i vs rq df v (x : actx A) : v <> Null -> a_convert x = true ->
  In (Native i, a_app x) (fst (convert_field empty answer model (S (S n)) (F (LeafT i) vs rq df) v x)).
Proof.
  intros Hv Hc. cbn [convert_field convert_ty]. rewrite Hc.
  assert (H : In (Native i, a_app x) (fst (if a_validate x then tbind (call answer (Native i) x v) (fun w => run_validators answer vs w x)
                                           else call answer (Native i) x v))).
  { destruct (a_validate x); [apply bind_calls|]; now left. }
  destruct v; [congruence|exact H ..].
Qed.
Lemma converters_called {A} (empty : A) answer model n c raw pa va app m i vs rq df v :
  In (m, F (LeafT i) vs rq df) (md_fields (model c)) -> dget m raw = Some v -> v <> Null ->
  In (Native i, Some (effective empty app)) (fst (new_instance empty answer model (S (S n)) c raw pa va app)).
Proof.
  intros Hm Hv Hn. apply bind_calls. unfold convert_model.
  assert (L : forall x : actx A, a_convert x = true ->
    In (Native i, a_app x) (fst (loop_fields model (convert_field empty answer model (S (S n))) c raw x))).
  { intros x Hc. unfold loop_fields. set (h := fun nf : key * afield => _).
    assert (In (Native i, a_app x) (fst (each h (md_fields (model c))))).
    { apply each_calls with (x := (m, F (LeafT i) vs rq df)); [exact Hm|]. unfold h. rewrite Hv. cbn [compound].
      pose proof (leaf_called empty answer model n i vs rq df v x Hn Hc) as H.
      destruct (convert_field empty answer model (S (S n)) (F (LeafT i) vs rq df) v x) as [e w]. exact H. }
    destruct (each h (md_fields (model c))). exact H. }
  destruct va.
  - unfold validate_model, import_model. set (x := fill_context empty _ app true).
    specialize (L x eq_refl). destruct (loop_fields model _ c raw x) as [e r].
    destruct (model_validators answer model c _ x) as [e' r']. cbn. apply in_or_app. left. exact L.
  - cbn [fst import_model]. exact (L (fill_context empty (import_context pa) app true) eq_refl).
Qed.

(** Unions: members in order up to the first that takes the value. *)
Lemma union_tried : forall A (empty : A) answer model n ms v (x : @actx A),
  let takes (m : nat * list nat) w := answer (Native (fst m)) (a_app x) v = w in
  let seen l := map (fun m : nat * list nat => (Native (fst m), a_app x)) l in
  (forall pre m post w, ms = pre ++ m :: post -> Forall (fun m => takes m None) pre -> takes m (Some w) ->
     convert_ty empty answer model (S n) (UnionT ms) v x = (seen (pre ++ [m]), Some w)) /\
  (Forall (fun m => takes m None) ms -> convert_ty empty answer model (S n) (UnionT ms) v x = (seen ms, None)).
Proof.
  intros A empty answer model n ms v x takes seen. cbn [convert_ty]. unfold resolve_union. split.
  - intros pre m post w -> Hp Hm.
    assert (H : first_of (fun m : nat * list nat => call answer (Native (fst m)) x v) (pre ++ m :: post) = (seen (pre ++ [m]), Some (m, w))).
    { induction Hp as [|p pre Hq Hp IH]; cbn [app first_of].
      - unfold call at 1. unfold takes in Hm. rewrite Hm. reflexivity.
      - unfold call at 1. unfold takes in Hq. rewrite Hq. rewrite IH. reflexivity. }
    rewrite H. reflexivity.
  - intros Hp.
    assert (H : first_of (fun m : nat * list nat => call answer (Native (fst m)) x v) ms = (seen ms, None)).
    { induction Hp as [|p pre Hq Hp IH]; cbn [first_of]; [reflexivity|].
      unfold call at 1. unfold takes in Hq. rewrite Hq. rewrite IH. reflexivity. }
    rewrite H. reflexivity.
Qed.
