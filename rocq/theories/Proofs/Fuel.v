(** More stack does not change a result that did not exhaust it. *)
From Verif.Model Require Import Py Core Export Api.
From Verif.Spec Require Import ImportSpec FuelSpec.
From Verif.Proofs Require Import DictLemmas.

Definition rle {A} (a b : res A) : Prop := a = Raise XFuel \/ a = b.
Lemma rle_refl {A} (a : res A) : rle a a. Proof. right; reflexivity. Qed.
Lemma rle_fuel {A} (b : res A) : rle (Raise XFuel) b. Proof. left; reflexivity. Qed.
Lemma rle_bind {A B} (a b : res A) (g h : A -> res B) : rle a b -> (forall x, rle (g x) (h x)) -> rle (rbind a g) (rbind b h).
Proof. intros [-> | ->] H; [left; reflexivity|]. destruct b as [x|e]; cbn; [apply H|right; reflexivity]. Qed.
#[local] Hint Resolve rle_refl rle_fuel : core.

Record cle (r s : conv) : Prop := {
  cle_field : forall f v x, rle (cv_field r f v x) (cv_field s f v x);
  cle_convert : forall f v x, rle (cv_convert r f v x) (cv_convert s f v x);
  cle_validate : forall f v x, rle (cv_validate r f v x) (cv_validate s f v x);
  cle_pre : forall f v, rle (cv_pre r f v) (cv_pre s f v) }.

Section Mono.
  Context (E : env).
  Context (fc fc' : fspec -> pyval -> ictx -> res pyval) (pre pre' : fspec -> pyval -> res pyval).
  Hypothesis Hfc : forall f v x, rle (fc f v x) (fc' f v x).
  Hypothesis Hpre : forall f v, rle (pre f v) (pre' f v).

  Lemma import_field_mono x got raw n f s : rle (import_field E fc x got raw n f s) (import_field E fc' x got raw n f s).
  Proof.
    unfold import_field. destruct s as [data errors]. apply rle_bind; [auto|]. intros v1.
    destruct (is_undef v1 && dmem n data); [auto|]. destruct got; [|auto].
    match goal with |- rle (match fc ?a ?b ?c with _ => _ end) _ => destruct (Hfc a b c) as [-> | ->] end; [left; reflexivity|auto].
  Qed.
  Lemma import_fields_mono x got raw fs : forall s, rle (import_fields E fc x got raw fs s) (import_fields E fc' x got raw fs s).
  Proof.
    induction fs as [|[n f] fs IH]; intros s; cbn [import_fields]; [auto|].
    destruct (negb (cx_validate x) && has_setter f); [auto|].
    apply rle_bind; [apply import_field_mono|auto].
  Qed.
  Definition mle (a b : pyval * pyval * res (list (key * errnode))) : Prop := snd a = Raise XFuel \/ a = b.
  Lemma mutate_fields_mono x a fs : forall mut raw errs,
    mle (mutate_fields E fc pre x a fs mut raw errs) (mutate_fields E fc' pre' x a fs mut raw errs).
  Proof.
    induction fs as [|[n f] fs IH]; intros mut raw errs; cbn [mutate_fields]; [right; reflexivity|].
    destruct (fd_set f) as [fset|]; [|apply IH].
    destruct (is_undef (atom_value E raw n)); [apply IH|]. cbn zeta.
    assert (Hd : forall e m1 r1,
      mle (if caught_by_loop e then mutate_fields E fc pre x a fs m1 r1 (dset (sname_of n (fd_spec f)) (err_node e) errs)
           else match e with XPy pe => if is_attribute_error pe then mutate_fields E fc pre x a fs m1 r1 errs else (m1, r1, Raise e)
                | _ => (m1, r1, Raise e) end)
          (if caught_by_loop e then mutate_fields E fc' pre' x a fs m1 r1 (dset (sname_of n (fd_spec f)) (err_node e) errs)
           else match e with XPy pe => if is_attribute_error pe then mutate_fields E fc' pre' x a fs m1 r1 errs else (m1, r1, Raise e)
                | _ => (m1, r1, Raise e) end)).
    { intros e m1 r1. destruct (caught_by_loop e); [apply IH|]. destruct e; try (right; reflexivity).
      destruct (is_attribute_error e); [apply IH|right; reflexivity]. }
    assert (B : rle (rbind (fc (fd_spec f) (atom_value E raw n) x) (pre (fd_spec f)))
                    (rbind (fc' (fd_spec f) (atom_value E raw n) x) (pre' (fd_spec f)))) by (apply rle_bind; auto).
    destruct B as [-> | ->].
    - left; reflexivity.
    - destruct (rbind _ _) as [w|e]; [|apply Hd].
      destruct (fset mut w) as [mut1 oe]. destruct oe as [e|]; [apply Hd|apply IH].
  Qed.
  Lemma mutate_mono x a fs mut raw : mle (mutate E fc pre x a fs mut raw) (mutate E fc' pre' x a fs mut raw).
  Proof.
    unfold mutate. destruct (mutate_fields_mono x a fs mut raw []) as [H| ->]; [|right; reflexivity].
    destruct (mutate_fields E fc pre x a fs mut raw []) as [[m1 r1] rr]. cbn in H. subst rr. left; reflexivity.
  Qed.
  Definition lle (a b : loop_out) : Prop := lo_res a = Raise XFuel \/ (lo_mut a = lo_mut b /\ lo_raw a = lo_raw b /\ lo_res a = lo_res b).
  Lemma import_loop_mono x fs mut a raw : lle (import_loop E fc pre x fs mut a raw) (import_loop E fc' pre' x fs mut a raw).
  Proof.
    unfold import_loop. destruct (if truthy _ then _ else _) as [data0|e]; [|right; auto].
    destruct (negb (is_none raw) && cx_validate x).
    - destruct (mutate_mono x a fs mut raw) as [H| ->].
      + destruct (mutate E fc pre x a fs mut raw) as [[m1 r1] rr]. cbn in H. subst rr. left; reflexivity.
      + destruct (mutate E fc' pre' x a fs mut raw) as [[m1 r1] rr].
        match goal with |- lle (LO _ _ ?p) (LO _ _ ?q) => assert (Q : rle p q) end.
        { apply rle_bind; [auto|]. intros errs0. apply rle_bind; [auto|]. intros errs1.
          apply rle_bind; [apply import_fields_mono|auto]. }
        destruct Q as [Q|Q]; [left; exact Q|right; cbn [lo_mut lo_raw lo_res]; rewrite Q; auto].
    - match goal with |- lle (LO _ _ ?p) (LO _ _ ?q) => assert (Q : rle p q) end.
      { apply rle_bind; [auto|]. intros errs0. apply rle_bind; [auto|]. intros errs1.
        apply rle_bind; [apply import_fields_mono|auto]. }
      destruct Q as [Q|Q]; [left; exact Q|right; cbn [lo_mut lo_raw lo_res]; rewrite Q; auto].
  Qed.
  Lemma validate_fn_mono x mc mut a raw : lle (validate_fn E fc pre x mc mut a raw) (validate_fn E fc' pre' x mc mut a raw).
  Proof.
    unfold validate_fn. destruct (import_loop_mono x (mc_fields mc) mut a raw) as [H|(H1 & H2 & H3)].
    - left. cbn. now rewrite H.
    - right. cbn. rewrite H1, H2, H3. auto.
  Qed.
  Lemma model_new_mono c v x : rle (model_new E fc pre c v x) (model_new E fc' pre' c v x).
  Proof.
    unfold model_new. apply rle_bind; [auto|]. intros d. destruct (cx_validate x).
    - match goal with |- rle (rbind (lo_res ?p) _) (rbind (lo_res ?q) _) => assert (Q : lle p q) by apply validate_fn_mono end.
      destruct Q as [Q|(Q1 & Q2 & Q3)]; [rewrite Q; left; reflexivity|]. rewrite Q1, Q3. auto.
    - match goal with |- rle (rbind (lo_res ?p) _) (rbind (lo_res ?q) _) => assert (Q : lle p q) by apply import_loop_mono end.
      destruct Q as [Q|(Q1 & Q2 & Q3)]; [rewrite Q; left; reflexivity|]. rewrite Q1, Q3. auto.
  Qed.
  Lemma class_convert_mono c v x : rle (model_class_convert E fc pre c v x) (model_class_convert E fc' pre' c v x).
  Proof.
    unfold model_class_convert.
    destruct (import_loop_mono x (mc_fields (e_class E c)) v AliasSelf v) as [H|(H1 & H2 & H3)].
    - rewrite H. left; reflexivity.
    - rewrite H3. auto.
  Qed.
  Lemma model_convert_mono c v x : rle (model_convert E fc pre c v x) (model_convert E fc' pre' c v x).
  Proof.
    unfold model_convert.
    assert (R : forall c', rle (if cx_convert x && cx_oo x then model_new E fc pre c' v x else model_class_convert E fc pre c' v x)
      (if cx_convert x && cx_oo x then model_new E fc' pre' c' v x else model_class_convert E fc' pre' c' v x)).
    { intros c'. destruct (cx_convert x && cx_oo x); [apply model_new_mono|apply class_convert_mono]. }
    destruct v; auto. destruct (e_issub E c0 c); auto.
  Qed.
  Lemma list_loop_mono f x l : forall i data errs, rle (list_loop fc f x i l data errs) (list_loop fc' f x i l data errs).
  Proof.
    induction l as [|v l IH]; intros i data errs; cbn [list_loop]; [auto|].
    destruct (Hfc f v x) as [-> | ->]; [left; reflexivity|]. destruct (fc' f v x) as [w|e]; [apply IH|].
    destruct (is_base_error e); [apply IH|auto].
  Qed.
  Lemma list_convert_mono f v x : rle (list_convert E fc f v x) (list_convert E fc' f v x).
  Proof. unfold list_convert. destruct (list_elems E v); [|auto]. apply rle_bind; [apply list_loop_mono|auto]. Qed.
  Lemma dict_loop_mono f ck x l : forall data errs, rle (dict_loop fc f ck x l data errs) (dict_loop fc' f ck x l data errs).
  Proof.
    induction l as [|[y v] l IH]; intros data errs; cbn [dict_loop]; [auto|].
    destruct (Hfc f v x) as [-> | ->]; [left; reflexivity|]. destruct (rbind _ _) as [[y' w]|e]; [apply IH|].
    destruct (is_base_error e); [apply IH|auto].
  Qed.
  Lemma dict_convert_mono f ck v x : rle (dict_convert fc f ck v x) (dict_convert fc' f ck v x).
  Proof. unfold dict_convert. destruct v; auto. apply rle_bind; [apply dict_loop_mono|auto]. Qed.
  Lemma poly_convert_mono p v x : rle (poly_convert E fc pre p v x) (poly_convert E fc' pre' p v x).
  Proof.
    unfold poly_convert. destruct (is_none v); [auto|].
    destruct (negb (cx_validate x) && poly_allowed E p v); [auto|].
    destruct (negb (cx_validate x) && negb _); [auto|].
    apply rle_bind; [auto|]. intros c. apply model_new_mono.
  Qed.
End Mono.

Lemma union_resolve_mono cvt cvt' ms v : (forall m u, rle (cvt m u) (cvt' m u)) ->
  rle (union_resolve cvt ms v) (union_resolve cvt' ms v).
Proof.
  intros H. induction ms as [|m ms IH]; cbn; [auto|].
  destruct (H m v) as [-> | ->]; [auto|]. destruct (cvt' m v) as [w|[]]; auto.
Qed.

Lemma conv_step_mono E r s : cle r s -> cle (conv_step E r) (conv_step E s).
Proof.
  intros [H1 H2 H3 H4]. constructor; cbn.
  - intros f v x. unfold field_step. destruct (check_required f v x); [auto|]. destruct (is_nil v); [auto|].
    destruct (cx_validate x); auto.
  - intros f v x. unfold convert_step. destruct (fs_type f); auto.
    + apply rle_bind; [apply union_resolve_mono; auto|auto].
    + apply model_convert_mono; auto.
    + apply poly_convert_mono; auto.
    + apply list_convert_mono; auto.
    + apply dict_convert_mono; auto.
  - intros f v x. unfold validate_step.
    assert (Q : rle (if cx_convert x then cv_convert r f v x
               else if is_compound f then rbind (cv_convert r f v x) (fun _ => Ok v) else Ok v)
              (if cx_convert x then cv_convert s f v x
               else if is_compound f then rbind (cv_convert s f v x) (fun _ => Ok v) else Ok v)).
    { destruct (cx_convert x); [auto|]. destruct (is_compound f); [apply rle_bind; auto|auto]. }
    destruct (fs_type f); auto; apply rle_bind; auto; [apply union_resolve_mono; auto|].
    intros [m w]. auto.
  - intros f v. unfold pre_step. destruct (fs_type f); auto. destruct v; auto. apply model_new_mono; auto.
Qed.

Lemma conv_at_mono E n : forall m, n <= m -> cle (conv_at E n) (conv_at E m).
Proof.
  induction n as [|n IH]; intros m Hm.
  - constructor; intros; left; reflexivity.
  - destruct m as [|m]; [lia|]. cbn [conv_at]. apply conv_step_mono, IH. lia.
Qed.

(** ** Entry points *)
Definition ole {A} (a b : A * option exn) : Prop := snd a = Some XFuel \/ a = b.
Definition sle {A B} (a b : A * res B) : Prop := snd a = Raise XFuel \/ a = b.

Lemma model__convert_mono E r s c m raw td w : cle r s ->
  sle (model__convert E r c m raw td w) (model__convert E s c m raw td w).
Proof.
  intros [H1 H2 H3 H4]. unfold model__convert. destruct (if truthy raw then _ else _) as [d0|e]; [|right; reflexivity].
  destruct (match md_unsafe m with [] => _ | _ => _ end) as [[[m1 a1] d1] w1].
  destruct (kw_validate w).
  - match goal with |- sle (_, lo_res ?p) (_, lo_res ?q) => assert (Q : lle p q) by (apply validate_fn_mono; auto) end.
    destruct Q as [Q|(Q1 & _ & Q3)]; [left; exact Q|right; now rewrite Q1, Q3].
  - match goal with |- sle (_, lo_res ?p) (_, lo_res ?q) => assert (Q : lle p q) by (apply import_loop_mono; auto) end.
    destruct Q as [Q|(Q1 & _ & Q3)]; [left; exact Q|right; now rewrite Q1, Q3].
Qed.
Lemma validate_body_mono E r s c m w : cle r s ->
  ole (model_validate_body E r c m w) (model_validate_body E s c m w).
Proof.
  intros H. unfold model_validate_body.
  match goal with |- context [model__convert E r c m VNone ?t ?k] => destruct (model__convert_mono E r s c m VNone t k H) as [Q|Q] end.
  - destruct (model__convert E r _ _ _ _ _) as [m1 rs]. cbn in Q. subst rs. left; reflexivity.
  - rewrite Q. right; reflexivity.
Qed.
Lemma validate_mono E r s c m w : cle r s -> ole (model_validate E r c m w) (model_validate E s c m w).
Proof.
  intros H. unfold model_validate.
  assert (Q : ole (let '(m1, oe) := model_validate_body E r c m w in (md_set_converted m1 [], oe))
                  (let '(m1, oe) := model_validate_body E s c m w in (md_set_converted m1 [], oe))).
  { destruct (validate_body_mono E r s c m w H) as [Q| ->]; [|right; reflexivity].
    destruct (model_validate_body E r c m w) as [m1 oe]. cbn in Q. subst oe. left; reflexivity. }
  destruct (md_converted m); [destruct (kw_partial w); [right; reflexivity|exact Q]|exact Q].
Qed.
Lemma init_mono E r s c raw td w : cle r s -> rle (model_init E r c raw td w) (model_init E s c raw td w).
Proof.
  intros H. unfold model_init.
  match goal with |- context [model__convert E r c ?m raw td w] => destruct (model__convert_mono E r s c m raw td w H) as [Q|Q] end.
  - destruct (model__convert E r _ _ _ _ _) as [m1 rs]. cbn in Q. subst rs. left; reflexivity.
  - rewrite Q. destruct (model__convert E s _ _ _ _ _) as [m1 [data|e]]; [|auto]. destruct (kw_validate w); [|auto].
    match goal with |- context [model_validate E r c ?m ?k] => destruct (validate_mono E r s c m k H) as [V|V] end.
    + destruct (model_validate E r _ _ _) as [m3 oe]. cbn in V. subst oe. left; reflexivity.
    + rewrite V. auto.
Qed.
Lemma import_data_mono E r s c m raw w : cle r s ->
  ole (model_import_data E r c m raw w) (model_import_data E s c m raw w).
Proof.
  intros H. unfold model_import_data. destruct (py_dict E (VModel c m)) as [td|e]; [|right; reflexivity].
  destruct (model__convert_mono E r s c m raw (VDict td) w H) as [Q|Q].
  - destruct (model__convert E r _ _ _ _ _) as [m1 rs]. cbn in Q. subst rs. left; reflexivity.
  - rewrite Q. destruct (model__convert E s _ _ _ _ _) as [m1 [data|e]]; [|right; reflexivity]. destruct (kw_validate w); [|right; reflexivity].
    apply validate_mono, H.
Qed.

(** ** Export *)
Section ExMono.
  Context (E : env) (fe fe' : fspec -> pyval -> ectx -> res pyval).
  Hypothesis Hfe : forall f v x, rle (fe f v x) (fe' f v x).
  Lemma export_field_mono x filt obj n f : rle (export_field E fe x filt obj n f) (export_field E fe' x filt obj n f).
  Proof.
    unfold export_field. destruct (match filt with Some g => _ | None => _ end); [auto|]. cbn zeta.
    destruct (Z.eqb _ _); [auto|]. apply rle_bind; [|auto]. destruct (is_nil _); auto.
  Qed.
  Lemma export_fields_mono x filt obj fs : forall data, rle (export_fields E fe x filt obj fs data) (export_fields E fe' x filt obj fs data).
  Proof.
    induction fs as [|[n f] fs IH]; intros data; cbn [export_fields]; [auto|].
    apply rle_bind; [apply export_field_mono|auto].
  Qed.
  Lemma export_loop_mono x c obj : rle (export_loop E fe x c obj) (export_loop E fe' x c obj).
  Proof. unfold export_loop. apply rle_bind; [auto|]. intros. apply export_fields_mono. Qed.
  Lemma list_export_loop_mono f lvl x l : forall data, rle (list_export_loop fe f lvl x l data) (list_export_loop fe' f lvl x l data).
  Proof. induction l as [|v l IH]; intros data; cbn [list_export_loop]; [auto|]. apply rle_bind; auto. Qed.
  Lemma dict_export_loop_mono f lvl x l : forall data, rle (dict_export_loop fe f lvl x l data) (dict_export_loop fe' f lvl x l data).
  Proof. induction l as [|[y v] l IH]; intros data; cbn [dict_export_loop]; [auto|]. apply rle_bind; auto. Qed.
  Lemma export_convert_mono x : forall f v, rle (export_convert E fe x f v) (export_convert E fe' x f v).
  Proof.
    fix IH 1. intros [o t] v. destruct t; cbn [export_convert]; auto.
    - apply rle_bind; [|auto]. induction ms as [|m ms IHm]; cbn [union_resolve]; [auto|].
      destruct (IH m v) as [-> | ->]; [auto|]. destruct (export_convert E fe' x m v) as [w|[]]; auto.
    - now apply list_convert_mono.
    - now apply dict_convert_mono.
  Qed.
  Lemma export_step_mono f v x : rle (export_step E fe f v x) (export_step E fe' f v x).
  Proof.
    unfold export_step. destruct (fs_type f); auto.
    - apply rle_bind; [apply union_resolve_mono, export_convert_mono|]. intros [m w]. auto.
    - unfold model_export. apply rle_bind; [apply export_loop_mono|auto].
    - unfold poly_export. destruct (poly_allowed E p v); [|auto]. destruct v; auto.
      apply rle_bind; [apply export_loop_mono|auto].
    - unfold list_export. destruct (Z.eqb _ _); [auto|]. apply rle_bind; [auto|]. intros l.
      apply rle_bind; [apply list_export_loop_mono|auto].
    - unfold dict_export. destruct (Z.eqb _ _); [auto|]. apply rle_bind; [auto|]. intros l.
      apply rle_bind; [apply dict_export_loop_mono|auto].
  Qed.
End ExMono.
Lemma export_at_mono E n : forall m f v x, n <= m -> rle (export_at E n f v x) (export_at E m f v x).
Proof.
  induction n as [|n IH]; intros m f v x Hm; [left; reflexivity|].
  destruct m as [|m]; [lia|]. cbn [export_at]. apply export_step_mono. intros. apply IH. lia.
Qed.
Lemma export_top_mono E n m c md x : n <= m ->
  rle (model_export_top E (export_at E n) c md x) (model_export_top E (export_at E m) c md x).
Proof. intros H. apply export_loop_mono. intros. now apply export_at_mono. Qed.
