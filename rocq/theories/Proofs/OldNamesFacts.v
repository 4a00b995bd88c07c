(** Proofs for C116. *)
From Verif.Model Require Import Py Core Export Api Shadow MockObject OldNames.
From Verif.Spec Require Import ImportSpec.
From Verif.Proofs Require Import DictLemmas Fuel.
Open Scope string_scope.
Open Scope list_scope.

Lemma rle_both {A} (a b : res A) : rle a b -> rle b a -> a = b.
Proof. intros [->|H] [H'|H']; congruence. Qed.
Lemma rle_eq {A} (a b : res A) : a = b -> rle a b. Proof. intros ->. apply rle_refl. Qed.

Lemma not_hidden E c n : ~ In n (dkeys (fields_of E c)) -> hidden_by E c n = None.
Proof. apply dget_None_keys. Qed.
Lemma is_hidden E c n : In n (dkeys (fields_of E c)) -> exists f, hidden_by E c n = Some f.
Proof. intros H. apply dget_keys in H. unfold hidden_by. unfold fields_of in H. destruct (dget _ _); [eauto|contradiction]. Qed.

(** ** Classes without these names *)
Section Free.
  Context (E : env).
  Lemma free_exports n : (forall c, ~ In (k "fields") (dkeys (fields_of E c)) /\ ~ In (k "export") (dkeys (fields_of E c))) ->
    forall f v x, looked_export_at E n f v x = export_at E n f v x.
  Proof.
    intros H. induction n as [|n IH]; intros f v x; [reflexivity|]. cbn [looked_export_at export_at].
    transitivity (export_step E (looked_export_at E n) f v x).
    - unfold looked_export_step, export_step. destruct (fs_type f); auto.
      + unfold looked_model_export, model_export, class_export_loop, export_loop. rewrite not_hidden by apply H. reflexivity.
      + unfold looked_poly_export, poly_export. destruct (poly_allowed E p v); [|reflexivity]. destruct v; auto.
        unfold method. fold (hidden_by E c (k "export")). rewrite not_hidden by apply H. reflexivity.
    - apply rle_both; apply export_step_mono; intros; apply rle_eq; auto.
  Qed.
  Lemma free_conversions n : (forall c, ~ In (k "convert") (dkeys (fields_of E c))) ->
    (forall f v x, cv_field (looked_conv_at E n) f v x = cv_field (conv_at E n) f v x) /\
    (forall f v x, cv_convert (looked_conv_at E n) f v x = cv_convert (conv_at E n) f v x) /\
    (forall f v x, cv_validate (looked_conv_at E n) f v x = cv_validate (conv_at E n) f v x) /\
    (forall f v, cv_pre (looked_conv_at E n) f v = cv_pre (conv_at E n) f v).
  Proof.
    intros H. induction n as [|n (I1 & I2 & I3 & I4)]; [do 3 (split; [reflexivity|]); reflexivity|]. cbn [looked_conv_at conv_at].
    assert (A : cle (looked_conv_at E n) (conv_at E n)) by (constructor; intros; apply rle_eq; auto).
    assert (B : cle (conv_at E n) (looked_conv_at E n)) by (constructor; intros; apply rle_eq; symmetry; auto).
    apply (conv_step_mono E) in A, B. destruct A as [A1 A2 A3 A4], B as [B1 B2 B3 B4].
    assert (Q : forall f v x, cv_convert (looked_conv_step E (looked_conv_at E n)) f v x = cv_convert (conv_step E (looked_conv_at E n)) f v x).
    { intros f v x. cbn. unfold looked_convert_step, convert_step. destruct (fs_type f); auto. unfold looked_model_convert, model_convert.
      destruct v; auto; rewrite not_hidden by apply H; reflexivity. }
    repeat apply conj.
    - intros. apply rle_both; [apply A1|apply B1].
    - intros. rewrite Q. apply rle_both; [apply A2|apply B2].
    - intros. apply rle_both; [apply A3|apply B3].
    - intros. apply rle_both; [apply A4|apply B4].
  Qed.
End Free.

(** ** In general: the same, or an exception *)
Definition ple {A} (a b : res A) : Prop := (exists e, a = Raise (XPy e)) \/ a = b.
Lemma ple_refl {A} (a : res A) : ple a a. Proof. right; reflexivity. Qed.
Lemma ple_bind {A B} (a b : res A) (g h : A -> res B) : ple a b -> (forall x, ple (g x) (h x)) -> ple (rbind a g) (rbind b h).
Proof. intros [[e ->] | ->] H; [left; eexists; reflexivity|]. destruct b as [x|e]; cbn; [apply H|right; reflexivity]. Qed.
#[local] Hint Resolve ple_refl : core.
Section Same.
  Context (E : env) (fe fe' : fspec -> pyval -> ectx -> res pyval).
  Hypothesis Hfe : forall f v x, ple (fe f v x) (fe' f v x).
  Lemma p_fields x filt obj fs : forall data, ple (export_fields E fe x filt obj fs data) (export_fields E fe' x filt obj fs data).
  Proof.
    induction fs as [|[n f] fs IH]; intros data; cbn [export_fields]; [auto|].
    apply ple_bind; [|auto]. unfold export_field. destruct (match filt with Some g => _ | None => _ end); [auto|]. cbn zeta.
    destruct (Z.eqb _ _); [auto|]. apply ple_bind; [|auto]. destruct (is_nil _); auto.
  Qed.
  Lemma p_loop x c obj : ple (export_loop E fe x c obj) (export_loop E fe' x c obj).
  Proof. unfold export_loop. apply ple_bind; [auto|]. intros. apply p_fields. Qed.
  Lemma p_list_loop f x l : forall i data errs, ple (list_loop (fun h u _ => fe h u x) f default_ctx i l data errs) (list_loop (fun h u _ => fe' h u x) f default_ctx i l data errs).
  Proof.
    induction l as [|v l IH]; intros i data errs; cbn [list_loop]; [auto|].
    destruct (Hfe f v x) as [[e ->] | ->]; [left; eexists; reflexivity|]. destruct (fe' f v x) as [w|e]; [apply IH|].
    destruct (is_base_error e); [apply IH|auto].
  Qed.
  Lemma p_dict_loop f ck x l : forall data errs, ple (dict_loop (fun h u _ => fe h u x) f ck default_ctx l data errs) (dict_loop (fun h u _ => fe' h u x) f ck default_ctx l data errs).
  Proof.
    induction l as [|[y v] l IH]; intros data errs; cbn [dict_loop]; [auto|].
    destruct (Hfe f v x) as [[e ->] | ->]; [left; eexists; reflexivity|]. destruct (rbind _ _) as [[y' w]|e]; [apply IH|].
    destruct (is_base_error e); [apply IH|auto].
  Qed.
  Lemma p_union cvt cvt' ms v : (forall m u, ple (cvt m u) (cvt' m u)) -> ple (union_resolve cvt ms v) (union_resolve cvt' ms v).
  Proof.
    intros H. induction ms as [|m ms IH]; cbn; [auto|].
    destruct (H m v) as [[e ->] | ->]; [left; eexists; reflexivity|]. destruct (cvt' m v) as [w|[]]; auto.
  Qed.
  Lemma p_convert x : forall f v, ple (export_convert E fe x f v) (export_convert E fe' x f v).
  Proof.
    fix IH 1. intros [o t] v. destruct t; cbn [export_convert]; auto.
    - apply ple_bind; [|auto]. induction ms as [|m ms IHm]; cbn [union_resolve]; [auto|].
      destruct (IH m v) as [[e ->] | ->]; [left; eexists; reflexivity|]. destruct (export_convert E fe' x m v) as [w|[]]; auto.
    - unfold list_convert. destruct (list_elems E v); [|auto]. apply ple_bind; [apply p_list_loop|auto].
    - unfold dict_convert. destruct v; auto. apply ple_bind; [apply p_dict_loop|auto].
  Qed.
  Lemma p_export_list f lvl x l : forall data, ple (list_export_loop fe f lvl x l data) (list_export_loop fe' f lvl x l data).
  Proof. induction l as [|v l IH]; intros data; cbn [list_export_loop]; [auto|]. apply ple_bind; auto. Qed.
  Lemma p_export_dict f lvl x l : forall data, ple (dict_export_loop fe f lvl x l data) (dict_export_loop fe' f lvl x l data).
  Proof. induction l as [|[y v] l IH]; intros data; cbn [dict_export_loop]; [auto|]. apply ple_bind; auto. Qed.
  Hypothesis Plain : forall c f, dget (k "export") (fields_of E c) = Some f -> fd_get f = None.
  Lemma p_step f v x : ple (looked_export_step E fe f v x) (export_step E fe' f v x).
  Proof.
    unfold looked_export_step, export_step. destruct (fs_type f); auto.
    - apply ple_bind; [apply p_union, p_convert|]. intros [m w]. auto.
    - unfold looked_model_export, model_export, class_export_loop, export_loop. apply ple_bind; [|auto]. apply ple_bind; [auto|].
      intros filt. destruct (hidden_by E _ _); [left; eexists; reflexivity|apply p_fields].
    - unfold looked_poly_export, poly_export. destruct (poly_allowed E p v); [|auto]. destruct v; auto.
      unfold method. destruct (dget (k "export") (mc_fields (e_class E c))) as [g|] eqn:G.
      + left. unfold field_get. rewrite (Plain c g G). destruct (chain_get _ _) as [w|]; [destruct (is_undef w)|]; eexists; reflexivity.
      + apply ple_bind; [apply p_loop|auto].
    - unfold list_export. destruct (Z.eqb _ _); [auto|]. apply ple_bind; [auto|]. intros l.
      apply ple_bind; [apply p_export_list|auto].
    - unfold dict_export. destruct (Z.eqb _ _); [auto|]. apply ple_bind; [auto|]. intros l.
      apply ple_bind; [apply p_export_dict|auto].
  Qed.
End Same.
Lemma p_at E n : (forall c f, dget (k "export") (fields_of E c) = Some f -> fd_get f = None) ->
  forall f v x, ple (looked_export_at E n f v x) (export_at E n f v x).
Proof. intros P. induction n as [|n IH]; intros f v x; [right; reflexivity|]. cbn [looked_export_at export_at]. now apply p_step. Qed.
Lemma same_or_fails E n c m x : (forall c f, dget (k "export") (fields_of E c) = Some f -> fd_get f = None) ->
  (exists e, model_export_top E (looked_export_at E n) c m x = Raise (XPy e)) \/
  model_export_top E (looked_export_at E n) c m x = model_export_top E (export_at E n) c m x.
Proof. intros P. apply p_loop. intros. now apply p_at. Qed.

(** ** What hidden names do *)
Lemma nested_fields E n o c v x w : In (k "fields") (dkeys (fields_of E (match v with VModel d _ => d | _ => c end))) ->
  looked_export_at E n (FS o (TModel c)) v x <> Ok w.
Proof.
  intros H. apply is_hidden in H as (f & H). destruct n as [|n]; cbn [looked_export_at]; [discriminate|].
  unfold looked_export_step. cbn [fs_type]. unfold looked_model_export, class_export_loop. rewrite H.
  destruct (export_filter _ _); discriminate.
Qed.
Lemma nested_fields_error E n o c v x filt : In (k "fields") (dkeys (fields_of E (match v with VModel d _ => d | _ => c end))) ->
  export_filter (e_class E (match v with VModel d _ => d | _ => c end)) x = Ok filt ->
  looked_export_at E (S n) (FS o (TModel c)) v x = Raise (XPy EAttributeError).
Proof.
  intros H F. apply is_hidden in H as (f & H). cbn [looked_export_at].
  unfold looked_export_step. cbn [fs_type]. unfold looked_model_export, class_export_loop. rewrite H, F. reflexivity.
Qed.
Lemma fields_hidden E n o c v x : In (k "fields") (dkeys (fields_of E (match v with VModel d _ => d | _ => c end))) ->
  (forall w, looked_export_at E n (FS o (TModel c)) v x <> Ok w) /\
  (forall filt, n <> 0%nat -> export_filter (e_class E (match v with VModel d _ => d | _ => c end)) x = Ok filt ->
     looked_export_at E n (FS o (TModel c)) v x = Raise (XPy EAttributeError)).
Proof.
  intros H. split; [intros w; now apply nested_fields|]. intros filt N F. destruct n as [|n]; [contradiction|].
  eapply nested_fields_error; eauto.
Qed.
Lemma fields_fails E fe x filt obj n f fs : In (n, f) fs ->
  (forall o, export_field E fe x filt obj n f <> Ok o) -> forall data d, export_fields E fe x filt obj fs data <> Ok d.
Proof.
  intros I H. induction fs as [|[n' f'] fs IH]; [destruct I|]. intros data d. cbn [export_fields].
  destruct I as [I|I].
  - injection I as -> ->. destruct (export_field E fe x filt obj n f) as [o|e]; [now destruct (H o)|discriminate].
  - destruct (export_field E fe x filt obj n' f') as [o|e]; cbn [rbind]; [now apply IH|discriminate].
Qed.
Lemma whole_fails E n c m x filt y f d v w :
  export_filter (e_class E c) x = Ok filt -> In (y, f) (fields_of E c) -> fs_type (fd_spec f) = TModel d ->
  atom_value E (VModel c m) y = v -> is_nil v = false -> match filt with Some g => g y v | None => false end = false ->
  get_export_level E (fd_spec f) x <> DROP ->
  In (k "fields") (dkeys (fields_of E (match v with VModel d _ => d | _ => d end))) ->
  model_export_top E (looked_export_at E n) c m x <> Ok w.
Proof.
  intros F I T V N G L H. unfold model_export_top, export_loop. rewrite F. cbn [rbind]. eapply fields_fails; [exact I|].
  intros o. unfold export_field. rewrite V, G. cbn zeta. destruct (Z.eqb_spec (get_export_level E (fd_spec f) x) DROP); [contradiction|].
  rewrite N. destruct (looked_export_at E n (fd_spec f) v x) as [u|e] eqn:Q; cbn [rbind]; [|discriminate].
  exfalso. destruct (fd_spec f) as [op t]. cbn in T. subst t. now apply (nested_fields E n op d v x u) in H.
Qed.
Lemma poly_hidden E n o p c m x w : In (k "export") (dkeys (fields_of E c)) -> looked_export_at E n (FS o (TPoly p)) (VModel c m) x <> Ok w.
Proof.
  intros H. apply is_hidden in H as (f & H). destruct n as [|n]; cbn [looked_export_at]; [discriminate|].
  unfold looked_export_step. cbn [fs_type]. unfold looked_poly_export. destruct (poly_allowed E p _); [|discriminate].
  unfold method. unfold hidden_by in H. rewrite H. discriminate.
Qed.
Lemma convert_hidden_field E n o c d x f : cx_convert x && cx_oo x = false -> dget (k "convert") (fields_of E c) = Some f -> fd_get f = None ->
  cv_convert (looked_conv_at E (S n)) (FS o (TModel c)) (VDict d) x = cv_convert (looked_conv_at E n) (fd_spec f) (VDict d) x.
Proof. intros X G P. cbn. unfold looked_model_convert, hidden_by. unfold fields_of in G. now rewrite X, G, P. Qed.
Lemma convert_instances E n o c v x : cx_convert x = true -> cx_oo x = true ->
  cv_convert (looked_conv_at E (S n)) (FS o (TModel c)) v x = model_convert E (cv_field (looked_conv_at E n)) (cv_pre (looked_conv_at E n)) c v x.
Proof. intros C O. cbn. unfold looked_model_convert, model_convert. now rewrite C, O. Qed.

(** ** Mock objects *)
Section Mocks.
  Context {St : Type} (R : rng St) (fields : cid -> list (key * mfield St)) (make : cid -> list (key * pyval) -> res pyval).
  Lemma times_ext {A} (g h : mockm A) n : (forall w, g w = h w) -> forall w : @world St, times n g w = times n h w.
  Proof. intros H. induction n as [|n IH]; intros w; cbn; [reflexivity|]. rewrite H. destruct (h w) as [[e|v] w1]; [reflexivity|]. now rewrite IH. Qed.
  Lemma type_mock_ext (g h : cid -> mockm pyval) t : (forall c w, g c w = h c w) -> forall w, type_mock R g t w = type_mock R h t w.
  Proof.
    intros H. induction t as [d|m|c|lo hi ch t IH]; intros w; cbn; auto. destruct (Mock.range_endpoints lo hi 0 0) as [[a b]|]; [|reflexivity].
    destruct (rnd_int R a b (snd w)) as [n s]. rewrite (times_ext _ _ _ IH). reflexivity.
  Qed.
  Lemma field_values_ext (g h : cid -> mockm pyval) ov fs : (forall c w, g c w = h c w) -> forall vs w, field_values R g ov fs vs w = field_values R h ov fs vs w.
  Proof.
    intros H. induction fs as [|[x f] fs IH]; intros vs w; cbn [field_values]; [reflexivity|]. rewrite !IH.
    replace (field_mock R h f w) with (field_mock R g f w).
    - destruct (dmem x ov); [reflexivity|]. destruct (seen f (fst w)); [reflexivity|].
      destruct (field_mock R g f w) as [[[]|] ?]; auto.
    - unfold field_mock. destruct (mf_choices f); [reflexivity|]. destruct (mf_required f); [now apply type_mock_ext|].
      destruct (rnd_coin R (snd w)) as [[] s]; [now apply type_mock_ext|reflexivity].
  Qed.
  Lemma mock_hidden n ov c w : dmem (k "fields") (fields c) = true -> n <> 0%nat ->
    fst (looked_mock_object R fields make n ov c w) = inl (Other (XPy EAttributeError)).
  Proof. intros H N. destruct n as [|n]; [contradiction|]. cbn [looked_mock_object]. now rewrite H. Qed.
  Lemma mock_free n : (forall c, dmem (k "fields") (fields c) = false) ->
    forall ov c w, looked_mock_object R fields make n ov c w = mock_object R fields make n ov c w.
  Proof.
    intros H. induction n as [|n IH]; intros ov c w; [reflexivity|]. cbn [looked_mock_object mock_object]. rewrite H.
    rewrite (field_values_ext (looked_mock_object R fields make n []) (mock_object R fields make n [])); [reflexivity|]. intros; apply IH.
  Qed.
End Mocks.
