(** Failures of the date and time types. *)
From Verif.Model Require Import Py Core Num Calendar Text Types DateTime.
From Verif.Spec Require Import TypeSpec DateSpec.
From Verif.Proofs Require Import CalendarLemmas DateTimeLemmas.
Local Open Scope Z_scope.

Lemma conv_field {A} m e : @conv_err A m = Raise e -> field_error e.
Proof. intros [= <-]. eexists. left. reflexivity. Qed.
(** The value is a number, or a text that writes one. *)
Definition numeric (R : runtime) (v : pyval) : Prop :=
  (exists f, py_float R v = Ok (Some f)) \/ exists z, v = VInt z /\ float_of_int z = Raise (XPy EOverflowError).
Definition odd_error (R : runtime) (l : leaf) (v : pyval) (e : exn) : Prop :=
  (e = XPy EOverflowError /\ numeric R v) \/
  (e = XPy ETypeError /\ exists b, v = VBytes b) \/
  (exists o x d t off, l = dt_type R o x /\ dt_convert o = true /\ reads R o v d t (Some off) /\
     ((e = XPy EValueError /\ 86400 <= Z.abs off) \/ (e = XPy EOverflowError /\ off <> 0 /\ Z.abs off < 86400))).

Lemma float_of_int_err z e : float_of_int z = Raise e -> e = XPy EOverflowError.
Proof. unfold float_of_int. destruct (binary_normalize _ _ _ _ _); congruence. Qed.
Lemma py_float_err R v e : py_float R v = Raise e -> e = XPy EOverflowError /\ exists z, v = VInt z /\ float_of_int z = Raise (XPy EOverflowError).
Proof.
  destruct v; cbn; try discriminate. destruct (float_of_int z) eqn:E; cbn; [discriminate|]. intros [= <-].
  pose proof (float_of_int_err _ _ E) as ->. eauto.
Qed.
Lemma timedelta_err p f e : timedelta_of p f = Raise e -> e = XPy EValueError \/ e = XPy EOverflowError.
Proof. destruct f as [|s| |s m x]; cbn [timedelta_of]; try discriminate; [intros [= <-]; auto..|]. cbv zeta. destruct (_ && _)%bool; [discriminate|]. intros [= <-]. auto. Qed.
Lemma add_us_err d t us e : add_us d t us = Raise e -> e = XPy EOverflowError.
Proof. unfold add_us. cbv zeta. destruct (_ && _)%bool; [discriminate|]. now intros [= <-]. Qed.
Lemma timestamp_err f e : from_timestamp f = Raise e -> e = XPy EOverflowError.
Proof.
  unfold from_timestamp. destruct (timedelta_of 1000000 f) as [us|x] eqn:E; cbn [rbind].
  - destruct (add_us _ _ us) as [[d t]|x] eqn:A; [discriminate|]. pose proof (add_us_err _ _ _ _ A) as ->. now intros [= <-].
  - destruct (timedelta_err _ _ _ E) as [->| ->]; [discriminate|now intros [= <-]].
Qed.
Lemma builtin_err R v e : dt_builtin R v = Raise e -> field_error e \/ (e = XPy EOverflowError /\ numeric R v) \/ (e = XPy ETypeError /\ exists b, v = VBytes b).
Proof.
  unfold dt_builtin. destruct (py_float R v) as [[f|]|x] eqn:E; cbn [rbind].
  - destruct (from_timestamp f) as [[x|]|x] eqn:F; cbn [rbind]; [discriminate| |].
    + intros H. left. now apply conv_field in H.
    + pose proof (timestamp_err _ _ F) as ->. intros [= <-]. right. left. split; [reflexivity|]. left. eauto.
  - destruct v; try (intros H; left; now apply conv_field in H).
    + destruct (dt_parse _ _); [discriminate|]. intros H. left. now apply conv_field in H.
    + intros [= <-]. eauto 6.
  - destruct (py_float_err _ _ _ E) as (-> & z & -> & Z). intros [= <-]. right. left. split; [reflexivity|]. right. eauto.
Qed.
Lemma normalize_err o d t off e : normalize o d t off = Raise e -> dt_convert o = true /\
  ((e = XPy EValueError /\ 86400 <= Z.abs off) \/ (e = XPy EOverflowError /\ off <> 0 /\ Z.abs off < 86400)).
Proof.
  unfold normalize. destruct (dt_convert o); [|discriminate]. unfold to_utc.
  destruct (Z.eqb_spec off 0); [discriminate|]. destruct (Z.ltb_spec (Z.abs off) 86400).
  - destruct (add_us _ _ _) as [[? ?]|x] eqn:A; cbn; [discriminate|]. pose proof (add_us_err _ _ _ _ A) as ->. intros [= <-]. auto 6.
  - cbn. intros [= <-]. auto.
Qed.
Theorem date_errors R l v e : date_leaf R l -> lf_native l v = Raise e -> field_error e \/ odd_error R l v e.
Proof.
  intros [fmts|o x|p]; cbn [lf_native date_type dt_type delta_type].
  - unfold date_native. destruct v; try discriminate; (destruct (first_format _ _); [discriminate|]; intros H; left; now apply conv_field in H).
  - assert (D : is_datetime v \/ ~ is_datetime v).
    { destruct v; try (right; intros (? & ? & ? & ?); discriminate). left. repeat eexists. }
    assert (Fin : forall d t off, reads R o v d t (Some off) -> forall e, normalize o d t off = Raise e -> odd_error R (dt_type R o x) v e).
    { intros d t off Hr e' H. apply normalize_err in H as [C H]. right. right. exists o, x, d, t, off. auto. }
    destruct D as [(d & t & z & ->)|N].
    + cbn [dt_native]. destruct z as [off|]; cbn [dt_given].
      * destruct (dt_policy o); try (destruct (normalize o d t off) eqn:E; cbn [rbind]; [discriminate|]; intros [= <-]; right; eapply Fin; [|exact E]; now left).
        intros H. left. now apply conv_field in H.
      * destruct (dt_drop o); [discriminate|]. destruct (dt_policy o); try discriminate. intros H. left. now apply conv_field in H.
    + rewrite not_dt by assumption. destruct (dt_read R (dt_how o) v) as [[[d t] z]|y] eqn:E; cbn [rbind].
      * destruct z as [off|]; cbn [dt_parsed].
        -- destruct (dt_policy o); try (destruct (normalize o d t off) eqn:E'; cbn [rbind]; [discriminate|]; intros [= <-]; right; eapply Fin; [|exact E']; now right).
           intros H. left. now apply conv_field in H.
        -- destruct (dt_policy o), (dt_drop o); try discriminate; intros H; left; now apply conv_field in H.
      * intros [= <-]. destruct (dt_how o); cbn [dt_read] in E.
        -- destruct (first_format _ _); [discriminate|]. left. now apply conv_field in E.
        -- destruct (f v); [discriminate|]. left. now apply conv_field in E.
        -- apply builtin_err in E as [E|[E|E]]; [auto|right; left; auto|right; right; left; auto].
  - intros H.
    assert (K : (exists us, v = VTimedelta us) \/ delta_native R p v = rbind (py_float R v) (fun o =>
         match o with
         | None => conv_err "convert"
         | Some f => match timedelta_of (unit_us p) f with
                     | Ok us => Ok (VTimedelta us)
                     | Raise (XPy EValueError) => conv_err "convert"
                     | Raise e => Raise e
                     end
         end)) by (destruct v; eauto).
    destruct K as [[us ->]|K]; [discriminate H|]. rewrite K in H. clear K.
    destruct (py_float R v) as [[f|]|y] eqn:E; cbn [rbind] in H.
    + destruct (timedelta_of (unit_us p) f) as [us|y] eqn:T; [discriminate|].
      destruct (timedelta_err _ _ _ T) as [->| ->].
      * left. now apply conv_field in H.
      * injection H as <-. right. left. split; [reflexivity|]. left. eauto.
    + left. now apply conv_field in H.
    + injection H as <-. destruct (py_float_err _ _ _ E) as (-> & z & -> & Z). right. left. split; [reflexivity|]. right. eauto.
Qed.
(** Each of them happens. *)
Lemma offset_escapes R : dt_native R (DtOpts Allow_tz true false PBuiltin) (VStr (u "2020-01-01T00:00+99:99")) = Raise (XPy EValueError).
Proof. reflexivity. Qed.
Lemma year_escapes R : dt_native R (DtOpts Allow_tz true false PBuiltin) (VStr (u "0001-01-01T00:00+01:00")) = Raise (XPy EOverflowError).
Proof. reflexivity. Qed.
Lemma infinity_escapes R o s : dt_how o = PBuiltin -> dt_native R o (VFloat (S754_infinity s)) = Raise (XPy EOverflowError).
Proof. intros H. unfold dt_native. rewrite H. reflexivity. Qed.
Lemma bytes_escape R o : dt_how o = PBuiltin -> dt_native R o (VBytes (u "2020-01-01T00:00")) = Raise (XPy ETypeError).
Proof. intros H. unfold dt_native. rewrite H. reflexivity. Qed.
Lemma delta_infinity R p s : delta_native R p (VFloat (S754_infinity s)) = Raise (XPy EOverflowError).
Proof. reflexivity. Qed.
(** Losses. *)
Lemma milliseconds_lost : delta_prim Milliseconds (VTimedelta 43000) = Ok (VInt 42).
Proof. vm_compute. reflexivity. Qed.
Lemma microseconds_lost : delta_prim Microseconds (VTimedelta 493) = Ok (VInt 492).
Proof. vm_compute. reflexivity. Qed.
Lemma ms_lost : exists us, us mod 1000 = 0 /\ delta_prim Milliseconds (VTimedelta us) = Ok (VInt (us / 1000 - 1)).
Proof. exists 43000. split; [reflexivity|exact milliseconds_lost]. Qed.
Lemma us_lost : exists us, delta_prim Microseconds (VTimedelta us) = Ok (VInt (us - 1)).
Proof. exists 493. exact microseconds_lost. Qed.
Lemma far_lost : exists d t, valid_date d = true /\ valid_time t = true /\ forall R,
    exists f t', dt_prim R XTimestamp (VDateTime d t (Some 0)) = Ok (VFloat f) /\
      dt_native R (timestamp_opts false) (VFloat f) = Ok (VDateTime d t' (Some 0)) /\ t' <> t.
Proof.
  exists (PyDate 2243 1 1), (PyTime 1 2 3 1). split; [reflexivity|]. split; [reflexivity|]. intros R.
  exists (total_seconds (stamp (PyDate 2243 1 1) (PyTime 1 2 3 1) - EPOCH)).
  eexists. split; [reflexivity|]. split; [vm_compute; reflexivity|]. discriminate.
Qed.
Lemma text_read R o s x : dt_how o = PBuiltin -> py_float R (VStr s) = Ok None ->
    (dt_read R (dt_how o) (VStr s) = Ok x <-> dt_parse (rt_uni R) s = Some x).
Proof.
  intros -> H. cbn [dt_read]. unfold dt_builtin. rewrite H. cbn [rbind].
  destruct (dt_parse (rt_uni R) s); unfold conv_err; split; congruence.
Qed.
