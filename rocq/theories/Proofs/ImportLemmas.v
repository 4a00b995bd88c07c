(** The import loop agrees with Spec/ImportSpec.v. *)
From Verif.Model Require Import Py Core.
From Verif.Spec Require Import ImportSpec.
From Verif.Proofs Require Import DictLemmas.

Lemma find_ext {A} (p q : A -> bool) l : (forall y, In y l -> p y = q y) -> find p l = find q l.
Proof.
  induction l as [|y l IH]; cbn; intros H; [reflexivity|].
  rewrite (H y) by auto. destruct (q y); auto.
Qed.
Lemma find_filter {A} (p q : A -> bool) l : find p (filter q l) = find (fun y => q y && p y) l.
Proof.
  induction l as [|y l IH]; cbn; [reflexivity|].
  destruct (q y); cbn; [destruct (p y)|]; auto.
Qed.

(** Python's search for an alternative key is a [find]. *)
Lemma find_alt_find E d n ks :
  find_alt E (VDict d) n ks =
  match find (fun y => key_true y && (negb (key_eqb y n) && dmem y d)) ks with
  | Some y => match dget y d with Some v => Ok v | None => Raise (XPy EKeyError) end
  | None => Ok VUndef
  end.
Proof.
  induction ks as [|y ks IH]; cbn; [reflexivity|].
  rewrite <- andb_assoc.
  destruct (key_true y && (negb (key_eqb y n) && dmem y d)); [reflexivity|exact IH].
Qed.

Lemma key_true_iff y : key_true y = true <-> y <> KStr [] /\ y <> KInt 0.
Proof.
  destruct y as [[|a s]|z]; cbn; [|split; [now split|reflexivity]|].
  - split; [discriminate|]. intros [H _]. now destruct H.
  - rewrite negb_true_iff, Z.eqb_neq. split; [intros H; split; congruence|]. intros [_ H] ->. now apply H.
Qed.
Lemma accepted_names_iff n f mp y :
  In y (accepted_names n f mp) <->
  y = n \/ (y <> KStr [] /\ y <> KInt 0 /\
            (fo_sname (fs_opts f) = Some y \/ (exists l, dget n (given_names mp) = Some l /\ In y l) \/ In y (fo_dfrom (fs_opts f)))).
Proof.
  unfold accepted_names. cbn [In]. rewrite filter_In, !in_app_iff, key_true_iff.
  assert (A : In y (match fo_sname (fs_opts f) with Some s => [s] | None => [] end) <-> fo_sname (fs_opts f) = Some y).
  { destruct (fo_sname (fs_opts f)) as [s|]; cbn; [|split; [intros []|discriminate]]. split; [intros [->|[]]; reflexivity|].
    intros [= ->]. now left. }
  assert (B : In y (match dget n (given_names mp) with Some l => l | None => [] end) <->
              exists l, dget n (given_names mp) = Some l /\ In y l).
  { destruct (dget n (given_names mp)) as [l|]; cbn.
    - split; [intros H; now exists l|]. intros (l' & [= ->] & H). exact H.
    - split; [intros []|]. intros (l' & K & _). discriminate. }
  rewrite A, B. split; intros [H|H]; auto; right; tauto.
Qed.
Lemma public_name_cases n f :
  (fo_sname (fs_opts (fd_spec f)) = None -> public_name n f = n) /\
  (forall s, fo_sname (fs_opts (fd_spec f)) = Some s ->
     ((s = KStr [] \/ s = KInt 0) -> public_name n f = n) /\ (s <> KStr [] -> s <> KInt 0 -> public_name n f = s)).
Proof.
  unfold public_name. split; [now intros ->|]. intros s ->. split.
  - now intros [-> | ->].
  - intros H1 H2. now rewrite (proj2 (key_true_iff s) (conj H1 H2)).
Qed.

Lemma atom_value_dict E d n :
  atom_value E (VDict d) n = match dget n d with Some v => v | None => VUndef end.
Proof. unfold atom_value; cbn; destruct (dget n d); reflexivity. Qed.

Definition opt_undef (o : option pyval) : pyval := match o with Some v => v | None => VUndef end.

Lemma defined_not_undef d y v : defined_dict d -> dget y d = Some v -> is_undef v = false.
Proof. intros H G; destruct v; try reflexivity. now destruct (H y). Qed.

(** The value read by the loop is the supplied one. *)
Lemma loop_reads E d n f mp : defined_dict d ->
  (if is_undef (atom_value E (VDict d) n)
   then find_alt E (VDict d) n (input_keys n f mp) else Ok (atom_value E (VDict d) n))
  = Ok (opt_undef (supplied d n f mp)).
Proof.
  intros Hd; rewrite atom_value_dict.
  unfold supplied, accepted_names; cbn [find].
  destruct (dget n d) as [v|] eqn:G.
  - rewrite (defined_not_undef d n v Hd G).
    replace (dmem n d) with true by (unfold dmem; now rewrite G).
    now rewrite G.
  - cbn [is_undef]. rewrite find_alt_find.
    replace (dmem n d) with false by (unfold dmem; now rewrite G).
    unfold input_keys. cbn [app find].
    rewrite key_eqb_refl. rewrite andb_false_r.
    rewrite find_filter.
    assert (Hx : forall l, find (fun y => key_true y && (negb (key_eqb y n) && dmem y d)) l
                           = find (fun y => key_true y && dmem y d) l).
    { intros l; apply find_ext; intros y _.
      destruct (key_eqb_spec y n) as [->|_]; cbn; [|reflexivity].
      unfold dmem; rewrite G; reflexivity. }
    rewrite Hx.
    assert (Hs : forall l, find (fun y => key_true y && dmem y d)
         (match fo_sname (fs_opts f) with Some s => if key_true s then [s] else [] | None => [] end ++ l)
       = find (fun y => key_true y && dmem y d)
         (match fo_sname (fs_opts f) with Some s => [s] | None => [] end ++ l)).
    { intros l; destruct (fo_sname (fs_opts f)) as [s|]; [|reflexivity].
      destruct (key_true s) eqn:T; cbn; [reflexivity|]. rewrite T; reflexivity. }
    rewrite Hs.
    destruct (find _ _) as [y|] eqn:Fy; [|reflexivity].
    apply find_some in Fy as [_ Fy]. apply andb_true_iff in Fy as [_ Fy].
    unfold dmem in Fy. destruct (dget y d); [reflexivity|discriminate].
Qed.

Lemma supplied_defined d n f mp v : defined_dict d -> supplied d n f mp = Some v -> is_undef v = false.
Proof.
  unfold supplied; intros Hd; destruct (find _ _) as [y|]; [|discriminate].
  apply defined_not_undef, Hd.
Qed.

(** One round of the loop is one [field_outcome]. *)
Definition apply_outcome (x : ictx) (n : key) (f : fspec) (o : outcome) (s : lstate) : res lstate :=
  let '(data, errors) := s in
  match o with
  | Keep => Ok s
  | Store v => Ok (dset n v data, errors)
  | Fail e =>
      if caught_by_loop e then
        Ok (match fallback x f e None with Some v => dset n v data | None => data end,
            dset (sname_of n f) (err_node e) errors)
      else Raise e
  end.

Lemma dset_dset {A} n (v w : A) d : dset n w (dset n v d) = dset n w d.
Proof.
  induction d as [|[y z] d IH]; cbn; [now rewrite key_eqb_refl|].
  destruct (key_eqb n y) eqn:Q; cbn; rewrite Q; [reflexivity|now rewrite IH].
Qed.

Lemma import_field_outcome E fc x d td n f data errors :
  defined_dict d -> dget n data = dget n td ->
  import_field E fc x true (VDict d) n f (data, errors)
  = apply_outcome x n (fd_spec f) (field_outcome E fc x d td n (fd_spec f)) (data, errors).
Proof.
  intros Hd Hn. unfold import_field. cbn [andb].
  rewrite loop_reads by assumption. cbn [rbind].
  unfold field_outcome.
  assert (Hmem : dmem n data = match dget n td with Some _ => true | None => false end).
  { unfold dmem; now rewrite Hn. }
  assert (Hst : forall w, (if is_undef w then Ok (data, errors) else Ok (dset n w data, errors))
            = apply_outcome x n (fd_spec f) (match w with VUndef => Keep | _ => Store w end) (data, errors)).
  { intros [] ; reflexivity. }
  set (sp := fd_spec f) in *.
  assert (Hfail : forall e, caught_by_loop e = true ->
     @Ok lstate (match e with
         | XData _ pd => dset n (VDict pd)
              (if cx_apply_defaults x && negb (is_undef (fo_default (fs_opts sp)))
               then dset n (fo_default (fs_opts sp)) data else data)
         | _ => if cx_apply_defaults x && negb (is_undef (fo_default (fs_opts sp)))
                then dset n (fo_default (fs_opts sp)) data else data
         end, dset (sname_of n sp) (err_node e) errors)
     = apply_outcome x n sp (Fail e) (data, errors)).
  { intros e He. unfold apply_outcome. rewrite He. do 2 f_equal. unfold fallback.
    destruct e; cbn in He; try discriminate;
      try (destruct (cx_apply_defaults x), (fo_default (fs_opts sp)); cbn; reflexivity).
    destruct (cx_apply_defaults x && negb (is_undef (fo_default (fs_opts sp)))); [|reflexivity].
    apply dset_dset. }
  assert (Hrun : forall v3 sup, v3 = candidate x sp sup ->
     match fc sp v3 (field_ctx E x n sp) with
     | Ok w => if is_undef w then Ok (data, errors) else Ok (dset n w data, errors)
     | Raise e =>
          if caught_by_loop e then
            Ok (match e with
                | XData _ pd => dset n (VDict pd)
                     (if cx_apply_defaults x && negb (is_undef (fo_default (fs_opts sp)))
                      then dset n (fo_default (fs_opts sp)) data else data)
                | _ => if cx_apply_defaults x && negb (is_undef (fo_default (fs_opts sp)))
                       then dset n (fo_default (fs_opts sp)) data else data
                end, dset (sname_of n sp) (err_node e) errors)
          else Raise e
     end = apply_outcome x n sp
             match fc sp (candidate x sp sup) (field_ctx E x n sp) with
             | Ok VUndef => Keep | Ok w => Store w | Raise e => Fail e end (data, errors)).
  { intros v3 sup ->. destruct (fc sp (candidate x sp sup) (field_ctx E x n sp)) as [w|e].
    - rewrite Hst. destruct w; reflexivity.
    - destruct (caught_by_loop e) eqn:C.
      + rewrite <- Hfail by assumption. reflexivity.
      + unfold apply_outcome. now rewrite C. }
  destruct (supplied d n sp (cx_mapping x)) as [v|] eqn:S; cbn [opt_undef].
  - pose proof (supplied_defined _ _ _ _ _ Hd S) as Hu. rewrite Hu. cbn [andb].
    rewrite Hu. cbn [andb]. rewrite (Hrun v (Some v)) by reflexivity. reflexivity.
  - cbn [is_undef andb]. rewrite Hmem.
    destruct (dget n td) as [t|]; [reflexivity|].
    rewrite (Hrun _ None); [reflexivity|].
    unfold candidate. destruct (cx_apply_defaults x); cbn [is_undef andb].
    + destruct (fo_default (fs_opts sp)); reflexivity.
    + reflexivity.
Qed.

(** The handled fields with their outcomes, in order. *)
Definition handledb (x : ictx) (f : field) : bool := cx_validate x || negb (has_setter f).
Lemma handledb_spec x f : handledb x f = true <-> handled x f.
Proof.
  unfold handledb, handled. destruct (cx_validate x), (has_setter f); cbn; firstorder congruence.
Qed.

Definition active (x : ictx) (fs : list (key * field)) := filter (fun p => handledb x (snd p)) fs.

Fixpoint run_outcomes (E : env) (fc : fspec -> pyval -> ictx -> res pyval) (x : ictx)
    (d td : list (key * pyval)) (fs : list (key * field)) (s : lstate) : res lstate :=
  match fs with
  | [] => Ok s
  | (n, f) :: r => rbind (apply_outcome x n (fd_spec f) (field_outcome E fc x d td n (fd_spec f)) s)
                         (run_outcomes E fc x d td r)
  end.

Lemma apply_outcome_frame x n f o data errors data' errors' y :
  apply_outcome x n f o (data, errors) = Ok (data', errors') -> y <> n -> dget y data' = dget y data.
Proof.
  destruct o as [|v|e]; cbn.
  - now intros [= -> ->].
  - intros [= <- <-] H. now rewrite dget_dset_neq.
  - destruct (caught_by_loop e); [|discriminate]. intros [= <- <-] H.
    destruct (fallback x f e None); [now rewrite dget_dset_neq|reflexivity].
Qed.

Lemma import_fields_outcomes E fc x d td fs data errors :
  defined_dict d -> NoDup (dkeys fs) ->
  (forall n, In n (dkeys fs) -> dget n data = dget n td) ->
  import_fields E fc x true (VDict d) fs (data, errors)
  = run_outcomes E fc x d td (active x fs) (data, errors).
Proof.
  intros Hd; revert data errors; induction fs as [|[n f] fs IH]; intros data errors Hnd Ht; [reflexivity|].
  inversion Hnd as [|? ? Hn1 Hn2]; subst. cbn [import_fields active filter snd].
  unfold handledb at 1.
  replace (cx_validate x || negb (has_setter f)) with (negb (negb (cx_validate x) && has_setter f))
    by (destruct (cx_validate x), (has_setter f); reflexivity).
  destruct (negb (cx_validate x) && has_setter f); cbn [negb].
  - apply IH; [assumption|]. intros m Hm; apply Ht; cbn; auto.
  - cbn [run_outcomes].
    rewrite (import_field_outcome E fc x d td) by (try assumption; apply Ht; cbn; auto).
    destruct (apply_outcome x n (fd_spec f) _ (data, errors)) as [[data1 errors1]|e] eqn:A; [|reflexivity].
    cbn [rbind]. apply IH; [assumption|].
    intros m Hm. erewrite apply_outcome_frame by (try exact A; intros ->; contradiction).
    apply Ht; cbn; auto.
Qed.

(** A crash is an exception no handler of the loop catches. *)
Definition crash (E : env) fc x d td n f e : Prop :=
  field_outcome E fc x d td n (fd_spec f) = Fail e /\ caught_by_loop e = false.

Lemma run_outcomes_ok E fc x d td fs s :
  (forall n f e, In (n, f) fs -> ~ crash E fc x d td n f e) -> exists s', run_outcomes E fc x d td fs s = Ok s'.
Proof.
  revert s; induction fs as [|[n f] fs IH]; intros [data errors] H; cbn; [eauto|].
  destruct (field_outcome E fc x d td n (fd_spec f)) as [|v|e] eqn:O; cbn.
  - apply IH; intros; apply H; cbn; auto.
  - apply IH; intros; apply H; cbn; auto.
  - destruct (caught_by_loop e) eqn:C; cbn.
    + apply IH; intros; apply H; cbn; auto.
    + exfalso; apply (H n f e); [cbn; auto|]. split; assumption.
Qed.

Lemma run_outcomes_raise E fc x d td fs s e :
  run_outcomes E fc x d td fs s = Raise e ->
  exists n f, In (n, f) fs /\ crash E fc x d td n f e.
Proof.
  revert s; induction fs as [|[n f] fs IH]; intros [data errors]; cbn; [discriminate|].
  destruct (field_outcome E fc x d td n (fd_spec f)) as [|v|e'] eqn:O; cbn.
  - intros H; destruct (IH _ H) as (m & g & Hi & Hc); exists m, g; auto.
  - intros H; destruct (IH _ H) as (m & g & Hi & Hc); exists m, g; auto.
  - destruct (caught_by_loop e') eqn:C; cbn.
    + intros H; destruct (IH _ H) as (m & g & Hi & Hc); exists m, g; auto.
    + intros [= <-]. exists n, f; split; [auto|split; assumption].
Qed.

Lemma run_outcomes_no_crash E fc x d td fs s s' :
  run_outcomes E fc x d td fs s = Ok s' -> forall n f e, In (n, f) fs -> ~ crash E fc x d td n f e.
Proof.
  revert s; induction fs as [|[n f] fs IH]; intros [data errors]; cbn; [tauto|].
  destruct (field_outcome E fc x d td n (fd_spec f)) as [|v|e'] eqn:O; cbn.
  - intros H m g e [[= -> ->]|Hi]; [intros [C1 C2]; congruence|eapply IH; eassumption].
  - intros H m g e [[= -> ->]|Hi]; [intros [C1 C2]; congruence|eapply IH; eassumption].
  - destruct (caught_by_loop e') eqn:C; cbn; [|discriminate].
    intros H m g e [[= -> ->]|Hi]; [intros [C1 C2]; congruence|eapply IH; eassumption].
Qed.

(** Final data. *)
Lemma run_outcomes_data_frame E fc x d td fs data errors data' errors' y :
  run_outcomes E fc x d td fs (data, errors) = Ok (data', errors') -> ~ In y (dkeys fs) ->
  dget y data' = dget y data.
Proof.
  revert data errors; induction fs as [|[n f] fs IH]; intros data errors; cbn [run_outcomes]; [now intros [= -> ->]|].
  destruct (apply_outcome _ _ _ _ _) as [[data1 errors1]|e] eqn:A; cbn [rbind dkeys map fst In]; [|discriminate].
  intros H Hn. rewrite (IH _ _ H) by (intros Hi; apply Hn; cbn; auto).
  eapply apply_outcome_frame; [exact A|]. intros ->; apply Hn; cbn; auto.
Qed.

Lemma fallback_old x f e old :
  fallback x f e old = match fallback x f e None with Some v => Some v | None => old end.
Proof.
  unfold fallback. destruct e; try reflexivity;
    destruct (cx_apply_defaults x), (fo_default (fs_opts f)); reflexivity.
Qed.

Lemma apply_outcome_at x n f o data errors data' errors' :
  apply_outcome x n f o (data, errors) = Ok (data', errors') ->
  dget n data' = value_after x f o (dget n data).
Proof.
  destruct o as [|v|e]; cbn.
  - now intros [= -> ->].
  - intros [= <- <-]. now rewrite dget_dset_eq.
  - destruct (caught_by_loop e); [|discriminate]. intros [= <- <-].
    rewrite (fallback_old x f e (dget n data)). destruct (fallback x f e None); [apply dget_dset_eq|reflexivity].
Qed.

Lemma run_outcomes_data E fc x d td fs data errors data' errors' n f :
  NoDup (dkeys fs) ->
  run_outcomes E fc x d td fs (data, errors) = Ok (data', errors') -> In (n, f) fs ->
  dget n data' = value_after x (fd_spec f) (field_outcome E fc x d td n (fd_spec f)) (dget n data).
Proof.
  revert data errors; induction fs as [|[m g] fs IH]; intros data errors Hnd; cbn [run_outcomes]; [cbn; tauto|].
  inversion Hnd as [|? ? H1 H2]; subst.
  destruct (apply_outcome _ _ _ _ _) as [[data1 errors1]|e] eqn:A; cbn [rbind]; [|discriminate].
  intros H [[= -> ->]|Hi].
  - rewrite (run_outcomes_data_frame _ _ _ _ _ _ _ _ _ _ _ H) by assumption.
    eapply apply_outcome_at; exact A.
  - rewrite (IH _ _ H2 H Hi). f_equal.
    eapply apply_outcome_frame; [exact A|]. intros ->; apply H1. apply (in_map fst) in Hi; exact Hi.
Qed.

(** Final errors. *)
Lemma run_outcomes_errors E fc x d td fs data errors data' errors' y :
  run_outcomes E fc x d td fs (data, errors) = Ok (data', errors') ->
  (In y (dkeys errors') <-> In y (dkeys errors) \/
     exists n f e, In (n, f) fs /\ fails E fc x d td n f e /\ y = public_name n f).
Proof.
  revert data errors; induction fs as [|[m g] fs IH]; intros data errors; cbn.
  - intros [= -> ->]. firstorder.
  - unfold fails.
    destruct (field_outcome E fc x d td m (fd_spec g)) as [|v|e'] eqn:O; cbn.
    + intros H. rewrite (IH _ _ H). split.
      * intros [Hy|(n & f & e & Hi & Hf & ->)]; [auto|]. right; exists n, f, e; auto.
      * intros [Hy|(n & f & e & [[= -> ->]|Hi] & Hf & ->)]; [auto|congruence|].
        right; exists n, f, e; auto.
    + intros H. rewrite (IH _ _ H). split.
      * intros [Hy|(n & f & e & Hi & Hf & ->)]; [auto|]. right; exists n, f, e; auto.
      * intros [Hy|(n & f & e & [[= -> ->]|Hi] & Hf & ->)]; [auto|congruence|].
        right; exists n, f, e; auto.
    + destruct (caught_by_loop e') eqn:C; cbn; [|discriminate].
      intros H. rewrite (IH _ _ H), dkeys_dset_in. split.
      * intros [[->|Hy]|(n & f & e & Hi & Hf & ->)]; [|auto|].
        -- right; exists m, g, e'; auto.
        -- right; exists n, f, e; auto.
      * intros [Hy|(n & f & e & [[= -> ->]|Hi] & Hf & ->)]; [auto|auto|].
        right; exists n, f, e; auto.
Qed.

(** The payload under an error key comes from a failing field of that name. *)
Lemma run_outcomes_error_node E fc x d td fs data errors data' errors' y nd :
  run_outcomes E fc x d td fs (data, errors) = Ok (data', errors') ->
  dget y errors' = Some nd ->
  (dget y errors = Some nd /\
     forall n f e, In (n, f) fs -> fails E fc x d td n f e -> y <> public_name n f) \/
  exists n f e, In (n, f) fs /\ fails E fc x d td n f e /\ y = public_name n f /\ nd = err_node e.
Proof.
  revert data errors; induction fs as [|[m g] fs IH]; intros data errors; cbn.
  - intros [= -> ->] H. left; split; [assumption|tauto].
  - unfold fails in *.
    destruct (field_outcome E fc x d td m (fd_spec g)) as [|v|e'] eqn:O; cbn.
    1,2: intros H G; destruct (IH _ _ H G) as [[Hy Hn]|(n & f & e & Hi & Hf & Hy & Hnd)];
      [left; split; [assumption|]; intros n f e [[= -> ->]|Hi] Hf; [congruence|eauto]
      |right; exists n, f, e; auto].
    destruct (caught_by_loop e') eqn:C; cbn; [|discriminate].
    intros H G. destruct (IH _ _ H G) as [[Hy Hn]|(n & f & e & Hi & Hf & Hy & Hnd)].
    + rewrite dget_dset in Hy. destruct (key_eqb_spec y (sname_of m (fd_spec g))) as [->|Hne].
      * right; exists m, g, e'. repeat split; auto. congruence.
      * left; split; [assumption|]. intros n f e [[= -> ->]|Hi] Hf; [exact Hne|eauto].
    + right; exists n, f, e; auto.
Qed.

Lemma active_In x fs n f : In (n, f) (active x fs) <-> In (n, f) fs /\ handled x f.
Proof. unfold active; rewrite filter_In; cbn; now rewrite handledb_spec. Qed.
Lemma active_NoDup x fs : NoDup (dkeys fs) -> NoDup (dkeys (active x fs)).
Proof.
  unfold active, dkeys; induction fs as [|[n f] fs IH]; cbn; [auto|].
  intros H; inversion H as [|? ? H1 H2]; subst.
  destruct (handledb x f); cbn; [constructor|]; auto.
  intros Hi; apply H1. apply in_map_iff in Hi as ([a b] & <- & Hi).
  apply filter_In in Hi as [Hi _]. apply (in_map fst) in Hi; exact Hi.
Qed.
Lemma active_keys x fs n : In n (dkeys (active x fs)) -> In n (dkeys fs).
Proof.
  unfold active, dkeys; intros Hi. apply in_map_iff in Hi as ([a b] & <- & Hi).
  apply filter_In in Hi as [Hi _]. apply (in_map fst) in Hi; exact Hi.
Qed.

(** Rogue fields. *)
Lemma all_input_keys_acceptable fs mp y : In y (all_input_keys fs mp) <-> acceptable fs mp y.
Proof.
  unfold all_input_keys. rewrite in_app_iff. unfold valid_input_keys. rewrite !in_flat_map. split.
  - intros [([n f] & Hi & Hy)|([n l] & Hi & Hy)]; cbn in *.
    + unfold input_keys in Hy; cbn in Hy. destruct Hy as [<-|Hy]; [eapply acc_name; exact Hi|].
      rewrite in_app_iff in Hy.
      destruct (fo_sname (fs_opts (fd_spec f))) as [s|] eqn:Hs.
      * destruct (key_true s) eqn:T; cbn in Hy.
        -- destruct Hy as [[<-|[]]|Hy]; [eapply acc_sname; eassumption|eapply acc_from; eassumption].
        -- destruct Hy as [[]|Hy]; eapply acc_from; eassumption.
      * destruct Hy as [[]|Hy]; eapply acc_from; eassumption.
    + eapply acc_map; eassumption.
  - intros [n f Hi|n f s Hi Hs T|n f s Hi Hs|n l s Hi Hs].
    + left; exists (n, f); split; [assumption|]; cbn; auto.
    + left; exists (n, f); split; [assumption|]; cbn. right. rewrite Hs, T. cbn; auto.
    + left; exists (n, f); split; [assumption|]; cbn. right. rewrite !in_app_iff; auto.
    + right; exists (n, l); auto.
Qed.

Definition rogue_list fs mp (d : list (key * pyval)) : list key :=
  filter (fun y => negb (kmem y (all_input_keys fs mp))) (dkeys d).
Lemma rogue_list_In fs mp d y : In y (rogue_list fs mp d) <-> rogue_key fs mp d y.
Proof.
  unfold rogue_list, rogue_key. rewrite filter_In, negb_true_iff, kmem_nIn, all_input_keys_acceptable.
  tauto.
Qed.

Definition rogue_errors fs mp d errs : list (key * errnode) :=
  fold_left (fun acc y => dset y (NText m_rogue) acc) (rogue_list fs mp d) errs.

Lemma fold_rogue_In l errs y :
  In y (dkeys (fold_left (fun acc z => dset z (NText m_rogue) acc) l errs)) <-> In y l \/ In y (dkeys errs).
Proof.
  revert errs; induction l as [|z l IH]; intros errs; cbn [fold_left In]; [tauto|].
  rewrite IH, dkeys_dset_in. intuition congruence.
Qed.
Lemma fold_rogue_get l errs y :
  dget y (fold_left (fun acc z => dset z (NText m_rogue) acc) l errs)
  = if kmem y l then Some (NText m_rogue) else dget y errs.
Proof.
  revert errs; induction l as [|z l IH]; intros errs; cbn; [reflexivity|].
  rewrite IH, dget_dset. fold (kmem y l). destruct (kmem y l); [now rewrite orb_true_r|].
  now rewrite orb_false_r.
Qed.

Lemma rogues_dict E x fs d errs :
  rogues E x fs (VDict d) errs = Ok (if cx_strict x then rogue_errors fs (cx_mapping x) d errs else errs).
Proof. unfold rogues. destruct (cx_strict x); reflexivity. Qed.

(** ** The whole loop without setters run (validate = false) *)

Lemma copy_settable_none E raw fs data : no_setters fs -> copy_settable E raw fs data = data.
Proof.
  intros H; induction fs as [|[n f] fs IH]; cbn; [reflexivity|].
  unfold has_setter. rewrite (H n f) by (cbn; auto). cbn.
  apply IH. intros m g Hg. apply (H m g); cbn; auto.
Qed.

Lemma no_setters_handled x fs n f : no_setters fs -> In (n, f) fs -> handled x f.
Proof. intros H Hi; right. unfold has_setter. now rewrite (H n f Hi). Qed.

Lemma active_no_setters x fs : no_setters fs -> active x fs = fs.
Proof.
  intros H; unfold active. induction fs as [|[n f] fs IH]; cbn; [reflexivity|].
  unfold handledb, has_setter. rewrite (H n f) by (cbn; auto). cbn. rewrite orb_true_r.
  f_equal. apply IH. intros m g Hg; apply (H m g); cbn; auto.
Qed.

(** The errors present before the fields are looked at. *)
Definition errs_before (x : ictx) fs d (errs0 : list (key * errnode)) :=
  if cx_strict x then rogue_errors fs (cx_mapping x) d errs0 else errs0.

Definition finish_import (E : env) (x : ictx) (raw : pyval) fs (r : res lstate) : res (list (key * pyval)) :=
  rbind r (fun s => let '(data, errors) := s in
     let data' := if cx_validate x then data else copy_settable E raw fs data in
     match errors with [] => Ok data' | _ => Raise (XData errors data') end).

Lemma mutate_fields_none E fc pre x a fs mut raw errs : no_setters fs ->
  mutate_fields E fc pre x a fs mut raw errs = (mut, raw, Ok errs).
Proof.
  intros H; induction fs as [|[n f] fs IH]; cbn; [reflexivity|].
  rewrite (H n f) by (cbn; auto). apply IH. intros m g Hg; apply (H m g); cbn; auto.
Qed.

Lemma import_loop_dict E fc pre x fs mut a d d' td :
  effective_input E x fs mut d d' ->
  defined_dict d' -> NoDup (dkeys fs) -> trusted_dict E x td ->
  lo_raw (import_loop E fc pre x fs mut a (VDict d)) = VDict d' /\
  lo_res (import_loop E fc pre x fs mut a (VDict d))
  = finish_import E x (VDict d') fs
          (run_outcomes E fc x d' td (active x fs) (td, errs_before x fs d' [])).
Proof.
  intros [Hv|items Hv Hns Hm] Hd Hnd Ht; unfold import_loop; cbn [is_none negb andb]; rewrite Ht; rewrite Hv.
  - split; [reflexivity|]. cbn [lo_res rbind]. rewrite rogues_dict. cbn [rbind].
    rewrite (import_fields_outcomes E fc x d td) by auto.
    unfold finish_import, errs_before. rewrite Hv. reflexivity.
  - unfold mutate. rewrite mutate_fields_none by assumption. rewrite Hm.
    split; [reflexivity|]. cbn [lo_res rbind]. rewrite rogues_dict. cbn [rbind].
    rewrite (import_fields_outcomes E fc x (dupdate d items) td) by auto.
    unfold finish_import, errs_before. rewrite Hv. reflexivity.
Qed.

(** ** Consequences for the whole loop *)
Section Whole.
  Context (E : env) (fc : fspec -> pyval -> ictx -> res pyval) (pre : fspec -> pyval -> res pyval)
    (x : ictx) (fs : list (key * field)) (mut : pyval) (a : aliasing)
    (d d' td : list (key * pyval)).
  Hypothesis Heff : effective_input E x fs mut d d'.
  Hypothesis Hdef : defined_dict d'.
  Hypothesis Hnd : NoDup (dkeys fs).
  Hypothesis Htd : trusted_dict E x td.
  Let result := lo_res (import_loop E fc pre x fs mut a (VDict d)).
  Let rerrs := errs_before x fs d' [].

  Lemma rerrs_In y : In y (dkeys rerrs) <-> cx_strict x = true /\ rogue_key fs (cx_mapping x) d' y.
  Proof.
    unfold rerrs, errs_before, rogue_errors. destruct (cx_strict x).
    - rewrite fold_rogue_In, rogue_list_In. cbn. tauto.
    - cbn. intuition discriminate.
  Qed.
  Lemma rerrs_get y : dget y rerrs <> None -> dget y rerrs = Some (NText m_rogue).
  Proof.
    unfold rerrs, errs_before, rogue_errors. destruct (cx_strict x); [|cbn; congruence].
    rewrite fold_rogue_get. destruct (kmem _ _); cbn; congruence.
  Qed.

  Lemma result_eq : result = finish_import E x (VDict d') fs
          (run_outcomes E fc x d' td (active x fs) (td, rerrs)).
  Proof. apply import_loop_dict; assumption. Qed.

  Lemma public_name_acceptable n f : In (n, f) fs -> acceptable fs (cx_mapping x) (public_name n f).
  Proof.
    intros Hi. unfold public_name, sname_of.
    destruct (fo_sname (fs_opts (fd_spec f))) as [s|] eqn:Hs; [destruct (key_true s) eqn:T|].
    - eapply acc_sname; eassumption.
    - eapply acc_name; eassumption.
    - eapply acc_name; eassumption.
  Qed.

  Lemma finish_cases r : 
    (exists e, r = Raise e /\ finish_import E x (VDict d') fs r = Raise e) \/
    (exists data, r = Ok (data, []) /\ finish_import E x (VDict d') fs r =
        Ok (if cx_validate x then data else copy_settable E (VDict d') fs data)) \/
    (exists data errs, errs <> [] /\ r = Ok (data, errs) /\ finish_import E x (VDict d') fs r =
        Raise (XData errs (if cx_validate x then data else copy_settable E (VDict d') fs data))).
  Proof.
    destruct r as [[data [|er errs]]|e]; cbn.
    - right; left; eauto.
    - right; right. exists data, (er :: errs). repeat split; congruence.
    - left; eauto.
  Qed.

  (** Non-XData exceptions are crashes of a field. *)
  Lemma result_crash e : result = Raise e -> (forall errs pd, e <> XData errs pd) ->
    exists n f, In (n, f) fs /\ handled x f /\ fails E fc x d' td n f e /\ caught_by_loop e = false.
  Proof.
    rewrite result_eq. intros H Hx.
    destruct (finish_cases (run_outcomes E fc x d' td (active x fs) (td, rerrs)))
      as [(e' & Hr & Hf)|[(data & Hr & Hf)|(data & errs & He & Hr & Hf)]]; rewrite Hf in H.
    - injection H as ->. apply run_outcomes_raise in Hr as (n & f & Hi & Hc1 & Hc2).
      apply active_In in Hi as [Hi Hh]. exists n, f; auto.
    - discriminate.
    - injection H as <-. exfalso; eapply Hx; reflexivity.
  Qed.

  Lemma result_no_crash : (forall errs pd, result <> Raise (XData errs pd)) -> (forall data, result <> Ok data) ->
    exists n f e, In (n, f) fs /\ handled x f /\ fails E fc x d' td n f e /\ caught_by_loop e = false.
  Proof.
    intros H1 H2. destruct result as [data|e] eqn:R; [now destruct (H2 data)|].
    destruct (result_crash e R) as (n & f & Hi & Hh & Hf & Hc).
    - intros errs pd ->. now apply (H1 errs pd).
    - exists n, f, e; auto.
  Qed.

  Lemma run_ok_of data errs :
    result = Raise (XData errs data) ->
    exists data0, run_outcomes E fc x d' td (active x fs) (td, rerrs) = Ok (data0, errs) /\ errs <> [] /\
      data = (if cx_validate x then data0 else copy_settable E (VDict d') fs data0).
  Proof.
    rewrite result_eq. intros H.
    destruct (finish_cases (run_outcomes E fc x d' td (active x fs) (td, rerrs)))
      as [(e' & Hr & Hf)|[(data0 & Hr & Hf)|(data0 & errs0 & He & Hr & Hf)]]; rewrite Hf in H.
    - injection H as ->. apply run_outcomes_raise in Hr as (n & f & Hi & Hc1 & Hc2). discriminate.
    - discriminate.
    - injection H as <- <-. eauto.
  Qed.
  Lemma run_ok_of_ok data :
    result = Ok data ->
    exists data0, run_outcomes E fc x d' td (active x fs) (td, rerrs) = Ok (data0, []) /\
      data = (if cx_validate x then data0 else copy_settable E (VDict d') fs data0).
  Proof.
    rewrite result_eq. intros H.
    destruct (finish_cases (run_outcomes E fc x d' td (active x fs) (td, rerrs)))
      as [(e' & Hr & Hf)|[(data0 & Hr & Hf)|(data0 & errs0 & He & Hr & Hf)]]; rewrite Hf in H;
      [discriminate| |discriminate].
    injection H as <-. eauto.
  Qed.

  (** The reported keys. *)
  Definition reported (y : key) : Prop :=
    (cx_strict x = true /\ rogue_key fs (cx_mapping x) d' y) \/
    exists n f e, In (n, f) fs /\ handled x f /\ fails E fc x d' td n f e /\ y = public_name n f.

  Lemma reported_run data errs y :
    run_outcomes E fc x d' td (active x fs) (td, rerrs) = Ok (data, errs) ->
    (In y (dkeys errs) <-> reported y).
  Proof.
    intros H. rewrite (run_outcomes_errors _ _ _ _ _ _ _ _ _ _ y H), rerrs_In. unfold reported.
    split; (intros [Hy|(n & f & e & Hr)]; [left; exact Hy|right; exists n, f, e]).
    - rewrite active_In in Hr. tauto.
    - rewrite active_In. tauto.
  Qed.

  Lemma error_keys errs pd y :
    result = Raise (XData errs pd) -> (In y (dkeys errs) <-> reported y).
  Proof. intros H. apply run_ok_of in H as (data0 & Hr & _). eapply reported_run; exact Hr. Qed.

  Lemma success_no_errors data y : result = Ok data -> ~ reported y.
  Proof.
    intros H. apply run_ok_of_ok in H as (data0 & Hr & _).
    intros Hy. eapply reported_run in Hy; [|exact Hr]. exact Hy.
  Qed.
  Lemma no_errors_success : (forall n f e, In (n, f) fs -> handled x f -> fails E fc x d' td n f e -> caught_by_loop e = true) ->
    (forall y, ~ reported y) -> exists data, result = Ok data.
  Proof.
    intros Hc Hn. rewrite result_eq.
    destruct (finish_cases (run_outcomes E fc x d' td (active x fs) (td, rerrs)))
      as [(e' & Hr & Hf)|[(data0 & Hr & Hf)|(data0 & errs0 & He & Hr & Hf)]]; rewrite Hf.
    - apply run_outcomes_raise in Hr as (n & f & Hi & Hc1 & Hc2).
      apply active_In in Hi as [Hi Hh]. rewrite (Hc n f e') in Hc2 by assumption. discriminate.
    - eauto.
    - destruct errs0 as [|[y nd] errs0]; [congruence|]. exfalso; apply (Hn y).
      eapply reported_run; [exact Hr|]. cbn; auto.
  Qed.

  Lemma error_payload errs pd y nd :
    result = Raise (XData errs pd) -> dget y errs = Some nd ->
    (cx_strict x = true /\ rogue_key fs (cx_mapping x) d' y /\ nd = NText m_rogue) \/
    exists n f e, In (n, f) fs /\ handled x f /\ fails E fc x d' td n f e /\ y = public_name n f /\ nd = err_node e.
  Proof.
    intros H G. apply run_ok_of in H as (data0 & Hr & _).
    destruct (run_outcomes_error_node _ _ _ _ _ _ _ _ _ _ _ _ Hr G) as [[Hy _]|(n & f & e & Hi & Hf & Hy & Hnd')].
    - left. assert (Hi : In y (dkeys rerrs)) by (apply dget_keys; congruence).
      apply rerrs_In in Hi as [? ?]. repeat split; try assumption; try apply H0.
      pose proof (rerrs_get y) as R. rewrite Hy in R. specialize (R ltac:(discriminate)). congruence.
    - right. apply active_In in Hi as [Hi Hh]. exists n, f, e; auto.
  Qed.

  Lemma rogue_payload errs pd y :
    result = Raise (XData errs pd) -> cx_strict x = true -> rogue_key fs (cx_mapping x) d' y ->
    dget y errs = Some (NText m_rogue).
  Proof.
    intros H Hs Hr.
    assert (Hin : In y (dkeys errs)) by (eapply error_keys; [exact H|left; auto]).
    apply dget_keys in Hin. destruct (dget y errs) as [nd|] eqn:G; [|congruence].
    destruct (error_payload _ _ _ _ H G) as [(_ & _ & ->)|(n & f & e & Hi & _ & _ & -> & _)]; [reflexivity|].
    exfalso. apply Hr. apply public_name_acceptable; assumption.
  Qed.

  Lemma err_node_not_text e m : caught_by_loop e = true -> err_node e <> NText m.
  Proof. destruct e; cbn; congruence. Qed.

  Lemma payload_rogue errs pd y :
    result = Raise (XData errs pd) -> dget y errs = Some (NText m_rogue) ->
    cx_strict x = true /\ rogue_key fs (cx_mapping x) d' y.
  Proof.
    intros H G.
    destruct (error_payload _ _ _ _ H G) as [(? & ? & _)|(n & f & e & Hi & Hh & Hf & -> & Hnd')]; [auto|].
    apply run_ok_of in H as (data0 & Hr & _).
    exfalso. destruct (caught_by_loop e) eqn:C.
    - symmetry in Hnd'. now apply err_node_not_text in Hnd'.
    - eapply run_outcomes_no_crash; [exact Hr|apply active_In; split; eassumption|split; [exact Hf|exact C]].
  Qed.

  (** The stored data. *)
  Lemma copy_settable_frame raw gs data n : (forall f, In (n, f) gs -> has_setter f = false) ->
    dget n (copy_settable E raw gs data) = dget n data.
  Proof.
    revert data; induction gs as [|[m g] gs IH]; intros data H; cbn; [reflexivity|].
    rewrite IH by (intros f Hf; apply H; cbn; auto).
    destruct (has_setter g) eqn:S; [|reflexivity].
    rewrite dget_dset. destruct (key_eqb_spec n m) as [->|_]; [|reflexivity].
    rewrite (H g) in S by (cbn; auto). discriminate.
  Qed.
  Lemma copy_settable_at raw gs data n f : NoDup (dkeys gs) -> In (n, f) gs -> has_setter f = true ->
    dget n (copy_settable E raw gs data) = Some (atom_value E raw n).
  Proof.
    revert data; induction gs as [|[m g] gs IH]; intros data Hn; cbn; [tauto|].
    inversion Hn as [|? ? H1 H2]; subst.
    intros [[= -> ->]|Hi] S.
    - rewrite S. rewrite copy_settable_frame; [apply dget_dset_eq|].
      intros f' Hf'. exfalso; apply H1. apply (in_map fst) in Hf'; exact Hf'.
    - apply IH; assumption.
  Qed.

  Lemma same_field n f g : In (n, f) fs -> In (n, g) fs -> f = g.
  Proof. intros H1 H2. apply (In_dget _ _ _ Hnd) in H1, H2. congruence. Qed.

  Lemma data_field data errs n f :
    result = Ok data \/ result = Raise (XData errs data) ->
    In (n, f) fs -> handled x f ->
    dget n data = value_after x (fd_spec f) (field_outcome E fc x d' td n (fd_spec f)) (dget n td).
  Proof.
    intros H Hi Hh.
    assert (exists errs0 data0, run_outcomes E fc x d' td (active x fs) (td, rerrs) = Ok (data0, errs0) /\
              data = (if cx_validate x then data0 else copy_settable E (VDict d') fs data0)) as (errs0 & data0 & Hr & ->).
    { destruct H as [H|H]; [apply run_ok_of_ok in H as (data0 & ? & ?)|apply run_ok_of in H as (data0 & ? & _ & ?)]; eauto. }
    assert (G : dget n data0 = value_after x (fd_spec f) (field_outcome E fc x d' td n (fd_spec f)) (dget n td)).
    { eapply run_outcomes_data; [apply active_NoDup, Hnd|exact Hr|apply active_In; auto]. }
    destruct (cx_validate x) eqn:Hv; [exact G|].
    rewrite copy_settable_frame; [exact G|]. intros g Hg. rewrite (same_field n g f) by assumption.
    destruct Hh; [congruence|assumption].
  Qed.

  Lemma data_settable data errs n f :
    result = Ok data \/ result = Raise (XData errs data) ->
    In (n, f) fs -> ~ handled x f ->
    dget n data = Some (match dget n d' with Some v => v | None => VUndef end).
  Proof.
    intros H Hi Hh.
    assert (exists errs0 data0, run_outcomes E fc x d' td (active x fs) (td, rerrs) = Ok (data0, errs0) /\
              data = (if cx_validate x then data0 else copy_settable E (VDict d') fs data0)) as (errs0 & data0 & Hr & ->).
    { destruct H as [H|H]; [apply run_ok_of_ok in H as (data0 & ? & ?)|apply run_ok_of in H as (data0 & ? & _ & ?)]; eauto. }
    unfold handled in Hh. destruct (cx_validate x); [tauto|].
    rewrite (copy_settable_at _ _ _ n f); [|assumption|assumption|destruct (has_setter f); tauto].
    now rewrite atom_value_dict.
  Qed.

  Lemma data_other data errs y :
    result = Ok data \/ result = Raise (XData errs data) ->
    ~ In y (dkeys fs) -> dget y data = dget y td.
  Proof.
    intros H Hy.
    assert (exists errs0 data0, run_outcomes E fc x d' td (active x fs) (td, rerrs) = Ok (data0, errs0) /\
              data = (if cx_validate x then data0 else copy_settable E (VDict d') fs data0)) as (errs0 & data0 & Hr & ->).
    { destruct H as [H|H]; [apply run_ok_of_ok in H as (data0 & ? & ?)|apply run_ok_of in H as (data0 & ? & _ & ?)]; eauto. }
    assert (G : dget y data0 = dget y td).
    { eapply run_outcomes_data_frame; [exact Hr|]. intros Hi; apply Hy; eapply active_keys; exact Hi. }
    destruct (cx_validate x); [exact G|].
    rewrite copy_settable_frame; [exact G|].
    intros f Hf. exfalso; apply Hy. apply (in_map fst) in Hf; exact Hf.
  Qed.
End Whole.

(** ** Non-interference *)
Lemma supplied_ext d1 d2 n f mp :
  (forall y, In y (accepted_names n f mp) -> dget y d1 = dget y d2) -> supplied d1 n f mp = supplied d2 n f mp.
Proof.
  intros H. unfold supplied.
  rewrite (find_ext (fun y => dmem y d1) (fun y => dmem y d2)).
  - destruct (find _ _) as [y|] eqn:Fy; [|reflexivity].
    apply H. apply find_some in Fy. tauto.
  - intros y Hy. unfold dmem. now rewrite H.
Qed.

Lemma accepted_acceptable fs mp n f y :
  In (n, f) fs -> In y (accepted_names n (fd_spec f) mp) -> acceptable fs mp y.
Proof.
  intros Hi [<-|Hy]; [eapply acc_name; eassumption|].
  apply filter_In in Hy as [Hy T]. rewrite !in_app_iff in Hy.
  destruct Hy as [Hy|[Hy|Hy]].
  - destruct (fo_sname (fs_opts (fd_spec f))) as [s|] eqn:Hs; [|destruct Hy].
    destruct Hy as [<-|[]]. eapply acc_sname; eassumption.
  - change (given_names mp) with (map_keys mp) in *; destruct (dget n (map_keys mp)) as [l|] eqn:G; [|destruct Hy].
    apply dget_In in G. eapply acc_map; eassumption.
  - eapply acc_from; eassumption.
Qed.

Lemma run_outcomes_ext E fc x d1 d2 td gs s :
  (forall n f, In (n, f) gs -> supplied d1 n (fd_spec f) (cx_mapping x) = supplied d2 n (fd_spec f) (cx_mapping x)) ->
  run_outcomes E fc x d1 td gs s = run_outcomes E fc x d2 td gs s.
Proof.
  revert s; induction gs as [|[n f] gs IH]; intros s H; cbn [run_outcomes]; [reflexivity|].
  unfold field_outcome. rewrite (H n f) by (cbn; auto).
  destruct (apply_outcome _ _ _ _ s) as [s'|e]; [|reflexivity]. cbn [rbind].
  apply IH; intros; apply H; cbn; auto.
Qed.

Lemma copy_settable_ext E d1 d2 gs data :
  (forall n f, In (n, f) gs -> dget n d1 = dget n d2) ->
  copy_settable E (VDict d1) gs data = copy_settable E (VDict d2) gs data.
Proof.
  revert data; induction gs as [|[n f] gs IH]; intros data H; cbn; [reflexivity|].
  rewrite !atom_value_dict, (H n f) by (cbn; auto). apply IH; intros; eapply H; cbn; eauto.
Qed.

Lemma import_noninterference E fc pre x fs mut1 mut2 a1 a2 d1 d2 td :
  cx_validate x = false -> cx_strict x = false ->
  defined_dict d1 -> defined_dict d2 -> NoDup (dkeys fs) -> trusted_dict E x td ->
  (forall y, acceptable fs (cx_mapping x) y -> dget y d1 = dget y d2) ->
  lo_res (import_loop E fc pre x fs mut1 a1 (VDict d1)) = lo_res (import_loop E fc pre x fs mut2 a2 (VDict d2)).
Proof.
  intros Hv Hs Hd1 Hd2 Hnd Ht H.
  rewrite (result_eq E fc pre x fs mut1 a1 d1 d1 td (eff_convert _ _ _ _ _ Hv)) by assumption.
  rewrite (result_eq E fc pre x fs mut2 a2 d2 d2 td (eff_convert _ _ _ _ _ Hv)) by assumption.
  unfold errs_before; rewrite Hs.
  rewrite (run_outcomes_ext E fc x d1 d2).
  - unfold finish_import. destruct (run_outcomes _ _ _ _ _ _ _) as [[data errs]|e]; [|reflexivity]. cbn [rbind].
    rewrite (copy_settable_ext E d1 d2); [reflexivity|].
    intros n f Hi; apply H; eapply acc_name; exact Hi.
  - intros n f Hi. apply active_In in Hi as [Hi _]. apply supplied_ext.
    intros y Hy; apply H. eapply accepted_acceptable; eassumption.
Qed.
