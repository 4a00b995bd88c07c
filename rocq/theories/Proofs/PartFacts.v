(** Exports that show less. *)
From Verif.Model Require Import Py Core Export Api Role.
From Verif.Spec Require Import ImportSpec ExportSpec RoleSpec PartSpec.
From Verif.Proofs Require Import DictLemmas ApiLemmas ExportLemmas RoleFacts.

Section Rest.
  Context {A : Type} (R : A -> A -> Prop).
  Lemma rest_none l : rest R [] l.
  Proof. induction l; constructor; assumption. Qed.
  Lemma rest_keep l m a b : rest R l m -> R a b -> rest R (l ++ [a]) (m ++ [b]).
  Proof. intros H Hab. induction H; cbn; try (constructor; assumption). repeat constructor; assumption. Qed.
  Lemma rest_skip l m b : rest R l m -> rest R l (m ++ [b]).
  Proof. intros H. induction H; cbn; constructor; try assumption. constructor. Qed.
  Lemma rest_in l m a : rest R l m -> In a l -> exists b, In b m /\ R a b.
  Proof.
    induction 1 as [|x y l m Hxy H IH|y l m H IH]; [intros []| |].
    - intros [<-|Ha]; [exists y; split; [now left|assumption]|]. destruct (IH Ha) as (b & Hb & Rb). exists b. split; [now right|assumption].
    - intros Ha. destruct (IH Ha) as (b & Hb & Rb). exists b. split; [now right|assumption].
  Qed.
End Rest.
Notation entries_of := (rest (fun p q : key * pyval => fst p = fst q /\ part_of (snd p) (snd q))).
Lemma entries_keys d e y : entries_of d e -> In y (dkeys d) -> In y (dkeys e).
Proof.
  unfold dkeys. rewrite !in_map_iff. intros H ([y' v] & <- & I). destruct (rest_in _ _ _ _ H I) as ([z w] & J & Q & _). cbn in Q. subst z. now exists (y', w).
Qed.
Lemma part_undef v w : part_of v w -> is_undef v = is_undef w.
Proof. now intros []. Qed.
Lemma part_none v w : part_of v w -> is_none v = is_none w.
Proof. now intros []. Qed.
Lemma part_empty v w : part_of v w -> empty_len w = true -> empty_len v = true.
Proof.
  intros [u0|d e H|l m H] K; [assumption| |].
  - destruct e; [|discriminate]. now inversion H.
  - destruct m; [|discriminate]. now inversion H.
Qed.

Section Less.
  Context (E : env) (Sh : showing E) (x x2 : ectx) (L : shows_less E x x2).
  Lemma levels f : lower (get_export_level E f x) (get_export_level E f x2).
  Proof using L. apply (sl_level _ _ _ L f); now apply level_spec. Qed.

  Section Under.
    Context (fe : exporter).
    Hypothesis H : forall f v w, simple_unions f -> keyed v -> fe f v x2 = Ok w -> exists w', fe f v x = Ok w' /\ part_of w' w.
    Hypothesis Hl : forall o l v, fe (FS o (TLeaf l)) v x = fe (FS o (TLeaf l)) v x2.

    Lemma chain_keyed c m n v : keyed (VModel c m) -> chain_get m n = Some v -> keyed v.
    Proof.
      intros K G. inversion K as [? ? ? ? N|l F|l F|d N F|c' m' F]; subst; [now destruct (N c m)|]. apply (F n). rewrite !in_app_iff. unfold chain_get in G.
      destruct (dget n (md_unsafe m)) eqn:G1; [injection G as ->; left; now apply dget_In|].
      destruct (dget n (md_converted m)) eqn:G2; [injection G as ->; right; left; now apply dget_In|]. right. right. now apply dget_In.
    Qed.
    Lemma atom_keyed obj n : keyed obj -> keyed (atom_value E obj n).
    Proof using Sh.
      assert (U : keyed VUndef) by now constructor. intros K. unfold atom_value. destruct obj; cbn [py_getitem]; try exact U.
      - destruct (dget n d) eqn:G; [|exact U]. apply dget_In in G. inversion K as [? ? ? N|l F|l F|d' N F|c' m' F]; subst; [now destruct (N d)|]. now apply (F n).
      - unfold model_getitem. destruct (dget n (mc_fields (e_class E c))) as [f|] eqn:G; [|exact U]. unfold field_get. destruct (fd_get f) as [g|] eqn:Gg.
        + destruct (g (VModel c m)) as [v|] eqn:Gv; [|exact U]. destruct (is_undef v); [exact U|]. apply dget_In in G. now apply (sh_computed _ Sh c n f g (VModel c m)).
        + destruct (chain_get m n) as [v|] eqn:Gv; [|exact U]. destruct (is_undef v); [exact U|]. now apply (chain_keyed c m n).
    Qed.
    Definition filters_less (g g2 : option rolefn) : Prop := forall n v, hidden g2 n v -> hidden g n v.
    Lemma filter_less c g2 : export_filter (e_class E c) x2 = Ok g2 -> exists g, export_filter (e_class E c) x = Ok g /\ filters_less g g2.
    Proof using L.
      intros F2. pose proof (sl_known _ _ _ L c) as K. destruct (export_filter (e_class E c) x) as [g|e] eqn:F.
      - exists g. split; [reflexivity|]. intros n v. apply (sl_role _ _ _ L c); now apply filter_spec.
      - exfalso. apply K. unfold export_filter in F. destruct (ec_role x) as [|n|f] eqn:Q; try discriminate. destruct (dget n (mc_roles (e_class E c))) eqn:G; [discriminate|].
        destruct (key_true n) eqn:T; [|discriminate]. destruct (ec_raise x) eqn:B; [|discriminate]. exists n. auto.
    Qed.
    Lemma field_less g g2 obj n f o : filters_less g g2 -> simple_unions (fd_spec f) -> keyed obj -> export_field E fe x2 g2 obj n f = Ok o ->
      exists o', export_field E fe x g obj n f = Ok o' /\
        match o', o with None, _ => True | Some p, Some q => fst p = fst q /\ part_of (snd p) (snd q) | Some _, None => False end /\
        (forall p, o = Some p -> fst p = sname_of n (fd_spec f)).
    Proof using H Sh L.
      intros Fl Su Ko. unfold export_field. set (v := atom_value E obj n). assert (Kv : keyed v) by now apply atom_keyed.
      assert (Hid : match g2 with Some g0 => g0 n v | None => false end = true -> match g with Some g0 => g0 n v | None => false end = true).
      { intros T. destruct (Fl n v) as (h & -> & Hh); [|exact Hh]. destruct g2 as [h|]; [|discriminate]. now exists h. }
      pose proof (levels (fd_spec f)) as Lv. set (l := get_export_level E (fd_spec f) x) in *. set (l2 := get_export_level E (fd_spec f) x2) in *.
      destruct (match g2 with Some g0 => g0 n v | None => false end).
      { intros [= <-]. rewrite (Hid eq_refl). exists None. repeat split. discriminate. }
      destruct (Z.eqb_spec l2 DROP) as [D2|D2].
      { intros [= <-]. assert (l = DROP) as -> by (destruct Lv as [Q|[_ Q]]; [exact Q|contradiction]). cbn. exists None. destruct (match g with Some g0 => g0 n v | None => false end); repeat split; discriminate. }
      assert (W : forall w, (if is_nil v then Ok v else fe (fd_spec f) v x2) = Ok w -> exists w', (if is_nil v then Ok v else fe (fd_spec f) v x) = Ok w' /\ part_of w' w).
      { intros w. destruct (is_nil v); [intros [= <-]; exists v; split; [reflexivity|constructor]|]. now apply H. }
      destruct (if is_nil v then Ok v else fe (fd_spec f) v x2) as [w|e]; cbn [rbind]; [|discriminate]. destruct (W w eq_refl) as (w' & -> & P). clear W.
      destruct (match g with Some g0 => g0 n v | None => false end).
      { intros Q. exists None. split; [reflexivity|]. split; [exact I|]. intros p ->.
        destruct (is_undef w); [destruct (l2 <=? DEFAULT)%Z; [discriminate|now injection Q as <-]|]. destruct (is_none w); [destruct (l2 <=? NOT_NONE)%Z; [discriminate|now injection Q as <-]|].
        destruct (is_compound (fd_spec f) && empty_len w && (l2 <=? NONEMPTY)%Z); [discriminate|now injection Q as <-]. }
      destruct (Z.eqb_spec l DROP) as [D|D].
      { intros Q. exists None. split; [reflexivity|]. split; [exact I|]. intros p ->.
        destruct (is_undef w); [destruct (l2 <=? DEFAULT)%Z; [discriminate|now injection Q as <-]|]. destruct (is_none w); [destruct (l2 <=? NOT_NONE)%Z; [discriminate|now injection Q as <-]|].
        destruct (is_compound (fd_spec f) && empty_len w && (l2 <=? NONEMPTY)%Z); [discriminate|now injection Q as <-]. }
      assert (Le : (l <= l2)%Z) by (destruct Lv as [Q|[Q _]]; [now destruct D|exact Q]). cbn [rbind].
      rewrite (part_undef _ _ P), (part_none _ _ P). destruct (is_undef w).
      { destruct (Z.leb_spec l2 DEFAULT) as [Q|Q].
        - intros [= <-]. exists None. destruct (Z.leb_spec l DEFAULT); [|lia]. repeat split. discriminate.
        - intros [= <-]. destruct (Z.leb_spec l DEFAULT); eexists; (split; [reflexivity|]); cbn; (split; [first [exact I|split; [reflexivity|constructor]]|now intros p [= <-]]). }
      destruct (is_none w).
      { destruct (Z.leb_spec l2 NOT_NONE) as [Q|Q].
        - intros [= <-]. exists None. destruct (Z.leb_spec l NOT_NONE); [|lia]. repeat split. discriminate.
        - intros [= <-]. destruct (Z.leb_spec l NOT_NONE); eexists; (split; [reflexivity|]); cbn; (split; [first [exact I|split; [reflexivity|constructor]]|now intros p [= <-]]). }
      destruct (is_compound (fd_spec f) && empty_len w && (l2 <=? NONEMPTY)%Z) eqn:Q.
      { intros [= <-]. apply andb_true_iff in Q as [Q Q3]. apply andb_true_iff in Q as [Q1 Q2]. rewrite Q1, (part_empty _ _ P Q2). apply Z.leb_le in Q3. destruct (Z.leb_spec l NONEMPTY); [|lia]. cbn. exists None. repeat split. discriminate. }
      intros [= <-]. destruct (is_compound (fd_spec f) && empty_len w' && (l <=? NONEMPTY)%Z); eexists; (split; [reflexivity|]); cbn; (split; [first [exact I|split; [reflexivity|exact P]]|now intros p [= <-]]).
    Qed.
    Lemma dset_new {A} y (v : A) d : ~ In y (dkeys d) -> dset y v d = d ++ [(y, v)].
    Proof.
      induction d as [|[a b] d IH]; cbn; [reflexivity|]. intros N. destruct (key_eqb y a) eqn:Q; [apply key_eqb_eq in Q; subst; tauto|]. rewrite IH; [reflexivity|tauto].
    Qed.
    Lemma fields_less g g2 obj : filters_less g g2 -> keyed obj -> forall fs, NoDup (map (fun p => public_name (fst p) (snd p)) fs) -> (forall n f, In (n, f) fs -> simple_unions (fd_spec f)) ->
      forall data data2 d2, entries_of data data2 -> (forall p, In p fs -> ~ In (public_name (fst p) (snd p)) (dkeys data2)) -> export_fields E fe x2 g2 obj fs data2 = Ok d2 ->
      exists d, export_fields E fe x g obj fs data = Ok d /\ entries_of d d2.
    Proof using H Sh L.
      intros Fl Ko fs. induction fs as [|[n f] fs IH]; intros N Su data data2 d2 R Fr; cbn [export_fields].
      - intros [= <-]. eauto.
      - destruct (export_field E fe x2 g2 obj n f) as [o|e] eqn:Q; cbn [rbind]; [|discriminate].
        destruct (field_less g g2 obj n f o Fl (Su n f (or_introl eq_refl)) Ko Q) as (o' & -> & P & Nm). cbn [rbind]. inversion N as [|? ? N1 N2]; subst.
        assert (Pn : sname_of n (fd_spec f) = public_name n f) by reflexivity.
        apply IH; [exact N2|intros; apply (Su n0); now right| |].
        + destruct o as [[s w]|]; [|destruct o'; [destruct P|exact R]]. specialize (Nm _ eq_refl). cbn [fst] in Nm. rewrite Pn in Nm. subst s.
          rewrite (dset_new _ w data2) by exact (Fr _ (or_introl eq_refl)). destruct o' as [[s w']|]; [|now apply rest_skip]. destruct P as [P1 P2]. cbn [fst snd] in P1, P2. subst s.
          rewrite dset_new; [now apply rest_keep|]. intros I. apply (Fr _ (or_introl eq_refl)). now apply (entries_keys data).
        + intros p Hp I. destruct o as [[s w]|]; [|exact (Fr _ (or_intror Hp) I)]. specialize (Nm _ eq_refl). cbn [fst] in Nm. rewrite Pn in Nm. subst s.
          rewrite (dset_new _ w data2) in I by exact (Fr _ (or_introl eq_refl)). unfold dkeys in I. rewrite map_app, in_app_iff in I. destruct I as [I|[I|[]]]; [exact (Fr _ (or_intror Hp) I)|].
          cbn [fst] in I. apply N1. rewrite I. apply in_map_iff. now exists p.
    Qed.
    Lemma loop_less c obj d2 : keyed obj -> export_loop E fe x2 c obj = Ok d2 -> exists d, export_loop E fe x c obj = Ok d /\ entries_of d d2.
    Proof using H Sh L.
      intros Ko. unfold export_loop. destruct (export_filter (e_class E c) x2) as [g2|e] eqn:F2; cbn [rbind]; [|discriminate]. destruct (filter_less c g2 F2) as (g & -> & Fl). cbn [rbind].
      apply (fields_less g g2 obj Fl Ko); [apply (sh_names _ Sh)|intros n f; apply (sh_unions _ Sh)|constructor|intros p _ []].
    Qed.
    Lemma skip_less g w w' : get_export_level E g x <> DROP -> part_of w' w -> skip_elem g (get_export_level E g x2) w = true -> skip_elem g (get_export_level E g x) w' = true.
    Proof using L.
      intros D P. unfold skip_elem. rewrite (part_none _ _ P). destruct (levels g) as [Q|[Q _]]; [contradiction|]. destruct (is_none w); [rewrite !Z.leb_le; lia|].
      rewrite !andb_true_iff, !Z.leb_le. intros [[A B] C]. split; [split; [exact A|now apply (part_empty _ w)]|lia].
    Qed.
    Lemma step_less f v w : simple_unions f -> keyed v -> export_step E fe f v x2 = Ok w -> exists w', export_step E fe f v x = Ok w' /\ part_of w' w.
    Proof using H Hl Sh L.
      intros Su Kv. unfold export_step. destruct Su as [o l|o ms M|o c|o p|o g Su|o g ck Su]; cbn [fs_type].
      - rewrite (sl_format _ _ _ L). intros Q. exists w. split; [exact Q|constructor].
      - assert (U : union_resolve (export_convert E fe x) ms v = union_resolve (export_convert E fe x2) ms v /\
                    forall m u, union_resolve (export_convert E fe x2) ms v = Ok (m, u) -> exists o' l, m = FS o' (TLeaf l)).
        { clear -M. induction ms as [|m ms IH]; cbn [union_resolve]; [split; [reflexivity|discriminate]|]. destruct (M m (or_introl eq_refl)) as (o' & l & ->). cbn [export_convert].
          specialize (IH (fun m I => M m (or_intror I))). destruct (lf_native l v) as [u|[]]; try (split; [reflexivity|discriminate]); [|exact IH]. split; [reflexivity|]. intros m0 u0 [= <- <-]. eauto. }
        destruct U as [-> U]. destruct (union_resolve _ ms v) as [[m u]|e]; cbn [rbind]; [|discriminate]. destruct (U m u eq_refl) as (o' & l & ->). rewrite Hl. intros Q. exists w. split; [exact Q|constructor].
      - unfold model_export. destruct (export_loop E fe x2 (match v with VModel d _ => d | _ => c end) v) as [d2|e] eqn:Q; cbn [rbind]; [|discriminate]. intros [= <-].
        destruct (loop_less _ _ _ Kv Q) as (d & -> & R). cbn [rbind]. eexists. split; [reflexivity|]. now constructor.
      - unfold poly_export. destruct (poly_allowed E p v); [|discriminate]. destruct v; try discriminate.
        destruct (export_loop E fe x2 c (VModel c m)) as [d2|e] eqn:Q; cbn [rbind]; [|discriminate]. intros [= <-].
        destruct (loop_less _ _ _ Kv Q) as (d & -> & R). cbn [rbind]. eexists. split; [reflexivity|]. now constructor.
      - unfold list_export. pose proof (levels g) as Lv. destruct (Z.eqb_spec (get_export_level E g x2) DROP) as [D2|D2].
        { assert (get_export_level E g x = DROP) as -> by (destruct Lv as [Q|[_ Q]]; [exact Q|contradiction]). intros [= <-]. eexists. split; [reflexivity|constructor]. }
        destruct (py_iter E v) as [l|e] eqn:Qi; cbn [rbind]; [|discriminate].
        assert (Kl : Forall keyed l).
        { destruct v; try discriminate Qi; cbn in Qi; injection Qi as <-; try (apply Forall_forall; intros u0 Hu; apply in_map_iff in Hu as (a & <- & _); first [now apply ky_atom|destruct a; now apply ky_atom]);
            inversion Kv as [? N1 N2 N3 N4|? F|? F|d' N F|c' m' F]; subst; try assumption; exfalso; first [now eapply N1|now eapply N2]. }
        destruct (list_export_loop fe g (get_export_level E g x2) x2 l []) as [d2|e] eqn:Q; cbn [rbind]; [|discriminate]. intros [= <-].
        destruct (Z.eqb_spec (get_export_level E g x) DROP) as [D|D]; [eexists; split; [reflexivity|constructor; apply rest_none]|].
        enough (G : exists d, list_export_loop fe g (get_export_level E g x) x l [] = Ok d /\ rest part_of d d2) by (destruct G as (d & -> & R); eexists; split; [reflexivity|now constructor]).
        assert (R0 : rest part_of [] []) by constructor. clear Qi. revert Q R0. generalize (@nil pyval) at 1 3. generalize (@nil pyval).
        induction Kl as [|u0 l Ku Kl IH]; intros data data2; cbn [list_export_loop]; [intros [= <-] R0; eauto|].
        destruct (fe g u0 x2) as [w|e] eqn:Qw; cbn [rbind]; [|discriminate]. destruct (H _ _ _ Su Ku Qw) as (w' & -> & P). cbn [rbind]. intros Q R0. apply (IH _ _ Q).
        pose proof (skip_less g w w' D P) as Sk. destruct (skip_elem g (get_export_level E g x2) w); [now rewrite (Sk eq_refl)|].
        destruct (skip_elem g (get_export_level E g x) w'); [now apply rest_skip|now apply rest_keep].
      - unfold dict_export. pose proof (levels g) as Lv. destruct (Z.eqb_spec (get_export_level E g x2) DROP) as [D2|D2].
        { assert (get_export_level E g x = DROP) as -> by (destruct Lv as [Q|[_ Q]]; [exact Q|contradiction]). intros [= <-]. eexists. split; [reflexivity|constructor]. }
        destruct (py_item_pairs E v) as [l|e] eqn:Qi; cbn [rbind]; [|discriminate].
        assert (Kl : NoDup (dkeys l) /\ forall y u0, In (y, u0) l -> keyed u0).
        { destruct v; try discriminate Qi; cbn in Qi; injection Qi as <-.
          - inversion Kv as [? N1 N2 N3 N4|? F|? F|d' N F|c' m' F]; subst; [now destruct (N3 d)|]. split; [exact N|exact F].
          - split; [unfold dkeys; rewrite map_map; cbn [fst]; rewrite map_id; apply model_iter_NoDup, (sh_fields _ Sh)|].
            intros y u0 I. apply in_map_iff in I as (a & [= <- <-] & _). destruct (chain_get m a) as [u0|] eqn:G; [now apply (chain_keyed c m a)|now constructor]. }
        destruct Kl as [Nl Kl].
        destruct (dict_export_loop fe g (get_export_level E g x2) x2 l []) as [d2|e] eqn:Q; cbn [rbind]; [|discriminate]. intros [= <-].
        destruct (Z.eqb_spec (get_export_level E g x) DROP) as [D|D]; [eexists; split; [reflexivity|constructor; apply rest_none]|].
        enough (G : exists d, dict_export_loop fe g (get_export_level E g x) x l [] = Ok d /\ entries_of d d2) by (destruct G as (d & -> & R); eexists; split; [reflexivity|now constructor]).
        assert (G : forall data data2, entries_of data data2 -> (forall y, In y (dkeys l) -> ~ In y (dkeys data2)) -> dict_export_loop fe g (get_export_level E g x2) x2 l data2 = Ok d2 ->
                  exists d, dict_export_loop fe g (get_export_level E g x) x l data = Ok d /\ entries_of d d2); [|apply (G [] []); [constructor|intros y _ []|exact Q]].
        clear Q Qi. induction l as [|[y u0] l IH]; intros data data2 R0 Fr; cbn [dict_export_loop]; [intros [= <-]; eauto|].
        destruct (fe g u0 x2) as [w|e] eqn:Qw; cbn [rbind]; [|discriminate]. destruct (H _ _ _ Su (Kl y u0 (or_introl eq_refl)) Qw) as (w' & -> & P). cbn [rbind].
        cbn in Nl. inversion Nl as [|? ? N1 N2]; subst.
        apply IH; [exact N2|intros; apply (Kl y0); now right| |].
        + pose proof (skip_less g w w' D P) as Sk. assert (F2 : ~ In y (dkeys data2)) by (apply Fr; now left). assert (F1 : ~ In y (dkeys data)) by (intros I; apply F2; now apply (entries_keys data)).
          rewrite (dset_new y w data2 F2), (dset_new y w' data F1).
          destruct (skip_elem g (get_export_level E g x2) w); [now rewrite (Sk eq_refl)|].
          destruct (skip_elem g (get_export_level E g x) w'); [now apply rest_skip|apply rest_keep; [exact R0|now split]].
        + intros z Hz I. destruct (skip_elem g (get_export_level E g x2) w); [exact (Fr z (or_intror Hz) I)|].
          rewrite (dset_new y w data2) in I by (apply Fr; now left). unfold dkeys in I. rewrite map_app, in_app_iff in I. destruct I as [I|[I|[]]]; [exact (Fr z (or_intror Hz) I)|]. cbn in I. subst z. contradiction.
    Qed.
  End Under.
  Lemma export_less n : forall f v w, simple_unions f -> keyed v -> export_at E n f v x2 = Ok w -> exists w', export_at E n f v x = Ok w' /\ part_of w' w.
  Proof using Sh L.
    induction n as [|n IH]; intros f v w Su Kv; cbn [export_at]; [discriminate|]. apply step_less; try assumption.
    intros o l u0. destruct n; cbn [export_at]; [reflexivity|]. unfold export_step. cbn [fs_type]. now rewrite (sl_format _ _ _ L).
  Qed.
  Lemma top_less n c m d2 : keyed (VModel c m) -> model_export_top E (export_at E n) c m x2 = Ok d2 ->
    exists d, model_export_top E (export_at E n) c m x = Ok d /\ part_of (VDict d) (VDict d2).
  Proof using Sh L.
    intros K Q. destruct (loop_less (export_at E n) (export_less n) c (VModel c m) d2 K Q) as (d & Qd & R). exists d. split; [exact Qd|now constructor].
  Qed.
End Less.

(** ** Which exports show less *)
Lemma lower_refl l : lower l l.
Proof. unfold lower. destruct (Z.eq_dec l 0); [now left|right; split; [lia|assumption]]. Qed.
Lemma less_than_all E x : (forall c, ~ unknown_role E c x) -> shows_less E x (ECtx (ec_fmt x) (RoleFn (role_call (build (Start Everything [])))) (ec_raise x) (ec_level x)).
Proof.
  intros K. constructor; [reflexivity|exact K| |].
  - intros c g g2 n v _ F2 (h & -> & Hh). inversion F2; subst; try discriminate. match goal with Q : _ = RoleFn _ |- _ => injection Q as <- end. discriminate Hh.
  - intros f l l2 A B. apply level_spec in A, B. subst l l2. apply lower_refl.
Qed.
Lemma less_role E f e e2 b l : (forall n, admits e n -> admits e2 n) -> shows_less E (ECtx f (RoleFn (role_call (build e))) b l) (ECtx f (RoleFn (role_call (build e2))) b l).
Proof.
  intros A. constructor; [reflexivity| | |].
  - intros c (n & Q & _). discriminate Q.
  - intros c g g2 n v F F2 (h & -> & Hh). inversion F; subst; try discriminate. inversion F2; subst; try discriminate.
    repeat match goal with Q : _ = RoleFn _ |- _ => injection Q as <- end. eexists. split; [reflexivity|].
    destruct (role_call (build e) n v) eqn:Q; [reflexivity|]. apply role_filter, A in Q. apply (role_filter e2 n v) in Q. rewrite Q in Hh. discriminate.
  - intros g l1 l2 B C. apply level_spec in B, C. subst l1 l2. apply lower_refl.
Qed.
Lemma less_level E f r b l l2 : (forall c, ~ unknown_role E c (ECtx f r b (Some l))) -> lower l l2 -> shows_less E (ECtx f r b (Some l)) (ECtx f r b (Some l2)).
Proof.
  intros K Lw. constructor; [reflexivity|exact K| |].
  - intros c g g2 n v F F2 Hh. enough (g = g2) by now subst. apply filter_spec in F, F2. unfold export_filter in *. cbn [ec_role ec_raise] in *. congruence.
  - intros g a a2 A B. apply level_spec in A, B. unfold get_export_level in A, B. cbn in A, B. now subst.
Qed.
Lemma any_role E x : showing E -> (forall c, ~ unknown_role E c x) -> forall n c m d2, keyed (VModel c m) ->
  model_export_top E (export_at E n) c m (ECtx (ec_fmt x) (RoleFn (role_call (build (Start Everything [])))) (ec_raise x) (ec_level x)) = Ok d2 ->
  exists d, model_export_top E (export_at E n) c m x = Ok d /\ part_of (VDict d) (VDict d2).
Proof. intros Sh K n c m d2. apply top_less; [exact Sh|now apply less_than_all]. Qed.
Lemma roles_less E : showing E -> forall e e2, (forall n, admits e n -> admits e2 n) -> forall f b l n c m d2, keyed (VModel c m) ->
  model_export_top E (export_at E n) c m (ECtx f (RoleFn (role_call (build e2))) b l) = Ok d2 ->
  exists d, model_export_top E (export_at E n) c m (ECtx f (RoleFn (role_call (build e))) b l) = Ok d /\ part_of (VDict d) (VDict d2).
Proof. intros Sh e e2 A f b l n c m d2. apply top_less; [exact Sh|now apply less_role]. Qed.
Lemma levels_less E : showing E -> forall f r b l l2, (forall c, ~ unknown_role E c (ECtx f r b (Some l))) -> lower l l2 -> forall n c m d2, keyed (VModel c m) ->
  model_export_top E (export_at E n) c m (ECtx f r b (Some l2)) = Ok d2 ->
  exists d, model_export_top E (export_at E n) c m (ECtx f r b (Some l)) = Ok d /\ part_of (VDict d) (VDict d2).
Proof. intros Sh f r b l l2 K A n c m d2. apply top_less; [exact Sh|now apply less_level]. Qed.
Lemma part_entries d e y v : part_of (VDict d) (VDict e) -> In (y, v) d -> exists w, In (y, w) e /\ part_of v w.
Proof.
  intros P I. inversion P as [? Q|? ? R|]; subst; [exists v; split; [assumption|constructor]|]. destruct (rest_in _ _ _ _ R I) as ([z w] & J & Q & Pw). cbn in Q. subst z. eauto.
Qed.
