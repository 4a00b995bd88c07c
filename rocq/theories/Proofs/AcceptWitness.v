(** Cases for the claim that what was accepted can be exported. *)
From Verif.Model Require Import Py Core Export Api Text Num Types Calendar DateTime Enum Net.
From Verif.Spec Require Import ImportSpec ValidateSpec ExportSpec PrimitiveSpec AcceptSpec.
From Verif.Proofs Require Import DictLemmas ImportLemmas Idem Decide ExportWitness DateTimeLemmas PrimitiveTypes PrimitiveWitness Fuel AcceptFacts.
From Verif.Conformance Require Import Sample TypeSample.
Open Scope string_scope.
Open Scope list_scope.

(** class Trip: days = ListType(DateType(required=True)); start = UTCDateTimeType(); by = DictType(ModelType(Buyer));
    price = DecimalType(); code = UnionType((IntType, StringType)) *)
Definition Trip : mclass :=
  MC [ fld "days" (o0 1) (TList (FS (o_req (o_inner (o0 1))) (TLeaf (date_type rt0 []))));
       fld "start" (o0 1) (TLeaf (utc_type rt0));
       fld "by" (o0 1) (TDict (FS (o_inner (o0 1)) (TModel 0)) (fun y => Ok y));
       fld "price" (o_req (o0 1)) (TLeaf (decimal_type rt0));
       fld "code" (o0 1) (TUnion [member_of (int_type rt0 false) []; member_of string_leaf []]) ] [] [] DEFAULT None.
Definition Etrip : env := Env (fun c => match c with 0%N => Buyer | 1%N => Trip | _ => Nothing end) N.eqb (fun _ => []).
Definition trip_data : list (key * pyval) :=
  [ (k "days", VList [VStr (u "2024-02-29"); VStr (u "2024-03-01")]); (k "start", VStr (u "2024-02-29T10:00+01:00"));
    (k "by", VDict [(k "a", VDict [(k "name", VStr (u "Bo"))]); (k "b", VNone)]); (k "price", VStr (u "2.50"));
    (k "code", VStr (u "x")) ].

Lemma trip_tidy : tidy_env Etrip.
Proof.
  constructor.
  - intros c. apply nodupb_ok. destruct c as [|[[]|[]|]]; reflexivity.
  - intros c. apply plainb_ok. destruct c as [|[[]|[]|]]; reflexivity.
  - intros c n vf H. destruct c as [|[[]|[]|]]; cbn in H; contradiction.
Qed.
Lemma int_or_string x : union_exports x [member_of (int_type rt0 false) []; member_of string_leaf []].
Proof.
  intros m [<-|[<-|[]]]; (do 2 eexists; split; [reflexivity|]); intros a v H.
  - apply int_range in H as [z ->]. destruct x as [[|] r b lv]; (eapply sw_here; [reflexivity|reflexivity]).
  - apply string_range in H as [s ->]. destruct (lf_native (int_type rt0 false) (VStr s)) as [w|e] eqn:I.
    + destruct x as [[|] r b lv]; (eapply sw_here; [exact I|]); [exact I|reflexivity].
    + assert (exists ms, e = XConv ms) as [ms ->].
      { cbn in I. destruct (int_text _ _ s); cbn in I; [discriminate|]. injection I as <-. eauto. }
      eapply sw_next; [exact I|]. destruct x as [[|] r b lv]; (eapply sw_here; reflexivity).
Qed.
Lemma trip_exports x : exports_env x Etrip.
Proof.
  intros c n f H. destruct c as [|[[]|[]|]]; cbn in H; try contradiction; decompose [or] H; clear H; try contradiction;
    match goal with E : _ = _ |- _ => injection E as <- <- end; cbn.
  - apply (exporting_library rt0). constructor.
  - split; [apply (exporting_library rt0); constructor|]. split; [reflexivity|now left].
  - apply (exporting_library rt0). constructor.
  - split; [exact I|]. split; [reflexivity|right; exact I].
  - apply (exporting_library rt0). constructor.
  - apply int_or_string.
Qed.
Lemma trip_known x : ec_role x = NoRole -> forall c, ~ unknown_role Etrip c x.
Proof. intros N c (n & R & _). congruence. Qed.

(** class Diary: days = ListType(DateType()); rows = ListType(ListType(IntType())); counts = ListType(IntType());
    at = DateTimeType() *)
Definition Diary : mclass :=
  MC [ fld "days" (o0 0) (TList (FS (o_inner (o0 0)) (TLeaf (date_type rt0 []))));
       fld "rows" (o0 0) (TList (FS (o_inner (o0 0)) (TList (FS (o_inner (o0 0)) (TLeaf (int_type rt0 false))))));
       fld "counts" (o0 0) (TList (FS (o_inner (o0 0)) (TLeaf (int_type rt0 false))));
       fld "at" (o0 0) (TLeaf (dt_type rt0 plain_opts XIso)) ] [] [] DEFAULT None.
Definition Ediary : env := Env (fun c => match c with 0%N => Diary | _ => Nothing end) N.eqb (fun _ => []).
Definition ctx_of (f : fmt) : ectx := ECtx f NoRole true None.
Lemma fails_from E c m x e : model_export_top E (export_at E 5) c m x = Raise e -> e <> XFuel ->
  forall n, 5 <= n -> model_export_top E (export_at E n) c m x = Raise e.
Proof. intros H N n Hn. destruct (export_top_mono E 5 n c m x Hn) as [K|K]; congruence. Qed.
Lemma diary_fails d m m' x e : model_init Ediary (conv_at Ediary 10) 0%N (VDict d) (VDict []) kw0 = Ok m ->
  model_validate Ediary (conv_at Ediary 10) 0%N m kwv = (m', None) ->
  model_export_top Ediary (export_at Ediary 5) 0%N m x = Raise e -> model_export_top Ediary (export_at Ediary 5) 0%N m' x = Raise e -> e <> XFuel ->
  exists E c m m', model_init E (conv_at E 10) c (VDict d) (VDict []) kw0 = Ok m /\
  model_validate E (conv_at E 10) c m kwv = (m', None) /\
  forall n, 5 <= n -> model_export_top E (export_at E n) c m x = Raise e /\ model_export_top E (export_at E n) c m' x = Raise e.
Proof. intros H V X X' N. exists Ediary, 0%N, m, m'. split; [exact H|]. split; [exact V|]. intros n Hn. split; now apply fails_from. Qed.
Definition diary_data (n : string) (v : pyval) : list (key * pyval) :=
  map (fun p => if key_eqb (fst p) (k n) then (fst p, v) else (fst p, VNone)) (mc_fields Diary).
Definition diary (n : string) (v : pyval) : mdata pyval := MD [] (diary_data n v) [] None.
Definition valid_diary (n : string) (v : pyval) : mdata pyval := MD [] [] (diary_data n v) (Some []).
Lemma none_day : exists E c m m', model_init E (conv_at E 10) c (VDict [(k "days", VList [VNone])]) (VDict []) kw0 = Ok m /\
  model_validate E (conv_at E 10) c m kwv = (m', None) /\
  forall n, 5 <= n -> model_export_top E (export_at E n) c m (ctx_of Primitive) = Raise (XPy EAttributeError) /\ model_export_top E (export_at E n) c m' (ctx_of Primitive) = Raise (XPy EAttributeError).
Proof.
  apply (diary_fails _ (diary "days" (VList [VNone])) (valid_diary "days" (VList [VNone]))); [vm_compute; reflexivity|vm_compute; reflexivity|vm_compute; reflexivity|vm_compute; reflexivity|discriminate].
Qed.
Lemma none_row : exists E c m m', model_init E (conv_at E 10) c (VDict [(k "rows", VList [VNone])]) (VDict []) kw0 = Ok m /\
  model_validate E (conv_at E 10) c m kwv = (m', None) /\
  forall n, 5 <= n -> model_export_top E (export_at E n) c m (ctx_of Primitive) = Raise (XPy ETypeError) /\ model_export_top E (export_at E n) c m' (ctx_of Primitive) = Raise (XPy ETypeError).
Proof.
  apply (diary_fails _ (diary "rows" (VList [VNone])) (valid_diary "rows" (VList [VNone]))); [vm_compute; reflexivity|vm_compute; reflexivity|vm_compute; reflexivity|vm_compute; reflexivity|discriminate].
Qed.
Lemma none_count : exists E c m m', model_init E (conv_at E 10) c (VDict [(k "counts", VList [VNone])]) (VDict []) kw0 = Ok m /\
  model_validate E (conv_at E 10) c m kwv = (m', None) /\
  forall n, 5 <= n -> model_export_top E (export_at E n) c m (ctx_of Native) = Raise (XConv [u "number_coerce"]) /\ model_export_top E (export_at E n) c m' (ctx_of Native) = Raise (XConv [u "number_coerce"]).
Proof.
  apply (diary_fails _ (diary "counts" (VList [VNone])) (valid_diary "counts" (VList [VNone]))); [vm_compute; reflexivity|vm_compute; reflexivity|vm_compute; reflexivity|vm_compute; reflexivity|discriminate].
Qed.
Lemma far_zone : exists E c m m', model_init E (conv_at E 10) c (VDict [(k "at", VStr (u "2020-01-01T00:00+99:99"))]) (VDict []) kw0 = Ok m /\
  model_validate E (conv_at E 10) c m kwv = (m', None) /\
  forall n, 5 <= n -> model_export_top E (export_at E n) c m (ctx_of Primitive) = Raise (XPy EValueError) /\ model_export_top E (export_at E n) c m' (ctx_of Primitive) = Raise (XPy EValueError).
Proof.
  apply (diary_fails _ (diary "at" (VDateTime (PyDate 2020 1 1) (PyTime 0 0 0 0) (Some 362340%Z))) (valid_diary "at" (VDateTime (PyDate 2020 1 1) (PyTime 0 0 0 0) (Some 362340%Z)))); [vm_compute; reflexivity|vm_compute; reflexivity|vm_compute; reflexivity|vm_compute; reflexivity|discriminate].
Qed.

(** The instance made of the data. *)
Definition trip_model : mdata pyval :=
  MD [] [ (k "days", VList [VDate (PyDate 2024 2 29); VDate (PyDate 2024 3 1)]);
          (k "start", VDateTime (PyDate 2024 2 29) (PyTime 9 0 0 0) None);
          (k "by", VDict [(k "a", VModel 0 (MD [] [(k "name", VStr (u "Bo"))] [] None)); (k "b", VNone)]);
          (k "price", VDecimal 250 (-2)); (k "code", VStr (u "x")) ] [] None.
Lemma trip_made : model_init Etrip (conv_at Etrip 10) 1%N (VDict trip_data) (VDict []) kw0 = Ok trip_model.
Proof. vm_compute. reflexivity. Qed.
Lemma trip_valid : exists m', model_validate Etrip (conv_at Etrip 10) 1%N trip_model kwv = (m', None).
Proof. eexists. vm_compute. reflexivity. Qed.
Lemma trip_layers : defined_layers trip_model /\ NoDup (dkeys (md_converted trip_model)).
Proof.
  split; [|apply nodupb_ok; reflexivity].
  split; [|split]; intros n; cbn; [discriminate| |discriminate].
  repeat (destruct (key_eqb _ _); [discriminate|]). discriminate.
Qed.
