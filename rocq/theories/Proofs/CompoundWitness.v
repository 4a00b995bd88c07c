(** Counterexamples and the sample program for compound types. *)
From Verif.Model Require Import Py Core Export Api Compound.
From Verif.Spec Require Import ImportSpec ValidateSpec CompoundSpec ExportSpec DeepSpec.
From Verif.Proofs Require Import DictLemmas Decide ExportDeep.
From Verif.Conformance Require Import Sample.

(** [str(k)] for the keys 1 and '1' (compound.py 290: the default coerce_key). *)
Definition str_key1 (y : key) : res key := Ok (match y with KInt 1 => k "1" | _ => y end).
Lemma colliding_keys_witness :
  exists fc g ck d x ps, NoDup (dkeys d) /\ length d = 2 /\
    dict_convert fc g ck (VDict d) x = Ok (VDict ps) /\ length ps = 1.
Proof.
  exists (cv_field (lib 5)), (FS (o_inner (o0 1)) (TLeaf int_leaf)), str_key1, [(KInt 1, VInt 10); (k "1", VInt 20)],
    (kw_ctx kw1 (VDict [])), [(k "1", VInt 20)].
  split; [now apply nodupb_ok|]. repeat split.
Qed.

(** A text type with and without a restriction: Union([StringType(), StringType(restricted)]). *)
Definition digits_leaf : leaf := Leaf (fun v => match v with VInt _ => Ok v | _ => Raise (XConv [u "x"]) end) (fun v => Ok v).
Lemma dropped_member_witness :
  exists decl v m, In m (map snd decl) /\ (exists w, leaf_convert m v = Ok w) /\
    exists es, union_resolve leaf_convert (union_members decl) v = Raise (XConv es).
Proof.
  exists [(k "T", member_of any_leaf []); (k "T", member_of digits_leaf [])], (VStr (u "x")), (member_of any_leaf []).
  split; [left; reflexivity|]. split; eexists; reflexivity.
Qed.

(** class Vehicle; class Car(Vehicle) claims dicts with wheels; class Plane(Vehicle) claims dicts with wings. *)
Definition claims_key (s : string) : pyval -> res bool := fun v =>
  match v with VDict d => Ok (dmem (k s) d) | _ => Ok false end.
Definition Epoly : env :=
  Env (fun c => match c with
                | 0%N => MC [] [] [] DEFAULT None
                | 1%N => MC [fld "wheels" (o0 1) (TLeaf int_leaf)] [] [] DEFAULT (Some (claims_key "wheels"))
                | 2%N => MC [fld "wings" (o0 2) (TLeaf int_leaf)] [] [] DEFAULT (Some (claims_key "wings"))
                | _ => Nothing end)
      (fun c d => N.eqb c d || (N.eqb d 0 && (N.eqb c 1 || N.eqb c 2)))
      (fun c => match c with 0%N => [1%N; 2%N] | _ => [] end).
Lemma poly_honest : honest_subs Epoly.
Proof.
  intros c d. destruct c; cbn; [intros [<-|[<-|[]]]; reflexivity|intros []].
Qed.
Lemma poly_refl c : e_issub Epoly c c = true.
Proof. cbn. now rewrite N.eqb_refl. Qed.
Lemma poly_setters c : proper_setters Epoly c.
Proof.
  intros n f fset H. destruct c as [|[[]|[[]|[]|]|]]; cbn in H; try contradiction.
  all: repeat (destruct H as [[= <- <-]|H]; [discriminate|]); destruct H.
Qed.
Lemma claim_function_witness :
  exists E p v c m, (forall c, e_issub E c c = true) /\ honest_subs E /\ (forall c, proper_setters E c) /\
    cv_field (conv_at E 5) (FS (o0 0) (TPoly p)) v default_ctx = Ok (VModel c m) /\ ~ permitted E p c.
Proof.
  exists Epoly, (poly_init (Classes [0%N; 1%N]) (Some (fun _ => Some 2%N)) None), (VDict []), 2%N. eexists.
  split; [exact poly_refl|]. split; [exact poly_honest|]. split; [exact poly_setters|]. split; [reflexivity|].
  intros [[H|[H|[]]]|[H _]]; discriminate.
Qed.

(** ** Unions with compound members *)
Definition inner_opts : fopts := FO false false VUndef None [] [] None None.
Definition list_or_any : list fspec := [FS inner_opts (TList (member_of int_leaf [])); member_of any_leaf []].
Lemma hidden_member_witness :
  exists E j o ms m v x w errs, In m ms /\ cv_convert (conv_at E j) m v x = Ok w /\
    cv_convert (conv_at E (S j)) (FS o (TUnion ms)) v x = Raise (XCompound errs).
Proof.
  exists Esample, 4, (o0 1), list_or_any, (member_of any_leaf []), (VList [VStr (u "x")]), default_ctx, (VList [VStr (u "x")]).
  eexists. split; [right; left; reflexivity|]. split; reflexivity.
Qed.
Lemma union_model_export E n o pre o' c post v x : Forall (declined E v) pre ->
  (exists d, v = VDict d) \/ (exists c' m, v = VModel c' m /\ e_issub E c' c = true) ->
  export_at E (S n) (FS o (TUnion (pre ++ FS o' (TModel c) :: post))) v x = Raise (XPy EAttributeError).
Proof.
  intros P H. cbn [export_at]. unfold export_step. cbn [fs_type].
  assert (K : union_resolve (export_convert E (export_at E n) x) (pre ++ FS o' (TModel c) :: post) v = Raise (XPy EAttributeError)); [|now rewrite K].
  induction P as [|m pre D P IH]; cbn [app union_resolve].
  - cbn [export_convert]. destruct H as [[d ->]|(c' & m & -> & ->)]; reflexivity.
  - destruct (declined_refuses E x (export_at E n) v m D) as [es ->]. exact IH.
Qed.
(** class Holder: item = UnionType((ModelType(Holder), ...)) *)
Definition Eholder : env :=
  Env (fun c => match c with
                | 0%N => MC [fld "name" (o0 0) (TLeaf any_leaf); fld "item" (o0 0) (TUnion [FS inner_opts (TModel 0)])] [] [] DEFAULT None
                | _ => Nothing end) N.eqb (fun _ => []).
Lemma union_model_witness :
  exists E c d m, model_init E (conv_at E 10) c (VDict d) (VDict []) kw0 = Ok m /\
    (forall n, exists e, model_export_top E (export_at E n) c m ((ECtx Primitive NoRole true None)) = Raise e /\
       (1 <= n -> e = XPy EAttributeError)).
Proof.
  exists Eholder, 0%N, [(k "item", VDict [(k "name", VStr (u "x"))])]. eexists. split; [vm_compute; reflexivity|].
  intros [|n]; [eexists; split; [reflexivity|lia]|]. eexists. split; reflexivity.
Qed.
(** The model inside a union is given the outer instance's data. *)
Lemma union_trusted_witness :
  exists E r c m d w m' n m1, kw_mapping w = no_mapping /\ kw_recursive w = false /\ kw_validate w = false /\
    model_import_data E r c m (VDict d) w = (m', None) /\
    dget n d = Some (VDict []) /\ chain_get m' n = Some (VModel c m1) /\
    exists y v, chain_get m y = Some v /\ v <> VNone /\ chain_get m1 y = Some v.
Proof.
  exists Eholder, (conv_at Eholder 10), 0%N, (MD [] [(k "name", VStr (u "outer"))] [] None), [(k "item", VDict [])], kw1.
  eexists _, (k "item"), _. do 3 (split; [reflexivity|]). split; [vm_compute; reflexivity|]. split; [reflexivity|].
  split; [vm_compute; reflexivity|]. exists (k "name"), (VStr (u "outer")). repeat split; try discriminate; vm_compute; reflexivity.
Qed.
