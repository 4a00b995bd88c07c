(** C84: the help texts of a model, for every way of printing values and of wrapping and dedenting text. *)
From Verif.Model Require Import Py Core Text Types HelpText.
From Verif.Spec Require Import HelpTextSpec.
From Verif.Proofs Require Import HelpTextFacts.
From Verif.Conformance Require Import Sample TypeSample.

(** ** C84 *)
(** The help text is the trimmed documentation of the class followed by the lines of each field, in the order of the fields. *)
Theorem C84_help_text :
  forall U fmt dedent meta doc l t, NoDup (map fst l) ->
    (get_helptext U fmt dedent meta doc (keyed l) = Ok t <->
     exists s d ls, doc = Some s /\ trimmed (is_space U) (dedent s) d /\ Forall2 (field_help fmt meta) l ls /\
       lines (d :: concat ls) t).
Proof. exact helptext_iff. Qed.
Print Assumptions C84_help_text.

(** A class without documentation has no help text. *)
Theorem C84_undocumented_refuted :
  forall U fmt dedent meta l, get_helptext U fmt dedent meta None (keyed l) = Raise (XPy ETypeError).
Proof. exact helptext_undocumented. Qed.
Print Assumptions C84_undocumented_refuted.

(** The example code names every field once, in order, with its example. *)
Theorem C84_example_code :
  forall fmt meta cls l t, NoDup (map fst l) ->
    (get_example_usage fmt meta cls (keyed l) = t <->
     exists items, Forall2 (example_item fmt meta) l items /\ lines ((cls ++ u "({") :: items ++ [u "})"]) t).
Proof. exact example_iff. Qed.
Print Assumptions C84_example_code.

(** It does not say what the examples are: the number 1 and the text 1 are written alike, the text without quotes. *)
Theorem C84_example_code_refuted :
  forall fmt, fmt (VInt 1) = u "1" -> fmt (VStr (u "1")) = u "1" ->
    exists (meta meta' : field -> list (key * pyval)) n f,
      said meta f "example" (VInt 1) /\ said meta' f "example" (VStr (u "1")) /\
      forall cls, get_example_usage fmt meta cls (keyed [(n, f)]) = get_example_usage fmt meta' cls (keyed [(n, f)]).
Proof. exact examples_alike. Qed.
Print Assumptions C84_example_code_refuted.

(** The descriptions of the parameters: one for each field, in order, wrapped; possible if every type of a field has a native type. *)
Theorem C84_parameters :
  forall fmt fill meta native_name l t, NoDup (map fst l) ->
    (get_parameter_descriptions fmt fill meta native_name (keyed l) = Ok t <->
     exists ps, Forall2 (parameter fmt meta native_name) l ps /\ text_of (map fill ps) t).
Proof. exact descriptions_iff. Qed.
Print Assumptions C84_parameters.

(** One field without a native type (such as union, polymorphic and enumeration types) makes it raise AttributeError. *)
Theorem C84_parameters_raise :
  forall fmt fill meta native_name l e, NoDup (map fst l) ->
    (get_parameter_descriptions fmt fill meta native_name (keyed l) = Raise e <->
     e = XPy EAttributeError /\ exists nf, In nf l /\ native_name (snd nf) = None).
Proof. exact descriptions_raise. Qed.
Print Assumptions C84_parameters_raise.

(** The docstring consists of the documentation, the example code with every line indented, and the descriptions. *)
Theorem C84_api_docstring :
  forall U fmt dedent fill meta native_name cls doc l t,
    get_api_docstring U fmt dedent fill meta native_name cls doc (keyed l) = Ok t <->
    exists s d ps code, doc = Some s /\ trimmed (is_space U) (dedent s) d /\
      get_parameter_descriptions fmt fill meta native_name (keyed l) = Ok ps /\
      indented true (get_example_usage fmt meta cls (keyed l)) code /\
      lines [[34; 34; 34]%N; d; []; u "Example:"; []; code; []; []; ps; [34; 34; 34]%N] t.
Proof. exact api_iff. Qed.
Print Assumptions C84_api_docstring.

Theorem C84_api_docstring_raises :
  forall U fmt dedent fill meta native_name cls doc l e, NoDup (map fst l) ->
    (get_api_docstring U fmt dedent fill meta native_name cls doc (keyed l) = Raise e <->
     e = XPy EAttributeError /\ (exists nf, In nf l /\ native_name (snd nf) = None) \/
     e = XPy ETypeError /\ doc = None /\ forall nf, In nf l -> native_name (snd nf) <> None).
Proof. exact api_raises. Qed.
Print Assumptions C84_api_docstring_raises.

(** The model of tests/test_model_help_text_mixin.py, with a second field that has no metadata. *)
Definition person : list (pstr * field) :=
  [(u "name", snd (fld "name" (o_req (o0 1)) (TLeaf any_leaf))); (u "age", snd (fld "age" (o0 2) (TLeaf int_leaf)))].
Definition person_meta (f : field) : list (key * pyval) :=
  match fd_spec f with
  | FS o _ => if fo_required o then help_text_metadata (VStr (u "Name")) (VStr (u "A Persons name")) (VStr (u "Joe Stummer")) else []
  end.
Definition show (v : pyval) : pstr := match v with VStr s => s | VInt z => dec_text z | _ => u "None" end.
Definition type_name (f : field) : option pstr := Some (u "str").
Example C84_case :
  NoDup (map fst person) /\
  get_helptext (rt_uni rt0) show (fun s => s) person_meta (Some (u "  A person. ")) (keyed person)
  = Ok (join nl [u "A person."; u "    name (Name)"; u "        Example: Joe Stummer"; u "        A Persons name";
                 u "    age (age)"; u "        No helptext provided."]) /\
  get_example_usage show person_meta (u "Person") (keyed person)
  = join nl [u "Person({"; u "    'name': Joe Stummer,"; u "    'age': None,"; u "})"] /\
  get_api_docstring (rt_uni rt0) show (fun s => s) (fun s => s) person_meta type_name (u "Person") (Some (u "A person.")) (keyed person)
  = Ok (join nl [quotes; u "A person."; []; u "Example:"; []; u "    Person({"; u "        'name': Joe Stummer,"; u "        'age': None,";
                 u "    })"; []; []; u ":param str name: A Persons name"; u ":param str age:"; quotes]) /\
  get_parameter_descriptions show (fun s => s) person_meta (fun _ => None) (keyed person) = Raise (XPy EAttributeError).
Proof. split; [repeat constructor; cbn; intuition congruence|]. repeat split. Qed.
