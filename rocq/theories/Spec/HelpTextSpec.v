(** Help texts of models. *)
From Verif.Model Require Import Py Core HelpText.

Section Spec.
  Context (fmt : pyval -> pstr) (meta : field -> list (key * pyval)) (native_name : field -> option pstr).
  (** Fields under their names. *)
  Definition keyed (l : list (pstr * field)) : list (key * field) := map (fun nf => (KStr (fst nf), snd nf)) l.
  Definition said (f : field) (x : string) (v : pyval) : Prop := dget (k x) (meta f) = Some v.
  Definition unsaid (f : field) (x : string) : Prop := dget (k x) (meta f) = None.

  (** The label of the field [f] named [n]: the one given, which may be None, else the name. *)
  Inductive label_of (n : pstr) (f : field) : pyval -> Prop :=
  | lab_given v : said f "label" v -> label_of n f v
  | lab_name : unsaid f "label" -> label_of n f (VStr n).
  (** Something not given is None. *)
  Inductive told (f : field) (x : string) : pyval -> Prop :=
  | told_given v : said f x v -> told f x v
  | told_none : unsaid f x -> told f x VNone.

  Definition sp4 : pstr := [32; 32; 32; 32]%N.
  (** The line with the name of a field. *)
  Inductive name_line (n : pstr) (f : field) : pstr -> Prop :=
  | nl_label v : label_of n f v -> truthy v = true -> name_line n f (sp4 ++ n ++ u " (" ++ fmt v ++ u ")")
  | nl_plain v : label_of n f v -> truthy v = false -> name_line n f (sp4 ++ n).
  (** The lines below it: the example, even if empty, and the description, if not empty; a remark if there is neither. *)
  Inductive more_lines (f : field) : list pstr -> Prop :=
  | ml_both v d : told f "example" v -> v <> VNone -> told f "description" d -> truthy d = true ->
      more_lines f [sp4 ++ sp4 ++ u "Example: " ++ fmt v; sp4 ++ sp4 ++ fmt d]
  | ml_example v d : told f "example" v -> v <> VNone -> told f "description" d -> truthy d = false ->
      more_lines f [sp4 ++ sp4 ++ u "Example: " ++ fmt v]
  | ml_description d : told f "example" VNone -> told f "description" d -> truthy d = true -> more_lines f [sp4 ++ sp4 ++ fmt d]
  | ml_nothing d : told f "example" VNone -> told f "description" d -> truthy d = false ->
      more_lines f [sp4 ++ sp4 ++ u "No helptext provided."].
  Definition field_help (nf : pstr * field) (l : list pstr) : Prop :=
    exists a b, name_line (fst nf) (snd nf) a /\ more_lines (snd nf) b /\ l = a :: b.

  (** Lines of text: all but the first begin after a line feed. *)
  Inductive lines : list pstr -> pstr -> Prop :=
  | ls_one l : lines [l] l
  | ls_more l r t : lines r t -> lines (l :: r) (l ++ [10%N] ++ t).

  (** No lines are the empty text. *)
  Definition text_of (ls : list pstr) (t : pstr) : Prop := match ls with [] => t = [] | _ => lines ls t end.

  (** The item of a field in the example code. *)
  Definition example_item (nf : pstr * field) (l : pstr) : Prop :=
    exists v, told (snd nf) "example" v /\ l = sp4 ++ u "'" ++ fst nf ++ u "': " ++ fmt v ++ u ",".

  (** The description of a parameter, before it is wrapped. *)
  Inductive parameter (nf : pstr * field) : pstr -> Prop :=
  | par_plain t d : native_name (snd nf) = Some t -> told (snd nf) "description" d -> truthy d = false ->
      parameter nf (u ":param " ++ t ++ u " " ++ fst nf ++ u ":")
  | par_told t d : native_name (snd nf) = Some t -> told (snd nf) "description" d -> truthy d = true ->
      parameter nf (u ":param " ++ t ++ u " " ++ fst nf ++ u ": " ++ fmt d).

  (** The text [d] between the outermost characters of [s] that are not spaces. *)
  Definition trimmed (space : N -> bool) (s d : pstr) : Prop :=
    exists a b, s = a ++ d ++ b /\ Forall (fun c => space c = true) (a ++ b) /\
      (forall c r, d = c :: r -> space c = false) /\ (forall c r, d = r ++ [c] -> space c = false) /\ (d = [] -> b = []).

  (** Ends of lines: LF, VT, FF, CR, FS, GS, RS, NEL, LS, PS; CR LF is one. *)
  Definition ends_line (c : N) : Prop := In c [10; 11; 12; 13; 28; 29; 30; 133; 8232; 8233]%N.
  (** [indented b s t]: [t] is [s] with four spaces before each line; [b]: a line begins here. *)
  Inductive indented : bool -> pstr -> pstr -> Prop :=
  | in_nil b : indented b [] []
  | in_start c s t : indented false (c :: s) t -> indented true (c :: s) (sp4 ++ t)
  | in_crlf s t : indented true s t -> indented false (13%N :: 10%N :: s) (13%N :: 10%N :: t)
  | in_break c s t : ends_line c -> (c = 13%N -> forall r, s <> 10%N :: r) -> indented true s t -> indented false (c :: s) (c :: t)
  | in_char c s t : ~ ends_line c -> indented false s t -> indented false (c :: s) (c :: t).
End Spec.
