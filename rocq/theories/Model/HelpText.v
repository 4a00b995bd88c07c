(** ModelHelpTextMixin: schematics/extensions/model_help_text_mixin.py.  Parameters: [fmt v] is [format(v, '')], [dedent]
    and [fill] are those of textwrap, [meta f] is [f.metadata] (a computed field delegates to its type) and
    [native_name f] is the name of [f.native_type], None when that is None.
    Simplified: names of fields are texts; [bool(f)] is True for fields. *)
From Verif.Model Require Import Py Core Atoms Text.

(** model_help_text_mixin.py 8-23; the three arguments are None by default. *)
Definition help_text_metadata (label description example : pyval) : list (key * pyval) :=
  [(k "label", label); (k "description", description); (k "example", example)].

(** The dictionaries of model_help_text_mixin.py 61-67. *)
Record entry := Ent { en_name : key; en_label : pyval; en_value : pyval; en_desc : pyval; en_field : option field }.

(** The name inside a text. (runtime) *)
Definition name_text (n : key) : pstr := match n with KStr s => s | KInt z => dec_text z end.
(** [sep.join(l)]. (runtime) *)
Fixpoint join (sep : pstr) (l : list pstr) : pstr :=
  match l with
  | [] => []
  | [x] => x
  | x :: r => x ++ sep ++ join sep r
  end.
(** The line feed, and the quotes of the Python texts. *)
Definition nl : pstr := [10%N].
(** Three double quotes, model_help_text_mixin.py 25 and 34. *)
Definition quotes : pstr := [34%N; 34%N; 34%N].
(** The characters that end a line for [str.splitlines]. (runtime) *)
Definition line_break (c : N) : bool :=
  ((10 <=? c) && (c <=? 13) || (28 <=? c) && (c <=? 30) || (c =? 133) || (c =? 8232) || (c =? 8233))%N.
(** [s.splitlines(True)], after the characters [cur] of the current line. (runtime) *)
Fixpoint splitlines (cur s : pstr) : list pstr :=
  match s with
  | [] => if nonempty cur then [cur] else []
  | c :: r =>
      if line_break c then
        match r with
        | d :: r' => if ((c =? 13) && (d =? 10))%N then (cur ++ [c; d]) :: splitlines [] r' else (cur ++ [c]) :: splitlines [] r
        | [] => [cur ++ [c]]
        end
      else splitlines (cur ++ [c]) r
  end.

Section HelpText.
  Context (U : unicode) (fmt : pyval -> pstr) (dedent fill : pstr -> pstr).
  Context (meta : field -> list (key * pyval)) (native_name : field -> option pstr).
  (** [cls.__name__], [cls.__doc__] and the fields of [cls._schema]. *)
  Context (cls : pstr) (doc : option pstr) (fields : list (key * field)).

  (** [for a in generator]: the atoms received up to the end, in at most [n] requests. (runtime) *)
  Fixpoint drain (n : nat) (g : gen) : list atom :=
    match n with
    | O => []
    | S n' => match resume (W := unit) (X := unit) (fun _ => true) None None atom_fields fields g tt with
              | (g', _, Yield a) => a :: drain n' g'
              | _ => []
              end
    end.
  (** [x or y]. (runtime) *)
  Definition or_else (x y : pyval) : pyval := if truthy x then x else y.
  (** [d.get(x, y)]. (runtime) *)
  Definition get_default (x : string) (y : pyval) (d : list (key * pyval)) : pyval :=
    match dget (k x) d with Some v => v | None => y end.
  (** model_help_text_mixin.py 57-67; with the default keys an atom has both name and field. *)
  Definition atom_entry (a : atom) : option (key * entry) :=
    match at_name a, at_field a with
    | Some n, Some f =>
        Some (n, Ent n (get_default "label" (key_val n) (meta f))
                     (or_else (at_value a) (get_default "example" VNone (meta f)))
                     (get_default "description" VNone (meta f)) (Some f))
    | _, _ => None
    end.
  (** _all_metadata, model_help_text_mixin.py 49-68. *)
  Definition all_metadata : list (key * entry) :=
    fold_left (fun d a => match atom_entry a with Some (n, e) => dset n e d | None => d end)
              (drain (S (length fields)) GStart) [].
  (** The documentation of the class, model_help_text_mixin.py 75 and 127; dedent(None) raises TypeError. *)
  Definition docstring : res pstr :=
    match doc with Some s => Ok (strip (is_space U) (dedent s)) | None => Raise (XPy ETypeError) end.
  (** model_help_text_mixin.py 78-90. *)
  Definition entry_lines (e : entry) : list pstr :=
    [if truthy (en_label e) then u "    " ++ name_text (en_name e) ++ u " (" ++ fmt (en_label e) ++ u ")"
     else u "    " ++ name_text (en_name e)] ++
    (if negb (is_none (en_value e)) then [u "        Example: " ++ fmt (en_value e)] else []) ++
    (if truthy (en_desc e) then [u "        " ++ fmt (en_desc e)] else []) ++
    (if negb (negb (is_none (en_value e)) || truthy (en_desc e)) then [u "        No helptext provided."] else []).
  (** get_helptext, model_help_text_mixin.py 70-92. *)
  Definition get_helptext : res pstr :=
    rbind docstring (fun d => Ok (join nl (d :: flat_map (fun p => entry_lines (snd p)) all_metadata))).
  (** model_help_text_mixin.py 101. *)
  Definition usage_line (e : entry) : pstr := u "    '" ++ name_text (en_name e) ++ u "': " ++ fmt (en_value e) ++ u ",".
  (** get_example_usage, model_help_text_mixin.py 94-104. *)
  Definition get_example_usage : pstr :=
    join nl ((cls ++ u "({") :: map (fun p => usage_line (snd p)) all_metadata ++ [u "})"]).
  (** model_help_text_mixin.py 110-116; [None.__name__] raises AttributeError. *)
  Definition param_line (e : entry) : res pstr :=
    rbind (match en_field e with
           | Some f => match native_name f with Some t => Ok (u " " ++ t) | None => Raise (XPy EAttributeError) end
           | None => Ok []
           end) (fun t =>
      Ok (fill (u ":param" ++ t ++ u " " ++ name_text (en_name e) ++ u ":" ++
                (if truthy (en_desc e) then u " " ++ fmt (en_desc e) else [])))).
  (** The loop of model_help_text_mixin.py 108-116. *)
  Fixpoint param_lines (l : list (key * entry)) : res (list pstr) :=
    match l with
    | [] => Ok []
    | (_, e) :: r => rbind (param_line e) (fun x => rbind (param_lines r) (fun xs => Ok (x :: xs)))
    end.
  (** get_parameter_descriptions, model_help_text_mixin.py 106-118. *)
  Definition get_parameter_descriptions : res pstr := rbind (param_lines all_metadata) (fun l => Ok (join nl l)).
  (** get_api_docstring, model_help_text_mixin.py 120-136, with the format of 25-34. *)
  Definition get_api_docstring : res pstr :=
    rbind get_parameter_descriptions (fun ps =>
    rbind docstring (fun d =>
      let ex := concat (map (fun l => u "    " ++ l) (splitlines [] get_example_usage)) in
      Ok (quotes ++ nl ++ d ++ nl ++ nl ++ u "Example:" ++ nl ++ nl ++ ex ++ nl ++ nl ++ nl ++ ps ++ nl ++ quotes))).
End HelpText.
