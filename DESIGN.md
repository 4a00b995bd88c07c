# Design: a Rocq model of schematics

## What is verified

`/repo` (schematics/schematics, Python) is read as text. The model in `rocq/theories/Model/` is a shallow
embedding: each Python function becomes a total Gallina function with the same branches, exceptions become
values (`res A = Ok a | Raise e`), mutation becomes returning the new value. Every definition cites the file
and lines it models. Nothing is extracted or run against the code; the tie to the code is the citation.

One slip: a helper command started inside `/repo/schematics` made Python import `schematics/types` (its name hides the
standard module `types`). The import failed, nothing was learned from it, and the two bytecode files it left were removed;
no source file changed.

Layout (`rocq/theories/`):

* `Model/`       definitions only (the model of the code)
* `Spec/`        small declarative specifications, independent of the model's helpers
* `Proofs/`      lemmas
* `Properties/`  one file per property group: theorems closed by `exact lemma`, an `Example` beside each showing
                 that a concrete non-trivial case meets the hypotheses, and `Print Assumptions`
* `Conformance/` the project's own test cases re-stated as `Example`s of the model (tests, not proofs: they guard the reading)

## Modelling decisions

* Text is a list of code points (`pstr = list N`). Dict keys are strings or integers (`key`). A `dict` is an
  insertion ordered association list with Python's `d[k] = v` (`dset`, keeps position of an existing key), `del`, `update`.
* `pyval` is the universe of Python values that can flow through a model: None, Undefined, bool, int (unbounded `Z`),
  float (IEEE binary64 as `SpecFloat.spec_float`), str, bytes, list, tuple, dict, model instance, date, datetime,
  timedelta, UUID, Decimal, enum member, opaque object. A model instance is its class id and the three layers
  (unsafe, converted, valid) of its `_data`, plus the hidden `__valid` reference.
* Leaf types are records of functions (`to_native`, `to_primitive`) and a list of validators (functions). The core theorems quantify
  over all of them, hence over user defined types; the built-in types are separate models proved to have the
  properties the core theorems assume (e.g. idempotence).
* User code (defaults, getters, setters, model level validators, claim functions, role functions) is an arbitrary Coq function,
  i.e. deterministic and terminating. A setter may change the instance, a model level validator may change the `data` dictionary.
* Recursion through nested models is on explicit fuel (Python's recursion limit). Exhaustion is the exception `XFuel`
  (RecursionError), which no handler of the code catches. Monotonicity in the fuel is a theorem.
* Python aliasing is tracked by hand where the code depends on it: `raw_data is self._data.converted`, `raw_data is mutable`,
  `ModelDict.__valid` versus `_valid`, and inner field objects shared between a class and its subclass.
* Error messages are represented by the message template's key; `Model/Messages.v` (C85) maps a key and a value to the text.

Not modelled: Python 2 branches, the random number generator behind mock values (a parameter), `__repr__`/`__str__`, the
bson package (a parameter).

## Plan per property

| id | modelled | proof |
|----|----------|-------|
| C01, C02, C03, C04, C05, C07, C08 | `import_loop` over any field converter | characterise the loop by a per-field outcome; induction over the field list |
| C06 | `check_required`, converters | case analysis, lifted through the loop |
| C09, C10 | `Model.import_data` | from C04 plus chain-map lemmas; lazy case refuted |
| C11, C12, C13 | `Model.validate`, `validate` | state transition lemma, induction for repetition |
| C14 | `_validate_model` | induction over fields; relation describing the sequence of calls |
| C15, C16, C17 | `export_loop`, `get_export_level` | characterisation of the loop; non-interference as corollary |
| C18 | import after export | induction on fuel over nested values |
| C19, C49 | `FieldDescriptor`, `ModelDict` | chain-map lemmas; delete after validate refuted |
| C20, C21 | mapping methods, `__eq__` | direct; symmetry refuted |
| C22, C23, C24 | `ListType`, `DictType` | induction over elements; key collision refuted |
| C25, C26 | `UnionType` with members of any type, `PolyModelType` | induction over members; refutations: errors of list members are final, model members cannot be exported, models inside unions are filled with outer trusted data |
| C27 | `BaseType.validate` | induction over validators |
| C28 - C32, C51, C52, C54, C55 | leaf types | per type, against declarative specs |
| C33 - C35 | date/time text | digit lemmas, civil calendar validity |
| C36 - C38, C63 - C65 | `types/net.py`: regular expressions, `valid_ip`, `valid_url`, `to_primitive`, `_mock`; `verify_exists`: see C114, IDNA encoding is a parameter | backtracking matcher returning the ordered list of matches; a calculus of consumed languages (with groups for URLs); the parts of a URL are unique, so only the order of the host alternatives matters |
| C66 | the context branching of `transforms.py` 137-151, `compound.py` 142-169 | construction of a nested value is rewritten to construction of the nested class under the branched context; witnesses for the inherited mapping and the stray key |
| C39, C40, C41 | `exceptions.py`, frozen containers; `str`, `json.dumps`, equality of infos and hashes are parameters | a relation says which messages each argument contributes, errors are built bottom up through the constructors; the dictionary hash is invariant under permutation; contract refuted outside the shapes the library builds (list versus dictionary, message versus text) |
| C42 | `Context` construction, `_setdefaults`, `_branch`, attribute assignment, the contexts of the import and export loops (`Model/Context.v`) | set/unset of each attribute before and after each operation; refutation: subscription replaces a set attribute |
| C43 | `Role`, its filter functions, `+`, `-`, set operators, equality (`Model/Role.v`) | set membership of the names after any sequence of operations; the exported keys under a role |
| C44, C45 | `ModelMeta.__new__`, `_read_options`, `Schema.append_field`, `_setup`, `__deepcopy__`, `SchemaOptions` on a heap of field objects (`Model/Meta.v`) | invariant of all programs made by calls of types and class statements; the fields of a new class against declared/inherited, order by creation, frame of the other classes; refutations: overrides in bases to the right, roles of bases to the right, parent and sibling exports change when a subclass is defined |
| C67, C68 | `TypeMeta`, `prepare_validator`, `validators` and `messages` of a field object, method resolution order (`Model/TypeClass.v`) | invariant of all programs of class statements; which, how often and in which order by induction over the class numbering; refutations: plain mixins, bound methods, messages in a diamond |
| C69, C70 | `_mock` of the simple types (`Model/LeafMock.v`), `mock`, `get_mock_object` with its set of visited classes (`Model/MockObject.v`); randomness is a state of any type | computation per type; depth by the number of classes not yet visited; refutations: multilingual texts, element choices, second field of a class, list elements, lost MockCreationError |
| C71 | `convert`, `validate`, `to_native`, `to_primitive` called as functions (`Model/Functional.v`) | simulation between dictionaries and instances by induction on fuel; exports of agreeing data are equal; instances as data are read as `dict(instance)`; refutations: computed fields, nested validators, setters, validating an instance |
| C72 | `contrib/machine.py` (`Model/Machine.v`); `__getattr__` becomes a call by name | invariant of all call sequences |
| C73 | constructors of BaseType, of compound and union types and of computed fields (`Model/Build.v`); a simple type class is its parameters and a function of them | case analysis of constructors, then conversion and export of the result |
| C74 | `find_model` and `_get_candidates` (`Model/Core.v`) over the class hierarchies of `Model/Meta.v`; claim methods are arbitrary functions | lines of inheritance (`Spec/CandidateSpec.v`) are counted by induction over the subclasses; a diamond refutes the plain claim |
| C75 | `import_string`, name references of `ModelType` and `PolyModelType`, their `_setup`, copying of fields into subclasses (`Model/ByName.v`); the import system is an arbitrary function that may change between steps | import: splitting at the last dot against the longest importable prefix; programs: invariants over all sequences of steps; witnesses for the refutations |
| C76 | the import, validation and export loops with every leaf type of the library | what a value is made of as an inductive predicate; induction on the depth-free description of exports (C15); values after construction and validation have the forms of their types (C11); case analysis of each type; witnesses for the refutations |
| C77 | `atoms` as a generator with a state, over a mapping and a filter that may change the world and raise | a consumer that interleaves requests with arbitrary changes; induction on the requests and on the remaining fields |
| C78 | the way of a context through construction, validation, import, export and the compound types, with a trace of every call of user code | a relation on traces preserved by every step, induction on the nesting; witnesses for the refutations; a model of its own (`Model/AppData.v`), simplified in everything but contexts |
| C79 | lazy texts, field errors and their cached primitive form, in programs that register, raise and read | invariants of programs by induction on the actions after raising |
| C80 | `to_native` and `to_primitive` over bson as a parameter | case analysis; the laws of bson used are hypotheses, met by a concrete instance |
| C81 | conversion and export over objects with addresses (`Model/Alias.v`): which containers are created, which are handed on | every conversion of a copying type yields addresses of the interval it allocated, each once; change of a container as seen through an object; witnesses for what is shared |
| C82 | `_mutate` with the aliasing of the raw data and the instance's stored data (`Model/Core.v`); setters are functions on instances | the run of the setters is a relation, shown equal to the loop; the loop after it on the entries that are not Undefined |
| C83 | `float()` and `Decimal()` of texts and numbers (`Model/Text.v`, `Model/Types.v`) | a grammar and nearest-value specification (`Spec/NumberSpec.v`, `Spec/FloatSpec.v`) shown equal to the scanners and the rounding; uniqueness of the nearest float |
| C84 | `ModelHelpTextMixin` on top of `atoms` (`Model/HelpText.v`); `format`, `dedent`, `fill` are parameters | the texts are characterised line by line (`Spec/HelpTextSpec.v`); what indentation does is specified character by character; the claim that example code shows the examples is refuted |
| C85 | `str.format` for positional fields and every place in the type classes that raises with a message (`Model/Messages.v`); `format(v, '')` is a parameter; fields with attributes, subscripts, conversions or formats are assumed to fail | a relation between templates and texts (`Spec/MessagesSpec.v`) is shown equivalent to formatting; the arguments of each message are given by tables of types and keys |
| C86 | `Model.__eq__` on a heap of objects with the shared set `memo` as state (`Model/Cyclic.v`); no computed fields | answer true: the relations found for the parts combine to a relation closed up to the comparisons in progress; answer false: no closed relation; termination by the number of pairs not in progress and the nesting of containers; threads: comparisons as trees of accesses to the set (`Model/Threads.v`), run under any schedule; invariant: what each thread would still get on its own |
| C87 | `_append_field` on the heap of field objects of `Meta.v` (`Model/Append.v`); Serializables cannot be added in the model | the invariant of programs holds for programs that add fields, so the theorems about class statements hold of them; export by a simulation between the two environments |
| C88 | the existing model of import, validation and export; no new code | a relational proof (simulation between two runs) through every function of the model; the library's types by cases; witnesses for the two exceptions |
| C89 | the existing model of import and validation; no new code | a relational proof between the run with the strict and the run with the lax options, by induction on the depth; unions need in addition that a member that refuses a value by a conversion error does so under both; a witness for lazily created instances |
| C90 | the existing model of validation; no new code | a relational proof between the runs with and without conversion, by induction on the depth; imported values are shown to be of that kind; two witnesses for nested models |
| C91 | `DataObject` with all its methods on a heap of objects (`Model/DataObj.v`) | per operation what is stored where afterwards and that nothing else changes; for `_to_dict` and `==` inductions on the recursion depth with sharing and cycles; refutations by witnesses |
| C92 | two class environments with the same functions as elsewhere; nothing new is modelled | `Spec/EvolveSpec.v` says what may change and when two instances hold the same data; one induction on the recursion depth relates the conversions of both programs, with the import characterisation of C01-C05 for the step through a class; refutations by witnesses |
| C93 | two class environments with the same functions as elsewhere; nothing new is modelled | `Spec/ForwardSpec.v` says what may have been added and when one instance is another without the new fields; the same induction as for C92 in the other direction, at equal recursion depth; refutations by witnesses |
| C94 | the import, validation and assignment functions as elsewhere; nothing new is modelled | `Spec/ReportSpec.v` says what the data are and which condition each piece of a program meets; induction over the recursion depth; the library's types one by one; refutations by witnesses |
| C95 | export and import as elsewhere; nothing new is modelled | the round trip of C18 composed with C92 and C93; `Spec/ExchangeSpec.v` says when two instances hold the same data; induction over the depth of the data for the way back |
| C96 | import, validation and export as elsewhere; nothing new is modelled | `Spec/TightenSpec.v` relates the two programs; induction over the nesting budget with the two runs side by side, the acceptance of the stricter one carried over step by step |
| C97 | import_data as elsewhere; nothing new is modelled | the outcome of each field (C10) depends on the instance through its own value only, because conversion does not look at the trusted data without recursive=True; case analysis on which step supplies the field |
| C98 | import, validation and export as elsewhere; nothing new is modelled. The two programs are related by a renaming of fields; polymorphic fields and computed fields are left out | a relation between values of the two programs (instances and partial data differ in the names only) is kept by every step of the import loop, of validation and of the export, by induction on the fuel |
| C99 | export, roles and levels as elsewhere; nothing new is modelled. Unions of types with parts are left out, since the exporter of the first member that accepts the value may differ | the export loop over a class keeps the relation between the two outputs; induction on the fuel |
| C100 | import, validation and the methods of instances as elsewhere; nothing new is modelled | every step of the loops keeps the property, also of what errors carry; induction on the fuel, then on the history |
| C101 | undefined.py: the class attribute _instance as seen along the class order, __new__, __init__, copying and pickling as the runtime does them | the state after loading is a fixed point of every such event; induction on the history |
| C102 | the model of import, validation, export and of instances as for C88; reordered programs as a relation between environments | each loop as a fold of rounds that commute when they write different keys; induction on the fuel for both programs at once |
| C103 | the model of import as for C01 and C18; places as paths, with what is found at a place in the input, in the result and in the tree of errors | what is stored and reported for one field as a function of what was supplied for it; induction on the place for both runs at once |
| C104 | the model of export as for C15; places as for C103, and where the exported form of a place stands | induction on the place, with what C15 says about one instance, list or dictionary at each step |
| C105 | import, validation and export as for C11 and C15; what a type must do to write all it converts | mutual induction on the form of values that import and validation produce, with a common recursion depth for all parts; the types of the library from the values they produce |
| C106 | import as for C01 and C66; the renaming is a relation on data stated without the import loop | simultaneous induction on the recursion depth for import, conversion and validation of related data; existence by induction on the data |
| C107 | `listify` and the places of the import loop that read a mapping, for the dictionary the caller gives | each agrees with the corresponding function on mappings with listed names; induction on the entries |
| C108 | the methods of Model with the lookups they make on the instance, where a field hides the method; not: lookups on nested instances and on instances given as trusted data, fields called `_data`, `_schema`, `_fields`, `_serializables` or like special methods, `get_mock_object` | each equals the operation without lookups if the names are free, and raises if one is taken; by cases |
| C109 | field objects with their attributes, the list of validators and bound methods they share with their copies; not: assignment of `validators` or `export_mapping` themselves, fields of compound types (their inner fields are shared, see C45), messages | invariant over the history: attributes, origin and list of every object are what the history says |
| C110 | field objects with their names and the input keys kept by `_setup`, class statements, assignment of names, lookup of values, strict check, output names; not: the order of fields, a class with one object under two names from which another is derived | invariants of class statements and frame lemmas over runs; connected to the import loop of C01 |
| C111 | Serializable objects at addresses, `setter`, `__deepcopy__`, `__get__` on the class, class statements, `_setup`; not: the order of fields, element types shared by copies (C109) | specification of class statements and frame lemmas over runs |
| C112 | `_append_field` of plain and computed fields on the objects of C111, the descriptor it puts on the class, reading, writing, `in`; not: exports in full | invariants over programs; the attribute functions of C19 applied to the fields as instances see them |
| C113 | instances referring to their `_data`, copying by default, the operations of C09-C12 and C19 on the data of an instance; `copy.deepcopy` on values; not: instances within instances, classes with copy methods of their own, Python 2 | invariant over histories; induction on values |
| C114 | `verify_exists`: the groups of URL_REGEX, `hostn_enc`, `urlunsplit`, `quote`; `urlopen` and IDNA are parameters; not: what `urlopen` does with the text | uniqueness of the parts of a URL; independent specification of request and percent encoding |
| C115 | Serializable `__getattr__`, `__deepcopy__`, the reads of `serialized_name` and `get_export_level` by the export loop; assignment of `type`, `fget`, `fset` not | invariant of all programs against the history of assignments; induction on the recursion depth |
| C116 | the lookups of `fields`, `export` and `convert` on nested classes and instances; fields called `_fields`, `_options`, `_data`, `_schema`, `_serializables` not | congruence of export and conversion from monotonicity in both directions; a relation 'the same or an exception' for all exports |
| C117 | the reads of `_valid_input_keys`, `_fields` and `_serializables` by construction, import, validation, assignment and membership; exports other than by `serialize` (they read `_options` first), mock objects and filters for single modules not | equality with the ordinary functions when warnings are shown; case analysis of the state otherwise |
| C46 | fuel | monotonicity by induction; four nested calls per level of nesting suffice (unions of unions excluded) |
| C47, C48, C50 | `serialize`, lazy, `import_data(validate=True)` | state transitions; refutations by witness |
| C53 | `get_range_endpoints` | arithmetic |
| C56 - C60 | equality, enumerations, failures of leaf types | per type |
| C61 | `timedelta`, `total_seconds`, float arithmetic of `SpecFloat` | error bound of correct rounding, then exactness |
| C62 | `DateTimeType.REGEX`, `from_string` | recogniser equals declarative grammar |

## Trusted base

Coq 8.16.1 kernel; the reading of the code recorded in the citations; the simplifications listed in the comments.

`Print Assumptions` stands below every theorem in `Properties/`; it prints "Closed under the global context" for all of
them: no axiom is used, neither of the standard library nor of our own. (`coqchk -o` also lists seven constants
`Coq.ssr.ssrunder.Under_rel.*`: they belong to a functor parameter of the standard library file `ssrunder.v`, loaded
with the tactic plugins; no theorem here depends on them.)

Facts of the Python runtime that are modelled rather than taken from `/repo` (marked "runtime" in the comments): dict and list
operations, `int()`, `float()`, `Decimal()` of texts, `str.format`, `re` on the patterns used, `datetime` arithmetic, `strptime`
and `strftime` for the default formats, IEEE rounding.

### Which parts of the code are modelled

| file | modelled | not modelled |
|------|----------|--------------|
| `transforms.py` | `import_loop`, `export_loop`, `get_import_context`, `get_export_context`, field converters, filters by role, the functions `convert`, `to_native`, `to_primitive` | |
| `models.py` | `Model` (construction, `import_data`, `validate`, `to_native`, `to_primitive`, mapping methods, `__eq__` also in several threads, lookups of methods by name), `ModelDict`, `FieldDescriptor`, `ModelMeta`, `_append_field` | `__repr__`, `__hash__` (instances have none) |
| `schema.py` | `Schema`, `SchemaOptions` | |
| `validate.py` | all | |
| `exceptions.py`, `datastructures.py` | `BaseError`, `ErrorMessage`, `FieldError`, `CompoundError`, `DataError`, `DataObject`, `Context`, `FrozenDict`, `FrozenList`, hashing | `__repr__`; `str`, JSON text and hash of infos are parameters |
| `role.py` | all but `__repr__` | |
| `iteration.py` | `atoms` as a generator and as used by the loops, `atom_filter` | a schema whose fields change during the iteration |
| `types/base.py` | `TypeMeta`, `BaseType` and every type class | `__repr__`, random draws (parameters) |
| `types/compound.py`, `types/union.py` | `ModelType`, `ListType`, `DictType`, `PolyModelType`, `UnionType`, models given by name | |
| `types/serializable.py` | all but `__repr__` | `__repr__` |
| `types/net.py` | all types | `urlopen` and IDNA are parameters |
| `contrib/enum_type.py` | all | |
| `contrib/machine.py` | `Machine`, `trigger`, `can`, `cannot` | printing |
| `extensions/model_help_text_mixin.py` | all | `format`, `dedent`, `fill` are parameters |
| `deprecated.py`, `compat.py` | `Model.convert`, `fields`, `_serializables`, `_valid_input_keys`, `_dict` as used by the rest | the other aliases, warnings of exports and mock objects, Python 2 support |
| `translator.py` | all | translators that fail |
| `contrib/mongo.py` | `to_native`, `to_primitive` | `auto_fill`; bson is a parameter |
| `undefined.py` | the one instance (`__new__`), equality, ordering | truth, `__setattr__`, texts |
| `util.py` | `get_all_subclasses`, `import_string`, `listify` | `setdefault`, `Constant`, the message of `ImportStringError` |
