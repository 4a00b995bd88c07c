{"id": "C01", "title": "Strict import rejects exactly the undeclared keys", "statement": "Constructing a model (or calling import_data) in strict mode reports a 'Rogue field' error under key k whenever k is a key of the input that is not an acceptable input key of any field (its name, its serialized name, one of its deserialize_from names, or a key listed for it in the mapping), so the call fails; when every key is acceptable no rogue error is reported at all. In non-strict mode an undeclared key never produces an error.", "quantifier": "every model class, every input mapping, every mapping argument, every option setting", "why_tests_cant": "Tests try a handful of key sets; the claim is about every key of every input against every schema and alias table.", "anchors": ["schematics/transforms.py:import_loop", "schematics/schema.py:Schema.valid_input_keys", "schematics/types/base.py:BaseType.get_input_keys"]}
{"id": "C02", "title": "Undeclared keys cannot influence a non-strict import", "statement": "With strict=False, two inputs that agree on every acceptable input key give the same result (same stored data, or the same errors and partial data), whatever other keys they carry and whatever those carry.", "quantifier": "every pair of inputs agreeing on the acceptable keys, every model class, every option setting other than strict", "why_tests_cant": "A non-interference statement over pairs of unbounded inputs; a test only compares two chosen inputs.", "anchors": ["schematics/transforms.py:import_loop", "schematics/iteration.py:atoms"]}
{"id": "C03", "title": "Import reports every failing field and nothing else", "statement": "When import fails with DataError, the keys of the error dictionary are exactly the serialized names of the fields whose own conversion fails, plus the undeclared keys when strict; one field's failure never hides another's. Import succeeds iff that set is empty.", "quantifier": "every model class, input, trusted data, mapping and option combination; every user supplied leaf conversion function", "why_tests_cant": "Requires all subsets of failing fields in all schemas, including user defined types.", "anchors": ["schematics/transforms.py:import_loop", "schematics/exceptions.py:DataError"]}
{"id": "C04", "title": "A successful import stores exactly the specified value for every field", "statement": "After a successful import each field holds: the converted value of the first acceptable input key present; otherwise the trusted value if one was given; otherwise the converted default; otherwise None if init_values; otherwise nothing. No key is stored that is neither a field name nor a trusted key.", "quantifier": "every model class without setters, every input, every trusted data, every option setting", "why_tests_cant": "The full case split times every schema and input is unbounded.", "anchors": ["schematics/transforms.py:import_loop", "schematics/models.py:Model.__init__"]}
{"id": "C05", "title": "Input key precedence", "statement": "The value of a field is taken from the input under the field name if present, else under the serialized name, else under the first key the mapping lists for it, else under the first deserialize_from key present; a later alternative is never used while an earlier one is present.", "quantifier": "every field, every mapping and alias list, every input", "why_tests_cant": "Tests cover single aliases; the order claim is about every alias list and every overlap of keys.", "anchors": ["schematics/types/base.py:BaseType.get_input_keys", "schematics/transforms.py:import_loop"]}
{"id": "C06", "title": "Required and partial", "statement": "A required field that receives None (or nothing, after defaults) makes a non-partial import or validation fail with an error for that field; with partial=True it never does. A required element type inside a list or dict rejects None elements even when partial=True. A field that is not required never fails because of None.", "quantifier": "every field, every value, both partial settings", "why_tests_cant": "Needs every combination of defaults, init_values, nesting and partial.", "anchors": ["schematics/types/base.py:BaseType.check_required", "schematics/transforms.py:import_converter", "schematics/transforms.py:validation_converter"]}
{"id": "C07", "title": "Trusted data survives import unchanged where no new input is given", "statement": "If the input gives no value for field f and trusted data has one, then after a successful import f holds exactly the trusted value, without conversion, without default, and without a required check.", "quantifier": "every model class, input, trusted data, option setting", "why_tests_cant": "Universally quantified over inputs and fields.", "anchors": ["schematics/transforms.py:import_loop"]}
{"id": "C08", "title": "Partial data of a failed import", "statement": "The partial_data of a DataError holds, for every field that converted successfully, exactly the value a successful import would have stored; for a failed field it holds nothing, or the field's default when defaults are applied, or the nested partial data of a nested model error.", "quantifier": "every model class, input, trusted data, option combination", "why_tests_cant": "All subsets of failing fields.", "anchors": ["schematics/transforms.py:import_loop", "schematics/exceptions.py:DataError.__init__"]}
{"id": "C09", "title": "A failed import_data leaves a model unchanged", "statement": "If import_data raises, reading any field of the model gives what it gave before (for a model that holds no lazily stored data).", "quantifier": "every model, every history that led to its state, every input", "why_tests_cant": "Atomicity has to hold at every failure point of every input.", "anchors": ["schematics/models.py:Model.import_data", "schematics/models.py:Model._convert"]}
{"id": "C10", "title": "A successful import_data changes only the supplied fields", "statement": "After a successful import_data(raw) (validate=False) on a model without lazily stored data, every field for which raw supplies no input key reads exactly as before, and every supplied field reads as the converted input.", "quantifier": "every model state reachable by any history, every input", "why_tests_cant": "Frame property over all histories and all inputs.", "anchors": ["schematics/models.py:Model.import_data", "schematics/transforms.py:import_loop"]}
{"id": "C11", "title": "Validation success commits exactly the validated data", "statement": "If validate() returns normally then every field of the model reads the value that passed its validators (None/absent excepted), and no unvalidated (converted or lazy) data is left behind.", "quantifier": "every model class, every user validator, every reachable model state", "why_tests_cant": "User validators are arbitrary functions.", "anchors": ["schematics/models.py:Model.validate", "schematics/validate.py:validate"]}
{"id": "C12", "title": "Validation failure keeps previously valid data of the failing fields", "statement": "If validate() raises DataError then every field in the reported partial data now reads the partial value, every other field that had been validated earlier reads its earlier validated value, and nothing else remains. A failing field without default and without nested partial data therefore falls back to its last valid value.", "quantifier": "every model class, every user validator, every reachable model state", "why_tests_cant": "Quantifies over histories: set, validate, set bad, validate ...", "anchors": ["schematics/models.py:Model.validate", "tests/test_invariants.py"]}
{"id": "C13", "title": "Validation is idempotent", "statement": "Validating a model that has just been validated successfully succeeds again and leaves every field reading the same value, provided the leaf conversions are idempotent and the validators accept the value they accepted before.", "quantifier": "every model class, every reachable state, every number of repetitions", "why_tests_cant": "Needs induction over nested values and repeated calls.", "anchors": ["schematics/models.py:Model.validate", "schematics/validate.py:validate"]}
{"id": "C14", "title": "Model level validators can only remove data or add errors", "statement": "A model level validator that raises causes the field's value to be removed from the validated data and its error to be recorded under the field's serialized name; a model level validator is called exactly for the fields that have one and whose field level validation produced a value, in field order, each seeing the data left by its predecessors.", "quantifier": "every set of model level validators (arbitrary functions), every data", "why_tests_cant": "Validators are arbitrary user functions that may modify the data.", "anchors": ["schematics/validate.py:_validate_model", "schematics/validate.py:validate"]}
{"id": "C15", "title": "Export writes exactly the fields the role and export level allow", "statement": "to_native/to_primitive output contains the serialized name of field f iff f is not filtered out by the role and its effective export level admits its value: DROP never; NONEMPTY not None and not an empty compound; NOT_NONE not None; DEFAULT any present value; ALL always. The value written is the exported value, or None.", "quantifier": "every model class, every instance state, every role, every export level at every position", "why_tests_cant": "Exact characterisation over all combinations.", "anchors": ["schematics/transforms.py:export_loop", "schematics/types/base.py:BaseType.get_export_level"]}
{"id": "C16", "title": "Export level precedence", "statement": "The export level in force for a field is the one passed to the export call if any, else the field's own, else the one of the model class that owns the field, else DEFAULT.", "quantifier": "every field, owner and call", "why_tests_cant": "All combinations of three optional settings with all values.", "anchors": ["schematics/types/base.py:BaseType.get_export_level"]}
{"id": "C17", "title": "A role hides the filtered fields completely", "statement": "The exported output of a model under a role does not depend on the values of the fields the role filters out: two instances that agree on the fields not filtered export to the same output.", "quantifier": "every model class without computed fields, every role, every pair of instances", "why_tests_cant": "Non-interference over pairs of instances.", "anchors": ["schematics/transforms.py:export_loop", "schematics/role.py:Role"]}
{"id": "C18", "title": "Export then import reproduces the model", "statement": "For a model whose leaf types round-trip and whose serialized names do not collide, converting the primitive (or native) export of an instance yields an instance with the same field values, at every nesting depth of lists, dicts and models.", "quantifier": "every schema built from round-tripping leaf types with list/dict/model nesting, every instance", "why_tests_cant": "Needs induction over unbounded nesting.", "anchors": ["schematics/transforms.py:export_loop", "schematics/transforms.py:import_loop", "schematics/types/compound.py"]}
{"id": "C19", "title": "Attribute assignment, reading and deletion", "statement": "On a model without lazily stored data: after m.f = v, reading m.f gives v (converted to the nested model class for a dict assigned to a model field) and every other field reads as before; after del m.f reading f raises UndefinedValueError and every other field reads as before, provided the model has not been validated.", "quantifier": "every model state, every field, every value", "why_tests_cant": "Every history of operations.", "anchors": ["schematics/models.py:FieldDescriptor", "schematics/models.py:ModelDict"]}
{"id": "C20", "title": "Mapping view coherence", "statement": "keys(), iteration, items(), values() and the in operator of a model agree: keys() lists in declaration order exactly the fields that hold a value and are not settable computed fields; items() pairs each key with the value read from the model; len(values()) = len(keys()).", "quantifier": "every model class and every model state", "why_tests_cant": "All states.", "anchors": ["schematics/models.py:Model.__iter__", "schematics/models.py:Model.keys", "schematics/models.py:Model.__contains__"]}
{"id": "C21", "title": "Model equality is reflexive, but not symmetric", "statement": "A model compares equal to itself; m1 == m2 and m2 == m1 agree when both hold values for the same fields. (Without that proviso equality is not symmetric: m1 == m2 may hold while m2 == m1 does not.)", "quantifier": "every model class, every pair of states", "why_tests_cant": "All pairs.", "anchors": ["schematics/models.py:Model.__eq__"]}
{"id": "C22", "title": "List conversion is element-wise with complete error reporting", "statement": "Converting a value for a ListType field succeeds iff every element converts, the result has the same length and order, and otherwise the error maps exactly the indices of the failing elements.", "quantifier": "every element type (including user defined ones), every list", "why_tests_cant": "Every length and every subset of failing positions.", "anchors": ["schematics/types/compound.py:ListType._convert", "schematics/types/compound.py:ListType._coerce"]}
{"id": "C23", "title": "Dict conversion keeps every entry", "statement": "Converting a mapping for a DictType field succeeds iff every value (and key) converts; when the coerced keys are distinct, the result holds each coerced key with its converted value, and nothing else; errors list exactly the failing keys. (When two keys coerce to the same key one entry is lost.)", "quantifier": "every value type, key coercion, mapping", "why_tests_cant": "All key sets.", "anchors": ["schematics/types/compound.py:DictType._convert"]}
{"id": "C24", "title": "List size bounds", "statement": "A ListType value passes validation iff its length is within min_size and max_size (each ignored when not given), and the field-level element validation passes.", "quantifier": "all sizes and bounds", "why_tests_cant": "Unbounded sizes.", "anchors": ["schematics/types/compound.py:ListType.check_length"]}
{"id": "C25", "title": "Union conversion takes the first member type that accepts", "statement": "UnionType conversion returns the conversion of the first declared member type that does not reject the value with ConversionError, and fails with ConversionError iff all of them do. Members may be any type, compound ones included; an error inside a list member (CompoundError) is final. (Refuted: a union accepts what any one of its members accepts; an imported union can always be exported: a ModelType member reached on export raises AttributeError.)", "quantifier": "every list of member types, every value", "why_tests_cant": "Member types are arbitrary.", "anchors": ["schematics/types/union.py:UnionType"]}
{"id": "C26", "title": "Polymorphic model resolution", "statement": "PolyModelType never produces an instance of a class outside the allowed ones: the class of the resulting instance is one of the declared classes or (when a single class was given) a subclass of it; ambiguity and no match are reported as errors.", "quantifier": "every class hierarchy, every claim function, every input", "why_tests_cant": "Claim methods are arbitrary.", "anchors": ["schematics/types/compound.py:PolyModelType"]}
{"id": "C27", "title": "Field validators: all run, stop on StopValidation", "statement": "Validating a field runs its validators in order on the converted value; the error collects the messages of all validators that fail, up to and including the first that raises StopValidationError; it succeeds iff none fails.", "quantifier": "every list of validators (arbitrary functions), every value", "why_tests_cant": "Arbitrary user functions and list lengths.", "anchors": ["schematics/types/base.py:BaseType.validate"]}
{"id": "C28", "title": "Leaf conversion is idempotent", "statement": "For every built-in leaf type, converting an already converted value returns it unchanged.", "quantifier": "every leaf type with every parameter setting, every input value", "why_tests_cant": "All inputs of every type.", "anchors": ["schematics/types/base.py", "schematics/types/net.py"]}
{"id": "C29", "title": "Integer conversion and text round trip", "statement": "IntType accepts every integer unchanged and converts the decimal text of any integer back to it; a text is accepted iff it is an integer literal; a float or Decimal is accepted iff it is integral (never in strict mode), so that the numeric value is never changed.", "quantifier": "every integer, every text", "why_tests_cant": "Unbounded integers.", "anchors": ["schematics/types/base.py:NumberType.to_native"]}
{"id": "C30", "title": "Number range validation", "statement": "IntType/FloatType/DecimalType range validation accepts a value iff min_value <= value <= max_value (each ignored when not given; NaN passes any range).", "quantifier": "all bounds and values", "why_tests_cant": "All values at and around boundaries.", "anchors": ["schematics/types/base.py:NumberType.validate_range"]}
{"id": "C31", "title": "Boolean conversion", "statement": "BooleanType converts exactly the documented true/false spellings, 0/1 and booleans, to the documented truth value and rejects every other value.", "quantifier": "every value", "why_tests_cant": "All values.", "anchors": ["schematics/types/base.py:BooleanType.to_native"]}
{"id": "C32", "title": "String length validation", "statement": "StringType length validation accepts exactly the strings with min_length <= len <= max_length (each ignored when None); a regex restricts exactly to matching strings.", "quantifier": "all strings and bounds", "why_tests_cant": "Unbounded strings.", "anchors": ["schematics/types/base.py:StringType.validate_length"]}
{"id": "C33", "title": "Datetime text round trip", "statement": "Parsing the default text form of a datetime gives the same datetime (same date, time, microseconds and offset) back, for naive datetimes and those with whole minute offsets; formatting is injective on them. A date assigned to such a field is exported as midnight without a zone.", "quantifier": "every datetime with a four digit year", "why_tests_cant": "3*10^17 datetimes times offsets.", "anchors": ["schematics/types/base.py:DateTimeType.from_string", "schematics/types/base.py:DateTimeType.to_primitive"]}
{"id": "C34", "title": "Timezone policy is enforced", "statement": "With tzd='require' conversion never yields a naive datetime, with tzd='reject' text with offset is never accepted, with tzd='utc' a datetime without zone is taken as UTC and no result is naive unless drop_tzinfo is set, with convert_tz every result denotes the same instant in UTC, without it the clock reading and the offset are kept; every result passes the type's own validation, which lets pass exactly the datetimes that conversion would leave as they are. Which datetimes are accepted is stated exactly.", "quantifier": "every input text/datetime, every policy setting", "why_tests_cant": "All texts and all offset values.", "anchors": ["schematics/types/base.py:DateTimeType.to_native", "schematics/types/base.py:DateTimeType.validate_tz"]}
{"id": "C35", "title": "Date round trip", "statement": "DateType parses the default text form of any date back to that date (where strftime does not pad years to four digits, exactly the dates before the year 1000 are not read back). Dates are kept, datetimes are cut down to their date; with formats given the first one that fits decides, and if none does conversion fails.", "quantifier": "every date with a four digit year", "why_tests_cant": "All dates.", "anchors": ["schematics/types/base.py:DateType"]}
{"id": "C36", "title": "IPv4 validation", "statement": "IPv4Type accepts a text iff it consists of four dot separated decimal octets 0..255 of one to three digits (optionally followed by one final newline).", "quantifier": "every text", "why_tests_cant": "Infinite language.", "anchors": ["schematics/types/net.py:IPV4_OCTET", "schematics/types/net.py:IPv4Type"]}
{"id": "C37", "title": "IPAddress validation", "statement": "IPv6Type accepts exactly the IPv6 text forms (eight groups of one to four hex digits, one :: for a run of groups, the last two possibly as IPv4); IPAddressType accepts every IPv4 and every IPv6 text form; it is expected to accept nothing else (it does: any text that begins with an IPv4 address is accepted).", "quantifier": "every text", "why_tests_cant": "Infinite language.", "anchors": ["schematics/types/net.py:IPAddressType"]}
{"id": "C38", "title": "MAC address normalisation", "statement": "to_primitive of a valid MAC address depends only on its twelve hex digits and yields six pairs separated by colons, which are accepted again; normalisation is idempotent. The accepted texts are the three notations (twelve digits may be followed by anything, which is then exported wrongly).", "quantifier": "every text", "why_tests_cant": "Infinite language.", "anchors": ["schematics/types/net.py:MACAddressType"]}
{"id": "C39", "title": "Error containers are immutable and flatten completely", "statement": "The to_primitive form of a DataError contains, at every path, exactly the messages raised for that path; nested compound errors are embedded as nested dictionaries. Compound errors are made from dictionaries only.", "quantifier": "every tree of errors", "why_tests_cant": "Unbounded trees.", "anchors": ["schematics/exceptions.py:BaseError", "schematics/exceptions.py:CompoundError"]}
{"id": "C40", "title": "Frozen containers respect the hash/equality contract", "statement": "Error objects of the shapes the library builds that compare equal have the same hash, or neither has one. (Refuted for frozen containers in general: a FrozenList equals the FrozenDict with the same elements under 0, 1, ..., but their hashes differ.)", "quantifier": "all pairs of error objects, of any nesting; all hash functions of the values in them that respect equality", "why_tests_cant": "The contract is about all pairs of equal objects; sets and dictionaries silently misbehave when one pair breaks it.", "anchors": ["schematics/datastructures.py:FrozenDict", "schematics/datastructures.py:FrozenList"]}
{"id": "C41", "title": "Error messages respect equality/hash", "statement": "An ErrorMessage equals a text exactly if the text is its summary, on either side; `text in error` holds exactly if one of the messages given to the error has this summary; equal messages have equal hashes; lists, tuples and dictionaries of errors, frozen or not, are equal exactly if their parts are, and comparing them raises nothing unless comparing parts does. (Refuted: a message and its text are equal but have different hashes; equality through a text is not transitive; comparing a frozen list with a message depends on the side; comparing a frozen list with a dictionary of the same size raises KeyError.)", "quantifier": "all messages, texts and nested containers of errors", "why_tests_cant": "Equality and hashing are relations on all pairs of nested objects; tests compare a few.", "anchors": ["schematics/exceptions.py:ErrorMessage"]}
{"id": "C42", "title": "Import/export contexts: branching and defaults", "statement": "A branched context differs from its parent exactly in the given non-None attributes, is the parent itself when nothing differs, and filling defaults never overwrites an attribute that is set.", "quantifier": "every context and every set of overrides", "why_tests_cant": "All attribute subsets.", "anchors": ["schematics/datastructures.py:Context"]}
{"id": "C43", "title": "Role algebra", "statement": "Adding and subtracting field names from a whitelist/blacklist role yields the role that filters exactly according to the set union/difference, and the filter is pure set membership.", "quantifier": "every role, every set of names, every field name", "why_tests_cant": "All sets.", "anchors": ["schematics/role.py:Role"]}
{"id": "C44", "title": "Declared fields are inherited in order and overridden in place of their creation position", "statement": "A model class has exactly its own fields and those of its bases; an own declaration overrides an inherited one; fields are in the order in which they were created. Validators are inherited likewise. The export level is the own option if given (serialize_when_none wins), else that of the leftmost base; roles are the own ones, else those of the leftmost base. Attributes that are neither fields nor validators do not matter; issubclass and the list of all subclasses agree with the declarations. (Refuted: of bases C and B with a common base A, a field that B overrides and C merely inherits is that of A when C comes first; roles of other bases than the leftmost are not inherited.)", "quantifier": "every program of class statements: every hierarchy, set of attributes and options", "why_tests_cant": "Hierarchies with several bases combine in unboundedly many ways; tests have a few.", "anchors": ["schematics/models.py:ModelMeta.__new__"]}
{"id": "C45", "title": "Subclass definition does not affect the parent", "statement": "Defining a class leaves every other class its fields, in order, with their options, getters and setters, and its validators, roles and export level; only the element types of inherited list and dict fields may come to belong to the new class. If the new class inherits no such field nothing changes at all. (Refuted otherwise: defining a subclass with another export level changes what instances of the parent, and of other subclasses, export.)", "quantifier": "every program of class statements and every class defined before", "why_tests_cant": "The interference shows only for particular combinations of inheritance, element types and export levels.", "anchors": ["schematics/models.py:ModelMeta.__new__", "schematics/types/base.py:BaseType._setup"]}
{"id": "C46", "title": "Conversion terminates with bounded depth on non-recursive input", "statement": "The recursion depth of an import is bounded by the nesting depth of the input and the schema; with enough stack the result does not depend on the stack limit.", "quantifier": "every schema with acyclic defaults, every input", "why_tests_cant": "All depths.", "anchors": ["schematics/transforms.py:import_loop", "schematics/types/compound.py"]}
{"id": "C47", "title": "serialize() returns only validated data and keeps the model", "statement": "When serialize() succeeds it has exported the state validate() leaves: all data validated, or after a failed validation the validated and the partial data; every value that was readable before is read unchanged afterwards. (Refuted: that it leaves the state unchanged: a field without value reads its default afterwards, and if the export fails, converted data are lost.)", "quantifier": "every model class, every state, every export context", "why_tests_cant": "Depends on the whole history of the model and on every way validation and export can fail.", "anchors": ["schematics/models.py:Model.serialize"]}
{"id": "C48", "title": "Lazy models read back the raw value until validated", "statement": "A lazy model reads every field supplied under its own name as the raw input; after a successful validate() each supplied field reads the validated conversion of its input. (Refuted: a value supplied under an alternative name cannot be read before validation; after an assignment the value read before validation is not the one that is validated.)", "quantifier": "every model class, input and mapping", "why_tests_cant": "Covers all inputs and all ways to supply a field; tests read one field of one input.", "anchors": ["schematics/models.py:Model.__init__", "schematics/models.py:ModelDict"]}
{"id": "C49", "title": "Delete after validation", "statement": "After a successful validate(), del m.f never removes the value: it is still read afterwards; without trusted data the deletion raises KeyError. (So it is refuted that del makes the field unreadable; with trusted data the deletion is even silently without effect.)", "quantifier": "every model class, every validated state, every field with a value", "why_tests_cant": "Depends on the history of the model: which layer holds the value.", "anchors": ["schematics/models.py:ModelDict.__delitem__"]}
{"id": "C50", "title": "import_data(validate=True) stores the supplied values", "statement": "After import_data(raw, validate=True) succeeds, a field reads the validated conversion of the value found in raw over which the values of the instance have been laid: a field that had a value keeps it, whatever raw supplies, and a field without one takes the supplied value. (So it is refuted that each supplied field reads the supplied value.)", "quantifier": "every model class with plain fields, every state, input and mapping", "why_tests_cant": "Depends on which fields already have values; the tests of import_data use empty instances or no validation.", "anchors": ["schematics/models.py:Model.import_data", "schematics/transforms.py:_mutate"]}
{"id": "C51", "title": "UUID text round trip", "statement": "UUIDType converts the text form of a UUID back to the same UUID. A text is read exactly if, without urn:, uuid:, outer braces and hyphens, 32 characters are left that int(text, 16) reads; so all usual forms are read, in upper or lower case, but also 30 digits after 0x. Other values than texts and UUIDs are refused, with a conversion error if they are None or have a method replace (bytes, dates), otherwise with AttributeError.", "quantifier": "all 2^128 UUIDs, all texts, all values", "why_tests_cant": "2^128 values and all texts.", "anchors": ["schematics/types/base.py:UUIDType"]}
{"id": "C52", "title": "Hash types accept exactly hex digests", "statement": "MD5Type/SHA1Type should accept exactly texts of the digest length made of hexadecimal digits (they also accept signs, underscores, 0x prefix and surrounding blanks).", "quantifier": "all texts", "why_tests_cant": "Infinite language.", "anchors": ["schematics/types/base.py:HashType"]}
{"id": "C53", "title": "Mock values respect the declared size limits", "statement": "Every size the mock generators may draw is within the declared limits, and generation succeeds iff some size within them is possible (always when there is no upper limit and the padding is short); mock texts, filled templates, integers and lists pass the size and range validation of their own field. (Refuted: a range of negative numbers is refused although it has elements.)", "quantifier": "all bounds, paddings and outcomes of the random draws", "why_tests_cant": "Tests see a few draws for a few bounds.", "anchors": ["schematics/types/base.py:get_range_endpoints"]}
{"id": "C54", "title": "GeoPoint conversion accepts exactly pairs in range", "statement": "GeoPointType accepts exactly two-element lists/tuples/dicts of numbers whose latitude lies in [-90,90] and longitude in [-180,180] (and NaN, which it should not).", "quantifier": "all values", "why_tests_cant": "All values.", "anchors": ["schematics/types/base.py:GeoPointType"]}
{"id": "C55", "title": "Multilingual string export picks the first available locale", "statement": "MultilingualStringType exports the text of the first requested locale available, falling back to the default locale, and reports that none is requested or available exactly when that is so. If the value found is neither text nor castable to it, the export fails without looking further: with a conversion error, or with a ValueError for undecodable data.", "quantifier": "all locale lists and contents", "why_tests_cant": "All lists.", "anchors": ["schematics/types/base.py:MultilingualStringType.to_primitive"]}
{"id": "C56", "title": "Choices accept exactly the listed values", "statement": "A field with choices accepts a value iff it compares equal (==, so 1, 1.0 and True are the same) to one of the choices, and reports the choices message otherwise; without choices nothing is rejected.", "quantifier": "all choice lists and values, including nested containers and model instances", "why_tests_cant": "Equality across numeric types and containers is an infinite relation.", "anchors": ["schematics/types/base.py:BaseType.validate_choices"]}
{"id": "C57", "title": "StringType reads UTF-8", "statement": "StringType converts the UTF-8 encoding of any text (as bytes) to that text, keeps text, writes integers in decimal, and rejects every other value: in particular bytes that are not the encoding of a text (overlong forms, surrogates, truncated sequences).", "quantifier": "all texts, all byte sequences, all values", "why_tests_cant": "The set of byte sequences is infinite.", "anchors": ["schematics/types/base.py:StringType.to_native"]}
{"id": "C58", "title": "Decimal text round trip", "statement": "DecimalType exports a finite Decimal as text that converts back to the same Decimal: sign, digits and exponent (so trailing zeros and scale are kept); integers convert exactly.", "quantifier": "all coefficients and exponents", "why_tests_cant": "Infinitely many values; scientific and plain notation are mixed.", "anchors": ["schematics/types/base.py:DecimalType"]}
{"id": "C59", "title": "Enumerations", "statement": "EnumType accepts exactly members, names (aliases denote their member) and, with use_values, values; exporting and converting back gives the same member. With use_values the last claim needs that no value is the name of another member.", "quantifier": "all enumeration classes with text or integer values, all values", "why_tests_cant": "All classes; the failing case needs a value that is another member's name.", "anchors": ["schematics/contrib/enum_type.py:EnumType"]}
{"id": "C60", "title": "Conversion failures are conversion errors", "statement": "When the conversion of a basic, date or time type fails it raises a ConversionError or ValidationError, so that the failure is reported for the field (exceptions: infinity for IntType and huge integers for FloatType raise OverflowError, a non-text for UUIDType raises AttributeError; infinite or huge timestamps and durations, offsets of a day or more with convert_tz, instants outside the years 1..9999 and bytes escape from the date and time types). Exporting a value of another type from a date, time or duration field raises AttributeError.", "quantifier": "all values and all basic types", "why_tests_cant": "All values.", "anchors": ["schematics/types/base.py:NumberType.to_native", "schematics/types/base.py:UUIDType.to_native"]}
{"id": "C61", "title": "Timestamps and durations survive export and import", "statement": "TimestampType exports a datetime as a number that is imported as the same datetime to the microsecond, for all datetimes within 2^33 seconds of 1970 and for all datetimes of whole seconds; a datetime with another offset is exported as the timestamp of its instant; TimedeltaType does so for every whole number of its unit if that is seconds or longer (with milliseconds and microseconds it is wrong: 43 ms is exported as 42). A number of microseconds is imported as the nearest whole number, of two as the even one.", "quantifier": "all datetimes, all durations", "why_tests_cant": "About 3*10^17 datetimes; correctness of the rounding of binary64 division and multiplication cannot be sampled.", "anchors": ["schematics/types/base.py:TimestampType.to_primitive", "schematics/types/base.py:DateTimeType.from_timestamp", "schematics/types/base.py:TimedeltaType"]}
{"id": "C62", "title": "Texts accepted as datetimes", "statement": "DateTimeType's built-in parser accepts exactly the texts YYYY-MM-DD(T or blank)hh:mm[:ss[.f or ,f]][zone] that denote an existing date and time, with zone Z, +hh, +hhmm or +hh:mm, and reads them as that date, time and offset; a final newline is tolerated, digits may be any Unicode decimal digits.", "quantifier": "all texts", "why_tests_cant": "Infinite language.", "anchors": ["schematics/types/base.py:DateTimeType.REGEX", "schematics/types/base.py:DateTimeType.from_string"]}
{"id": "C63", "title": "Mock addresses are valid", "statement": "The mock values of IPv4Type, IPv6Type, IPAddressType, MACAddressType, EmailType and URLType are accepted by their own type, for every outcome of the random draws (URLs only up to 73 characters: beyond that the host label is too long), and emails and URLs respect min_length and max_length.", "quantifier": "all random draws, all length bounds", "why_tests_cant": "Tests see a few random draws.", "anchors": ["schematics/types/net.py:IPv4Type._mock", "schematics/types/net.py:IPv6Type._mock", "schematics/types/net.py:EmailType._mock", "schematics/types/net.py:URLType._mock"]}
{"id": "C64", "title": "Accepted email addresses", "statement": "EmailType accepts exactly local@domain with local a dot-atom or a quoted text, domain at least two labels of 1 to 63 letters, digits and inner dashes, the last one of 2 to 63 letters (letters include the four non-ASCII characters equated with I, S and K when case is ignored; one final newline is tolerated). A malformed address ends the validation of the value: validators further down are not run.", "quantifier": "all texts", "why_tests_cant": "Infinite language.", "anchors": ["schematics/types/net.py:EmailType"]}
{"id": "C65", "title": "Accepted URLs", "statement": "URLType accepts exactly scheme://[user@]host[:port][/path][?query][#fragment] with scheme http or https in any case, host an IPv6 address in brackets, an IPv4 address or a host name with valid labels (fully qualified with a plausible top level domain unless fqdn=False), a port of two to five digits and no excluded characters (one final newline is tolerated; backslashes are accepted although the pattern means to exclude them). A malformed URL ends the validation of the value: validators further down are not run.", "quantifier": "all texts, both values of fqdn, every IDNA encoding without newlines; without verify_exists", "why_tests_cant": "Infinite language; the outcome depends on which alternative of the pattern matches first.", "anchors": ["schematics/types/net.py:URLType.valid_url", "schematics/types/net.py:URLType.validate_"]}
{"id": "C66", "title": "Nested models are handled like models on their own", "statement": "A dictionary given for a ModelType field is stored as the instance the nested class would make of it by itself with the same options and the mapping listed under model_mapping; if the nested class rejects it, the outer construction fails and reports the nested errors under the field's name; likewise for each element of a list of models; import_data(recursive=True) does to a nested instance what import_data on that instance would do. (Refuted: a nested model not listed in a non-empty model_mapping gets the outer mapping; a model inside a union is filled with the outer trusted data, because a union does not count as compound; recursive import stores a stray key in a new nested instance.)", "quantifier": "all classes, inputs, mappings, options and nesting depths", "why_tests_cant": "Tests nest a few fixed classes with a few fixed mappings.", "anchors": ["schematics/transforms.py:import_loop", "schematics/types/compound.py:ModelType._convert", "schematics/models.py:Model.__init__"]}
{"id": "C67", "title": "Validators of a type class", "statement": "A type runs the validate_... methods defined by its class and by the type classes among its ancestors, each once: those of the last base first and its own last, in the order written; with a single base, the base's in the base's order and then the new ones. A method the class defines itself replaces the inherited one in the same place. Validators given to the field run after them. Validators may be written with or without the context parameter and get exactly the arguments they declare. (Refuted: validators of a mixin that is not a type are not collected, and its overrides must take the context; a bound method without context parameter given as validator always fails with TypeError; a validator without context parameter that is taken from a class or field and used again in another fails on every value.)", "quantifier": "all programs of class statements (any number of bases), all validators, values and contexts", "why_tests_cant": "Tests have a few fixed class hierarchies; the claim is about every hierarchy a program can define.", "anchors": ["schematics/types/base.py:TypeMeta.__new__", "schematics/types/base.py:BaseType.__init__", "schematics/validate.py:prepare_validator"]}
{"id": "C68", "title": "Messages of a type class", "statement": "The message used for a key is the one given to the field, else the one in the MESSAGES of its class, else that of the leftmost base that has one; a key known to a type class is known to all type classes derived from it; defining a class changes neither messages nor validators of any class defined before. (Refuted: with a common base of two bases the message is not that of the first class in method resolution order that defines one.)", "quantifier": "all programs of class statements, all keys and message dictionaries", "why_tests_cant": "Tests have a few fixed class hierarchies.", "anchors": ["schematics/types/base.py:TypeMeta.__new__", "schematics/types/base.py:BaseType.__init__"]}
{"id": "C69", "title": "Mock values are accepted by their own type", "statement": "The mock value of a UUID, hash, boolean, date, datetime (under every time zone policy), timedelta, geo point, float or decimal type is accepted unchanged by the same type and passes its validators, whatever the random choices. (Refuted: a mock of a multilingual text is always refused by its own type; mocked lists ignore the choices of their element type.)", "quantifier": "all random choices, all options of the types (integer limits for numbers)", "why_tests_cant": "Tests draw a few random values; a rare draw or an untested combination of options can fail.", "anchors": ["schematics/types/base.py:DateTimeType._mock", "schematics/types/base.py:HashType._mock", "schematics/types/base.py:GeoPointType._mock", "schematics/types/base.py:NumberType._mock", "schematics/types/base.py:MultilingualStringType._mock", "schematics/types/compound.py:ListType._mock"]}
{"id": "C70", "title": "Mock objects", "statement": "get_mock_object ends also for models that contain each other: nested calls never go deeper than there are classes. The object is constructed from the overrides and otherwise from defaults of optional fields, choices, or mock data of the types, with list sizes within their limits. A field without override gets a value unless it holds models of the class itself or of a class used before. (Refuted: required fields always get a value - the second field of the same model class does not; elements of a mocked list are alike; MockCreationError is reported - it becomes an AttributeError.)", "quantifier": "all sets of model classes including recursive ones, all random choices, all overrides", "why_tests_cant": "Tests mock a few fixed classes a few times; recursion and randomness make the executions infinite.", "anchors": ["schematics/models.py:Model.get_mock_object", "schematics/types/base.py:BaseType.mock", "schematics/types/compound.py:ModelType._mock", "schematics/types/compound.py:ListType._mock"]}
{"id": "C71", "title": "The functional interface agrees with the methods", "statement": "convert(schema, data) and Model(data), with the same options and data free of model instances, fail alike or hold the same data (a dictionary for each nested instance); such data are exported alike by the functions to_native and to_primitive and by the methods, if only stored fields are exported and roles select by name. convert never changes the caller's data, validate does not for schemas without settable computed fields. convert reads an instance given as data as dict(instance). (Refuted: validate can be given an instance - it raises AttributeError; computed fields are missing from the export of a dictionary; validate(schema, data) does not run the validate_x methods of nested models; a setter is given the caller's own dictionary.)", "quantifier": "all schemas, data, trusted data, options, nesting depths", "why_tests_cant": "Tests compare both interfaces on a handful of schemas; agreement is claimed of every schema and input.", "anchors": ["schematics/transforms.py:convert", "schematics/validate.py:validate", "schematics/transforms.py:to_native", "schematics/transforms.py:to_primitive"]}
{"id": "C72", "title": "The machine goes through its steps in order", "statement": "However often and in whatever order its methods are called, those that succeed are convert, validate and serialize in this order, each at most once; its state tells how far it is and its data are what those steps make of the input; a failed or impossible step leaves the state and raises the callback's error or AttributeError; can(state) is true exactly if the next step leads there. (Refuted: every step applies its callback - trigger(None) moves on without converting or validating.)", "quantifier": "all sequences of calls, all transition tables, callbacks, schemas and inputs", "why_tests_cant": "Sequences of calls are unbounded; tests follow the intended one.", "anchors": ["schematics/contrib/machine.py:Machine"]}
{"id": "C73", "title": "Options of types that contain types", "statement": "ListType(SomeType, ...) and DictType(SomeType, ...) use the options every type has for themselves and for the elements: a required list refuses None elements even in partial data, with serialize_when_none=False None elements are not exported, validators run for the list and for each element. Options only the element class knows are refused. A type instance given for the elements keeps its own options. A union hands to its member classes the options they know and ignores unknown ones. A serializable over a type instance keeps the options it does not override. (Refuted: choices given to a list restrict its elements - the list itself must equal one of them; validators of a union of instances run; a computed field keeps the export level of the type instance, or runs its validators besides those given; deserialize_from given with a type instance means what it means with a class - a text is taken for its characters.)", "quantifier": "all types of element classes, all keyword arguments, all nestings, all values converted or exported later", "why_tests_cant": "Tests construct a few types with a few options; what an option means for elements is visible only in later conversions of arbitrary data.", "anchors": ["schematics/types/base.py:BaseType.__init__", "schematics/types/compound.py:CompoundType._init_field", "schematics/types/compound.py:ListType.__init__", "schematics/types/compound.py:DictType.__init__", "schematics/types/union.py:UnionType.__init__", "schematics/types/serializable.py:serializable"]}
{"id": "C74", "title": "Which class a polymorphic field of a class family chooses", "statement": "PolyModelType(Base) considers Base and every class derived from it, also classes defined after the field, each as often as there are lines of inheritance from Base to it. If exactly one class that is considered once claims the data, its instance is made; if two claim them, the input is refused as ambiguous; if nobody claims them, the first class without a claim method is taken. (Refuted: the only class that claims the data is chosen - if it inherits from Base on two ways it is found twice and the input is refused as ambiguous; also if a class is listed together with its base and subclasses are allowed.)", "quantifier": "all class hierarchies including multiple inheritance, all claim methods, all data", "why_tests_cant": "Tests have one or two small trees of classes; class hierarchies are unbounded and grow after the field was defined.", "anchors": ["schematics/types/compound.py:PolyModelType.find_model", "schematics/types/compound.py:PolyModelType._get_candidates", "schematics/util.py:get_all_subclasses"]}
{"id": "C75", "title": "Models given by name", "statement": "A model class may be given by name. A name with dots or a colon means the longest importable part and attributes of it; errors raised by a module are raised, a missing module or attribute is an ImportError. In a class statement a field (also inside lists and dictionaries) that has the name of the class refers to the class afterwards; other names wait until the field is used, are imported then, and once a reference is a class it never changes. A derived class refers to what its base refers to; a mixin that names a class derived from it later is not changed by it. A class statement fails exactly if a PolyModelType names another class. (Refuted: lists of a mixin - the second class of the name gets the first one in its lists; unions - a member naming the own class is never resolved; after a failed class statement lists can refer to the class that was never finished.)", "quantifier": "all programs of type calls, class statements (also failing ones) and uses, all import systems changing over time", "why_tests_cant": "Tests define a few classes in a fixed order; sharing of field objects shows only in particular sequences of definitions.", "anchors": ["schematics/types/compound.py:ModelType.model_class", "schematics/types/compound.py:ModelType._setup", "schematics/types/compound.py:PolyModelType._setup", "schematics/util.py:import_string", "schematics/models.py:ModelMeta.__new__"]}
{"id": "C76", "title": "to_primitive gives plain data", "statement": "After construction or validation, to_primitive() of a model whose fields have types of the library (also nested, in lists, dictionaries, unions and computed fields that return values of their types) contains nothing but None, booleans, numbers, texts, lists, tuples and dictionaries, at every depth and under every role and export level; to_native() contains no model instances. (Refuted: a union of IntType and DecimalType writes Decimal objects; values assigned and not validated since are written as they are, also inside instances kept by a polymorphic field.)", "quantifier": "all models, inputs, nesting depths, roles and export levels", "why_tests_cant": "Tests export a few values of each type; the claim is about everything that can be stored and every combination of types.", "anchors": ["schematics/models.py:Model.to_primitive", "schematics/transforms.py:export_loop", "schematics/types/base.py:BaseType.to_primitive", "schematics/types/union.py:UnionType._export"]}
{"id": "C77", "title": "atoms are produced lazily, in field order, and filtered", "statement": "atoms(schema, mapping, keys, filter) checks its keys at the first request, not at the call, and raises TypeError there if one is not name, field or value. Otherwise each request gives the next field in declaration order for which the filter is true; the value is looked up at the moment of the request, so later changes of the mapping are seen; an Exception of the lookup gives Undefined, any other exception and every exception of the filter reaches the caller. What was not asked for is None (Undefined for the value, and the mapping is then not read). After the end or an exception there is nothing more. has_setter and not_setter are complementary, but without the key field the first rejects and the second accepts everything.", "quantifier": "all schemas, mappings, filters, key sets and programs running between requests", "why_tests_cant": "Tests read a whole list of atoms from a fixed mapping; they do not interleave requests with changes, or try every exception and key set.", "anchors": ["schematics/iteration.py:atoms", "schematics/iteration.py:atom_filter"]}
{"id": "C78", "title": "application data reach everything a call runs", "statement": "Every converter, field validator and model validator that runs during Model(...), validate(), import_data() without validation, to_native() and to_primitive(), in nested models, lists, dictionaries and unions at any depth, sees as context.app_data the app_data given to that call (an empty container if none was given), so results do not depend on what the user's code does with other data. Assigning a dictionary to a field that holds a model always uses an empty container. (Refuted: import_data(validate=True, app_data=...) validates a second time without it and may fail although validate(app_data=...) succeeds; serialize(app_data=...) validates without it and then exports the validated data with it.)", "quantifier": "all models, inputs, nesting depths, user functions and application data", "why_tests_cant": "Tests pass app_data to one validator at one depth; the claim is about every path a context takes.", "anchors": ["schematics/transforms.py:import_loop", "schematics/validate.py:validate", "schematics/models.py:Model._convert", "schematics/models.py:Model.import_data", "schematics/types/compound.py:ModelType._convert"]}
{"id": "C79", "title": "messages are translated when the exception is raised", "statement": "Registering a translator changes the texts of all exceptions raised from then on, also for types and messages defined before, and of no exception raised earlier. A message is translated before values are filled in, so the translator never sees values; texts of the user's own are not translated. A message given together with an info is an exception to this: its text follows the translator as long as its primitive form has not been asked for. The primitive form of an exception never changes once asked for.", "quantifier": "all programs that register translators, raise exceptions and read them, in any order", "why_tests_cant": "Tests register one translator before one failure; the claim is about all orders of registering, raising and reading.", "anchors": ["schematics/translator.py:LazyText", "schematics/translator.py:Translator", "schematics/exceptions.py:FieldError.__init__", "schematics/exceptions.py:BaseError.to_primitive"]}
{"id": "C80", "title": "ObjectIdType accepts what denotes an ObjectId and its text is read back", "statement": "ObjectIdType keeps ObjectId objects, converts everything whose text denotes an ObjectId, and rejects everything else with its conversion message and no other exception. Converted values are ObjectIds and are converted to themselves; the text exported for one is converted to the same ObjectId.", "quantifier": "all values and all bson packages whose ObjectId(str(o)) is o", "why_tests_cant": "Tests try a few texts; the claim covers all objects with a text and the round trip of all ids.", "anchors": ["schematics/contrib/mongo.py:ObjectIdType"]}
{"id": "C81", "title": "Instances and exports share no containers with the data they are made of", "statement": "When no field is a BaseType, GeoPointType or MultilingualStringType, nor (without validation) a polymorphic one, a new instance shares no list, dictionary or nested instance with the data it is made of, with defaults or with other instances, and contains none twice; what it holds depends on the contents of the data only. Exported data shares none with the instance. validate() keeps the instance and replaces every container it holds. The excepted types keep what they are given, mutable defaults included; polymorphic fields keep instances unless validating; assigned containers are shared.", "quantifier": "all models, nesting depths, inputs, defaults and mutations of any container", "why_tests_cant": "Tests compare values, and mutate one container after one call; the claim is about the identity of every container at every depth.", "anchors": ["schematics/types/compound.py:ListType._convert", "schematics/types/compound.py:DictType._convert", "schematics/types/compound.py:ModelType._convert", "schematics/types/compound.py:PolyModelType._convert", "schematics/types/base.py:BaseType.to_native", "schematics/transforms.py:export_loop"]}
{"id": "C82", "title": "Setters of computed fields run in order and before validation", "statement": "An import without validation stores the values given for settable computed fields. validate() runs the setters in field order, each with the converted value and on the instance as the earlier setters left it; it then validates the values the setters leave. Errors of setters are reported under public names together with all other errors, AttributeErrors are ignored, any other exception is raised. A value given for such a field under its serialized name is ignored without a word, even in strict mode.", "quantifier": "all classes, setters that change the instance in any way or raise anything, stored values, settings and converters", "why_tests_cant": "Tests run one setter that stores one value; the claim is about any sequence of arbitrary setters that read and write the same instance.", "anchors": ["schematics/transforms.py:_mutate", "schematics/transforms.py:import_loop", "schematics/types/serializable.py:Serializable.__set__", "schematics/models.py:Model.validate"]}
{"id": "C83", "title": "Float and Decimal fields read number literals", "statement": "A float field accepts a text iff it is a number literal (optional sign, digits with a point, exponent, single underscores between digits, blanks around), an infinity or a NaN in any case of letters; a number gives the nearest float, the even one of two equally near, infinity beyond the range. Bytes are read as ASCII texts. Integers give the nearest float, unchanged up to 2^53, and OverflowError beyond the range; finite Decimals give the nearest float; floats are kept; everything else is refused with a conversion error. A Decimal field accepts a text iff it is a number literal without its underscores, and stores exactly the number written; infinities and NaNs, also with digits, are accepted; all other texts are refused.", "quantifier": "all texts over any Unicode tables, all byte strings, integers, Decimals and other values", "why_tests_cant": "There are infinitely many texts and rounding depends on every digit; tests try a few literals, none of which is next to the middle of two floats.", "anchors": ["schematics/types/base.py:NumberType.to_native", "schematics/types/base.py:FloatType", "schematics/types/base.py:DecimalType.to_native"]}
{"id": "C84", "title": "Help texts describe every field", "statement": "The help text of a model with the help text mixin is its trimmed documentation followed by the lines of each field in order: its name with its label (the name if no label is given), its example if there is one, even an empty one, and its description if not empty, or a remark if there is neither. The example code lists every field once, in order, with its example as text, but without quotes, so that different examples can be written alike. The descriptions of the parameters are one wrapped line for each field, and the docstring contains the documentation, the example code with every line indented and the descriptions. A class without documentation, and a field whose type has no native type, make these calls raise.", "quantifier": "all models with distinct field names, metadata, documentation, and all ways of printing, dedenting and wrapping text", "why_tests_cant": "Tests look at one model with one field, all of whose metadata are given.", "anchors": ["schematics/extensions/model_help_text_mixin.py"]}
{"id": "C85", "title": "Error messages say what the template in force says about the value", "statement": "The text of a conversion error is the template given to the field under the key of the error, else the template of the class, formatted with the value that was given (and the number type, the enumeration class or the valid formats): doubled braces stand for braces, numbers in braces for arguments, and values are inserted without being looked into. The text of a validation error names the violated bound, the choices, the offending coordinate or the first bad locale; messages about lengths, patterns, addresses and time zones are used verbatim. The library's own messages can always be formatted, so that a failed conversion never fails to say so. Not so for custom messages: a template naming a missing argument makes import raise IndexError. DateType ignores the messages given to the field, and DateTimeType shows timestamps as floats instead of as given.", "quantifier": "all templates, messages given to a field, values, and ways of formatting values, for the basic, net, enum and ObjectId types", "why_tests_cant": "Tests compare a few messages with one value each; that custom templates and values with braces behave is not tested.", "anchors": ["schematics/types/base.py:204", "schematics/types/base.py:377", "schematics/types/base.py:487", "schematics/types/base.py:656", "schematics/types/base.py:863", "schematics/types/base.py:1062"]}
{"id": "C86", "title": "Comparing instances that refer to each other ends with the right answer", "statement": "Instances may refer to each other and to themselves, directly or inside lists, tuples and dictionaries. Comparing two of them ends, as long as no list or dictionary contains itself other than through an instance, and the answer is that they are equal iff some correspondence between the objects reachable from them is respected by all fields set on the left instance, all elements and all entries. The set of comparisons in progress, which all calls share, is afterwards as it was before, also if a comparison raises, and comparisons going on in other threads do not change the answer, whichever thread runs when: threads may take turns between any two accesses to that set, each gets the answer it would get alone, after a number of turns of its own that does not depend on the others, and when all have finished the set is as it was. Lists that contain themselves cannot be compared (RecursionError).", "quantifier": "all finite object graphs, comparisons of simple values (which may raise), threads and sets of comparisons in progress", "why_tests_cant": "Tests compare a few finite trees and one instance referring to itself; correctness of the shortcut for comparisons in progress is a statement about all graphs.", "anchors": ["schematics/models.py:408-427", "schematics/models.py:329-343"]}
{"id": "C87", "title": "A field added to a class belongs to that class and to the classes derived from it later", "statement": "Adding a field to an existing class puts it last among the class's fields (or in the place of a field of that name), set up with the options and type it was given and owned by the class. All other fields of all classes, their order, validators, roles, export levels and the hierarchy stay. Subclasses that exist already do not get the field; classes derived later do, and in them fields come in the order of creation again. Values that existed before are exported as before, unless missing values are asked for. In the class itself the order of creation is lost, and element types shared with another class change owner as when a class is defined.", "quantifier": "all programs of type calls, class statements and additions of fields; all classes, names, field objects, values, export contexts", "why_tests_cant": "The only test adds one field to a class without subclasses and creates one instance; inheritance, sharing and existing instances are not covered.", "anchors": ["schematics/models.py:346-358", "schematics/schema.py:28-30"]}
{"id": "C88", "title": "The order in which the entries of dictionaries are given does not matter", "statement": "If two inputs differ only in the order of the entries of the dictionaries in them, at any depth, then constructing an instance, import_data, assignment and validate have the same effect and the same outcome on both: the same values under the same names, or the same errors under the same names. Exporting the results gives the same data, again up to the order of entries, or fails for both. If one call ends in an exception that is not an error of the library, so does the other. This holds whenever the user's own functions (types, validators, defaults, roles, claim functions) do not look at the order; all types of the library do not. It is not true of two things: GeoPointType reads a dictionary in the order of its entries, so the same point may be valid in one order and invalid in the other, and keys that coerce_key makes equal override each other in the order given.", "quantifier": "all programs of classes whose own functions do not look at the order and which have no setters; all inputs, partners and instances related in this way, all options and contexts, any depth", "why_tests_cant": "Tests give each input in one order and compare the results with one expected value; that the order of a dictionary never leaks into values, errors or validity is a statement about pairs of runs.", "anchors": ["schematics/transforms.py:23-161", "schematics/validate.py:18-102", "schematics/types/compound.py:157-300", "schematics/types/base.py:1026-1079"]}
{"id": "C89", "title": "Allowing missing and unknown fields does not change what is accepted anyway", "statement": "partial and strict only decide what is refused. If constructing an instance, import_data or validate succeeds, then the same call with partial=True instead of partial=False, or strict=False instead of strict=True, succeeds as well and leaves exactly the same instance, however deeply models, lists, dictionaries and unions are nested. For construction with validate=True this is claimed for strict only. For validate it needs converted data in the instance: validate() converts and validates a lazily created instance, validate(partial=True) does nothing to it.", "quantifier": "all programs whose computed fields raise no errors of the library (and, with validation, have no setters), all inputs, trusted data, instances and other options, any depth", "why_tests_cant": "That two option values give the same result on every input that passes the stricter one is a statement about pairs of runs on unboundedly nested data; a union could silently pick another member under the laxer option.", "anchors": ["schematics/transforms.py:64-178", "schematics/types/base.py:335-338", "schematics/types/compound.py:150-162", "schematics/types/union.py:60-89", "schematics/models.py:221-279"]}
{"id": "C90", "title": "validate(convert=False) agrees with validate() on converted data", "statement": "If the values of an instance already have their types, at every depth of lists, dictionaries and unions, validate(convert=False) has exactly the outcome of validate(): the same errors, the same data afterwards. This is so in particular right after Model(data) for classes of basic types, lists and dictionaries. It is not so for instances that contain other instances: there validate(convert=False) ends in an AttributeError, and so does import_data(data, validate=True), although importing and then validating succeeds.", "quantifier": "all classes without setters, all instances whose data and visible values need no conversion, all other options, validators and model level validators, any depth", "why_tests_cant": "convert=False is offered as an optimisation that does not change the result; that it does not is a statement about pairs of runs on arbitrarily nested data, and the failure for nested models appears only in a combination no test tries.", "anchors": ["schematics/models.py:240-299", "schematics/types/base.py:307-333", "schematics/types/compound.py:150-162", "schematics/types/union.py:60-89", "schematics/transforms.py:181-200"]}
{"id": "C91", "title": "Data objects behave like dictionaries with attributes", "statement": "For names that do not begin with an underscore d.x and d['x'] are the same thing for reading, setting and deleting. Construction and _update take the last value given for a name and change nothing else, _setdefaults never replaces an attribute, a copy is a separate object with the same values and equals the original, and _to_dict gives new dictionaries at every depth of nested data objects without touching any object there was; it answers exactly if no data object contains itself. Two data objects are equal exactly if their attributes are, in whatever order they were set. Not so: d._update(x=1) always raises TypeError, no keyword can be called source or self, an attribute with the name of a method breaks that method also for the class itself, and _to_dict leaves data objects in lists as they are.", "quantifier": "all heaps of data objects, dictionaries and lists with any sharing and any cycles, all sources, keywords, names and values", "why_tests_cant": "The claims about copies and conversion are about identity and aliasing in arbitrarily shaped object graphs, and about all names, including those the class itself uses.", "anchors": ["schematics/datastructures.py:17-97"]}
{"id": "C92", "title": "Adding optional fields does not break existing data", "statement": "Suppose a later version of a program differs from an earlier one in that classes, at any depth of nesting, have further fields that are not required and either have no default or one their type takes as it is, under names and alternative names not in use, and that fields may be declared in another order. Then everything the earlier version accepts - data for a new instance, an instance to copy, an instance to validate, with the same options - the later version accepts too, and the instance reads the same for all the old fields at every depth; new fields hold nothing, None or their default. Not so: data that use the name of a new field while unknown fields are allowed may be rejected by the later version, and validate(partial=True), which passes over an instance without new data, is not passed over when a default of a new field is new data.", "quantifier": "all pairs of such programs, all data without instances, all instances holding the same data, all options with conversion and without mapping; classes without computed and polymorphic fields, unions of types without parts, model level validators that do not write", "why_tests_cant": "Compatibility of two versions is a statement about all data ever accepted by one of them; tests know some data and usually one version.", "anchors": ["schematics/transforms.py:56-178", "schematics/models.py:221-299", "schematics/validate.py:18-104", "schematics/types/compound.py:150-313"]}
{"id": "C93", "title": "An older version of a program reads data made for a newer one", "statement": "Suppose a later version of a program differs from an earlier one in that classes, at any depth of nesting, have further fields - required or not, with defaults and validators of any kind - and that fields may be declared in another order. Then everything the later version accepts the earlier one accepts with the same options - data for a new instance, an instance to copy, an instance to validate - provided strict is off or the data do not use keys only the later version knows; the instance reads the same for all the fields the earlier version has, at every depth, and holds nothing else. Not so: with strict=True data that use a new key are refused; and validate(partial=True), which passes over an instance without new data, converts the other values again in the later version when only new fields have new data.", "quantifier": "all pairs of such programs, all data without instances, all instances holding the same data, all options with conversion and without mapping; classes without computed and polymorphic fields, unions of types without parts, model level validators that do not write and, on old fields, do not look at the new ones", "why_tests_cant": "Compatibility of two versions is a statement about all data ever accepted by one of them; tests know some data and usually one version.", "anchors": ["schematics/transforms.py:56-178", "schematics/models.py:221-299", "schematics/validate.py:18-104", "schematics/types/compound.py:150-313"]}
{"id": "C94", "title": "Data from outside can only cause a DataError", "statement": "If the types, validators, getters and validate_<field> methods of a program, each taken by itself, raise nothing but the library's errors for data of some sort (None, atomic values of that sort, lists, mappings and instances of them at any depth), then constructing instances from a mapping, validating, and importing without validation raise nothing but DataError for such data, whatever their shape - or RecursionError, and not even that if the stack is four times as deep as the data are nested; assigning to a field may also raise ConversionError. The types for texts, integers, floats, decimals, hashes, booleans, geographic points, multilingual texts, dates, enumerations, MAC addresses and object ids, with the library's validators, keep that rule for JSON data whose numbers are finite and whose integers fit into a float; all of them but FloatType keep it for all data without infinite numbers. Not so: a top level value that is neither a mapping nor an instance is a TypeError; import_data(validate=True) on an instance with a nested instance may raise AttributeError; numbers for a UUID, infinity for an integer, huge integers for a float and texts of huge numbers for an instant raise AttributeError or OverflowError; a value that is no mapping raises TypeError in a polymorphic field when validating.", "quantifier": "all class environments, all data of the sort, all options with conversion; that UUIDType, the types for instants and durations and polymorphic fields keep the rule is not claimed", "why_tests_cant": "That no other exception escapes is a statement about all data an attacker or a careless client can send; tests send a few wrong values.", "anchors": ["schematics/transforms.py:56-178", "schematics/models.py:221-299", "schematics/models.py:389-393", "schematics/validate.py:18-104", "schematics/types/compound.py:110-420", "schematics/types/union.py:60-89", "schematics/types/base.py:246-340"]}
{"id": "C95", "title": "Two versions of a program can exchange data", "statement": "Let a later version of a program have the fields and validators of an earlier one and further optional fields. What the earlier version exports of an instance, the later version reads, and its instance holds the same data and at most defaults in the new fields; what the later version exports, the earlier one reads, up to the fields it lacks. An instance sent to the later version, exported there and sent back holds what it held, at every depth of nesting. The other way round this is not so: what the new fields hold does not survive the way through the earlier version.", "quantifier": "all pairs of programs of which one extends the other, all export settings under which values can be read back, all instances whose values can be, all import settings without validation and mapping; with strict=True only data without keys the reader does not know, with strict=False only data that do not use the names of new fields for something else", "why_tests_cant": "Whether old and new processes can run side by side depends on export, import, defaults and unknown keys together, for all instances; tests run one version.", "anchors": ["schematics/transforms.py:25-300", "schematics/models.py:221-330", "schematics/types/compound.py:110-420"]}
{"id": "C96", "title": "A stricter version of a program accepts nothing else and nothing differently", "statement": "Let a stricter version of a program make some fields required that were not, add validators or make them refuse more, and use types that refuse more but convert as before what they take. Whatever the stricter version accepts on construction, validation, import, assignment or export, the other version accepts as well, with the very same instance or data. Validators alone have no effect but on validation: without it two versions that differ only in them construct, import, assign and export alike, errors included. The exception are the member types of a union: if one of them refuses more, another may take the value and convert it differently.", "quantifier": "all pairs of programs of which one is stricter (no settable computed fields; the member types of unions are types without parts and stay), all classes, instances, inputs, settings and depths of nesting; for validators alone all pairs that differ in them", "why_tests_cant": "Tightening a schema is safe only if no combination of inputs, options and nesting is taken differently afterwards; tests compare a few inputs of one version.", "anchors": ["schematics/types/base.py:287-338", "schematics/transforms.py:25-296", "schematics/validate.py:18-104", "schematics/types/union.py:60-101", "schematics/types/compound.py:110-420", "schematics/models.py:221-330"]}
{"id": "C97", "title": "Importing data in steps", "statement": "Two import_data calls one after the other leave an instance that reads as after one call with data that supply, for each field, the later value if there is one and else the earlier; in particular with the merged dictionary if the two do not use different keys for the same field. Conversely an import can be split into calls that supply different fields, which can be made in either order (if fields that are left out do not fail: partial=True, or the instance has values for the required fields; no defaults). Importing the same data again succeeds and changes nothing. (Refuted: with different keys for one field the later key need not win in merged data; with recursive=True the steps update nested instances while merged data keep the later nested data only.)", "quantifier": "all classes of plain fields with any nesting of types in them (unions: of types without parts), all instances without raw values, all inputs, mappings and settings without validation and without recursive=True", "why_tests_cant": "That splitting or repeating an update is harmless is a statement about all pairs of inputs, aliases and defaults; tests import once.", "anchors": ["schematics/models.py:268-299", "schematics/transforms.py:64-178"]}
{"id": "C98", "title": "The name of a field in the program is private", "statement": "Fields that have a public name (serialized_name, or keys in deserialize_from) can be renamed in the program while the public names stay: data from outside that do not use the names in question give the same instances up to the names, or the same errors under the same keys, whether by construction, import_data() or validate(); reading and assigning by the new name does what it did by the old one; exports are equal at every depth, under every role that treats the field the same. So Model(data).to_primitive() does not depend on the names in the program. (Refuted for values assigned to a list of models and not validated since: they are kept as they are and exported by the names in the program.)", "quantifier": "all pairs of programs with plain fields of any nesting of models, lists, dictionaries and unions of types without parts, any validators, validate_<field> methods, roles and export levels that treat the values the same; all data from outside, all settings with conversion and without a mapping", "why_tests_cant": "That no internal name leaks through nesting, errors, defaults, validation or export is a relation between two programs for all inputs; tests run one program.", "anchors": ["schematics/models.py:221-319", "schematics/transforms.py:25-178", "schematics/transforms.py:184-276", "schematics/validate.py:14-99"]}
{"id": "C99", "title": "Roles and export levels only leave things out", "statement": "Whatever role or lower export level is asked for, the export succeeds if the full one does, and shows a part of it: entries of dictionaries and elements of lists are left out, at any depth, and everything that stays is unchanged and in the same order. So a role that admits fewer names, or a lower level, never shows a name or a value which the other does not show under that name. (Refuted for classes in which two fields have the same public name: hiding the later field shows the value of the earlier one.)", "quantifier": "all programs in which the fields of a class have different public names, with models, polymorphic models, lists, dictionaries, unions of types without parts and computed fields; all instances, also with unvalidated values; all formats, all combinations of roles, all levels", "why_tests_cant": "That hiding is monotone at every depth, through defaults of roles in nested classes and through dropped empty values, is a relation between two exports for all programs and instances; tests compare single outputs.", "anchors": ["schematics/transforms.py:184-296", "schematics/types/base.py:253-262", "schematics/types/compound.py:164-169", "schematics/types/compound.py:251-269", "schematics/types/compound.py:315-333", "schematics/role.py:86-113"]}
{"id": "C100", "title": "Nothing in an instance is invented", "statement": "Let a property of single values (numbers, texts, dates, objects...) be kept by the functions of the program: conversions of types, defaults, getters, setters, validators and claim functions. If all data given to an instance have it, at any depth, then so has everything in the instance at all times, in every layer and every nested list, dictionary and instance, whatever is done to it: construction (also lazy or with trusted data), import_data(), validate(), assignment and deletion, with any settings, including calls that fail. So has everything read from it, and the partial data of the errors. (Refuted for field names: an instance given for a list becomes the list of its field names.)", "quantifier": "all programs, all properties of single values, all classes, all histories of operations, all settings (also recursive imports and mappings), all depths", "why_tests_cant": "The claim is about all properties of values, all programs and all histories of calls, also failing ones; tests look at a few final states.", "anchors": ["schematics/transforms.py:25-200", "schematics/validate.py:14-117", "schematics/models.py:221-299", "schematics/models.py:383-403", "schematics/types/compound.py:142-162", "schematics/types/compound.py:210-232", "schematics/types/compound.py:300-313", "schematics/types/compound.py:382-433", "schematics/types/union.py:60-89"]}
{"id": "C101", "title": "There is one Undefined", "statement": "After the library is loaded there is one Undefined: calling its type without arguments gives that very object, calling it with arguments or calling a class derived from it raises TypeError and makes nothing, and copy(), deepcopy() and pickling with a protocol from 2 on give the object itself, in any order and any number of times. Calling the type without arguments gives it whatever else a program does. It cannot be ordered: <, >, <= and >= with it on either side raise TypeError, unless the object on the left knows how to compare itself with it, and so does min() of two or more objects with it among them. (Refuted: reading back a pickle written with protocol 0 or 1, the default of Python 2, makes a second object that does not equal Undefined; a derived class with _instance = None in its body can be called once.)", "quantifier": "all programs that call, derive, copy and pickle, of any length; all class hierarchies", "why_tests_cant": "The whole library tests `is Undefined`; a second object would be taken for a value. Tests call the type once or twice; the claim is about all histories.", "anchors": ["schematics/undefined.py:9-11", "schematics/undefined.py:19-20", "schematics/undefined.py:46-54", "schematics/undefined.py:60"]}
{"id": "C102", "title": "The order in which fields are declared does not matter", "statement": "Two programs whose classes have the same fields, in whatever order each class declares them, behave alike up to the order of entries: constructing an instance from the same data gives instances with the same data or raises the same errors under the same keys, at every depth, with or without validation; import_data, validate and assignment have the same effect and outcome; to_primitive and to_native both succeed, with the same data, or both fail. Asked are: public names used once per class, validators of the class that do not change the data they are given, and no model instance in the place of a list. (Refuted otherwise: an instance given for a ListType becomes the list of its field names in order of declaration; of two fields with one serialized_name the later one is exported.)", "quantifier": "all classes and permutations of their fields (also nested), all inputs, keyword arguments, export contexts", "why_tests_cant": "Reordering the lines of a class body is a refactoring everyone takes to be safe; import, validation and export are all loops over the fields in that order, with shared dictionaries of data and errors. Tests have one order.", "anchors": ["schematics/transforms.py:25-178", "schematics/transforms.py:203-299", "schematics/validate.py:18-104", "schematics/models.py:102-106", "schematics/models.py:221-309", "schematics/schema.py:12-31"]}
{"id": "C103", "title": "Parts of the data do not influence each other", "statement": "Take two inputs for a model that are the same at one place, a path of fields, list elements and dictionary entries, and arbitrary elsewhere. Constructing an instance (converting, not validating) reports the same error for that place in both cases, or none in both; when both succeed the two instances have the same value there; when one or both fail, the partial data of the error has the value the instance would have, at every place reached through models. So what is reported and kept for a part does not depend on which other mistakes the input has, on unknown keys, on lengths of lists or on order. (Refuted otherwise: a wrong list element removes the others from the partial data; an error of one field is reported as that of another when both have one serialized_name; with validation, validators of the class see all fields.)", "quantifier": "all classes with distinct public names, all places of any depth, all pairs of inputs that agree at the place, all keyword arguments of a conversion without mapping", "why_tests_cant": "A non-interference property: it is about pairs of runs, and the errors of nested models, lists and dictionaries are collected through exceptions and shared dictionaries at each level. Tests look at single inputs with one or two mistakes.", "anchors": ["schematics/transforms.py:25-173", "schematics/types/compound.py:150-162", "schematics/types/compound.py:221-232", "schematics/types/compound.py:300-313"]}
{"id": "C104", "title": "An export is made of the exports of the parts", "statement": "What stands in to_primitive() or to_native() for a part of an instance, a path of fields (found under their public names), list elements and dictionary entries of any depth, is what exporting that part on its own with the same role and level gives. When nothing is left out (no role hides anything, level above DEFAULT given in the call) there is something for every part. Two instances of a class that are the same at a place have exports that are the same at that place, or have nothing there in both, whatever they hold elsewhere. (Refuted otherwise: when a level leaves out elements of a list the other elements move; a role that looks at values lets the rest of a part decide whether it is shown.)", "quantifier": "all classes with distinct public names, all instances and pairs of instances, all places, roles and levels", "why_tests_cant": "Compositionality and non-interference of a recursive export with per-class roles and per-field levels: statements about all parts of all instances and about pairs of runs. Tests compare single exports with literal dictionaries.", "anchors": ["schematics/transforms.py:203-296", "schematics/types/compound.py:164-169", "schematics/types/compound.py:251-269", "schematics/types/compound.py:315-333", "schematics/types/compound.py:435-441"]}
{"id": "C105", "title": "What was accepted can be exported", "statement": "An instance that Model(data) or validate() has accepted can be exported with to_primitive() and to_native(), whatever the data, at every depth of nested models, lists and dictionaries, in every export level and with every known role, provided that no field is polymorphic, the types without parts write what they convert, and elements of lists and dictionaries are required or of a type that writes None. The string, number, boolean, hash, UUID, point, date, UTC datetime, timestamp, enum and MAC types of the library write what they convert. (Refuted otherwise: None in ListType(DateType) or ListType(ListType(...)) passes import and validate() and makes to_primitive() fail with AttributeError and TypeError; None in ListType(IntType) makes to_native() fail with ConversionError; DateTimeType accepts the offset +99:99, which to_primitive() cannot write.)", "quantifier": "all programs with such types, all data, all instances that were validated, all formats, levels and known roles", "why_tests_cant": "Relates all accepted inputs of recursively built types to the totality of another recursive function; the failures need values accepted by one function and not by the other.", "anchors": ["schematics/types/compound.py:221-232", "schematics/types/compound.py:251-269", "schematics/types/compound.py:315-333", "schematics/transforms.py:203-296", "schematics/transforms.py:378-391", "schematics/types/base.py:686-687", "schematics/types/base.py:919-922", "schematics/types/union.py:91-101"]}
{"id": "C106", "title": "A mapping is a renaming", "statement": "Model(data, deserialize_mapping=...) and import_data(data, mapping=...) give the same instance or the same error as the call without a mapping on renamed data: data in which, at every depth of nested models, lists and dictionaries, what the mapping makes a field find is found without it, and in which the unknown keys are the same. For all data and all mappings such renamed data exist when field names are not alternative names of other fields and there are no polymorphic fields. This includes strict checking, defaults, partial import, and construction with validate=True. (Refuted: that the entries for one field do not matter for others; as soon as model_mapping lists any field, the models in the fields it does not list are read with the names listed for the outer model, which they are not when it lists none.)", "quantifier": "all programs without computed fields, all data, all mappings and nested mappings, all keyword arguments", "why_tests_cant": "Relates two runs over recursively renamed data for all mappings; tests rename a few keys of one flat class.", "anchors": ["schematics/transforms.py:93-114", "schematics/transforms.py:121-151", "schematics/types/base.py:261-278", "schematics/datastructures.py:132-139"]}
{"id": "C107", "title": "Input keys can be given one at a time or in a list", "statement": "In deserialize_from and in the entries of a mapping, at every level of nested mappings, a text or integer, a list, a tuple and None mean the same as the list of names they stand for: a field finds the same value, strict checking knows the same keys, and nested models get the same mapping. A missing model_mapping, None and an empty dictionary mean the same. (Refuted otherwise: with mappings for nested models a field called model_mapping that the data does not contain makes the import fail with TypeError; names in a dictionary make it fail with TypeError; a bytes object is taken for a list of numbers.)", "quantifier": "all fields, all data, all mappings and all ways to write them", "why_tests_cant": "Covers every combination of spellings at every depth; tests use one spelling for one field.", "anchors": ["schematics/util.py:59-69", "schematics/types/base.py:196", "schematics/types/base.py:264-278", "schematics/transforms.py:93", "schematics/transforms.py:102-108", "schematics/transforms.py:123-127", "schematics/transforms.py:145-149"]}
{"id": "C108", "title": "Fields may have the names of methods, except the few the library calls itself", "statement": "Whatever the names of its fields, a model is constructed, filled, validated, serialized and compared in the same way, as long as no field has the name of a method that the operation looks up on the instance: _convert for construction, import_data() and validate(); also validate when validation is asked for; also validate and to_primitive for serialize(); get for ==. Fields called keys, items, values, serialize, atoms or export do no harm there. (Refuted otherwise: with a field called _convert no instance can be constructed and validate() fails and drops assigned values; with one called validate no instance can be constructed or filled with validation; with validate or to_primitive serialize() always fails; with get two different instances cannot be compared unless empty.)", "quantifier": "all classes, all data, all options, all values that cannot be called", "why_tests_cant": "Covers every set of field names; tests declare a handful of names.", "anchors": ["schematics/models.py:41-53", "schematics/models.py:102-111", "schematics/models.py:221-279", "schematics/models.py:311-319", "schematics/models.py:408-424", "schematics/compat.py:90-91"]}
{"id": "C109", "title": "Inherited fields are shallow copies that keep obeying the original", "statement": "A field that a class inherits, read as Class.field, has the attributes that the original had when the class was derived, and what is assigned to it later. It converts values and demands them by these attributes. Its built-in validators and its export go by the present attributes of the original field, and a validator appended to field.validators of one of the classes is in force in all of them and nowhere else. So an assignment to a field is noticed by no field other than itself and its copies, and an assignment to an inherited field leaves its validation and export as they were unless it changes conversion. (Refuted otherwise: an inherited field does not obey a max_length assigned to it, and changing the original's max_length changes what derived classes accept.)", "quantifier": "all histories of declaring, deriving, assigning and appending; all attributes; all type classes that contain no other type; all values", "why_tests_cant": "Covers every order of derivations and assignments and every value; tests derive once and rarely change fields afterwards.", "anchors": ["schematics/types/base.py:184-230", "schematics/types/base.py:290-343", "schematics/models.py:46-47", "schematics/models.py:87-89"]}
{"id": "C110", "title": "The input names of a field are fixed when its class is made", "statement": "After a class statement, imports and the strict check go by the names (serialized_name, deserialize_from) that the fields have at that moment; for inherited fields these are the names the base's fields have then. They stay so as long as nobody assigns names to the class's fields or uses the same field objects in another class statement; deriving classes changes nothing. A name assigned to a field later is used by exports and error reports at once and by imports with a mapping, but not by imports without one, and never by the strict check. (Refuted: after assigning a serialized_name, exported data can be imported again; a class accepts the names of its own fields even if one of its field objects is used under another name in a later class.)", "quantifier": "all programs that make fields, declare and derive classes and assign names; all data, all mappings", "why_tests_cant": "Covers every order of class statements and assignments; tests set names in declarations only.", "anchors": ["schematics/types/base.py:229-241", "schematics/types/base.py:264-278", "schematics/schema.py:24-30", "schematics/models.py:87-124", "schematics/transforms.py:101-127", "schematics/transforms.py:266-292"]}
{"id": "C111", "title": "Setters of computed fields and derived classes", "statement": "A class has the fields it declares and, for the others, those of the first base that has them, with the getter, setter and options they have at the moment of the class statement, and owned by the class. Giving a computed field a setter changes that object for every class that has it and nothing else; a setter given later does not pass from a base to a class derived before, nor from the derived class to the base. (Refuted: a class statement leaves its bases alone, when its body decorates with @Base.name.setter: the base's field is then settable as well, and takes the derived class's export level.)", "quantifier": "all programs that make fields, declare and derive classes and give computed fields setters", "why_tests_cant": "Covers every order of class statements and setters and every number of classes; tests use a setter in the class that declares the field.", "anchors": ["schematics/types/serializable.py:72-104", "schematics/models.py:87-124", "schematics/schema.py:14-30", "schematics/types/base.py:229-262"]}
{"id": "C112", "title": "Computed fields added to an existing class", "statement": "A field object added to a class with _append_field has its type and options there and is owned by the class; all other fields of all classes stay as they are. If the object is a computed field, instances of the class nevertheless read and write their stored data: neither its getter nor its setter is called. Classes derived afterwards use getter and setter. (Refuted: a derived class treats an inherited field as its base does; what is in an instance, by the operator in, can be read.)", "quantifier": "all programs that make fields, declare and derive classes, give setters and add fields; all instances and values", "why_tests_cant": "Covers all classes, field objects and orders of events; tests add plain fields only.", "anchors": ["schematics/models.py:345-358", "schematics/models.py:41-67", "schematics/schema.py:28-30", "schematics/schema.py:55-65", "schematics/types/serializable.py:72-104"]}
{"id": "C113", "title": "Copies of instances made with the copy module", "statement": "A copy of an instance made with copy.copy and its original have the same data for ever: assignment, deletion, import_data and validate on one of them take place for all copies of the same original, and for no other instance. copy.deepcopy raises TypeError for every instance and for every list, tuple or dictionary that contains one (Python 3); it copies all other values. (Refuted: there is a way to make an independent copy of an instance with the copy module.)", "quantifier": "all histories of making, copying and changing instances; all values", "why_tests_cant": "Covers every interleaving of operations on any number of copies; the tests never copy an instance.", "anchors": ["schematics/models.py:148-198", "schematics/models.py:202-279", "schematics/models.py:55-67", "schematics/datastructures.py:155-165", "schematics/datastructures.py:263-268"]}
{"id": "C114", "title": "URL fields that verify that the URL exists", "statement": "With verify_exists=True a URL field makes no request for a value that is not an acceptable URL. For an acceptable URL with a path it makes exactly one request: scheme, host and port, path, query and fragment as given (the host in its ASCII form without a final dot, an IPv6 address without brackets, always followed by a colon; empty query and fragment left out), with all bytes percent-encoded that may not stand in a URL, and without user and password, which have no influence. The value passes if the URL can be opened; URLError becomes an error of the field, other exceptions are raised by the validation. (Refuted: a URL that can be retrieved passes; a URL without a path, as http://example.com, makes the validation raise TypeError without any request. A surrogate in the URL makes it raise ValueError.)", "quantifier": "all values, all URLs, every IDNA encoding without newlines, every behaviour of urlopen", "why_tests_cant": "The only test opens a port that cannot exist on the local host; tests cannot go through all URLs and all answers of servers.", "anchors": ["schematics/types/net.py:188-192", "schematics/types/net.py:197-256"]}
{"id": "C115", "title": "Attributes of computed fields", "statement": "Reading an attribute of a computed field (for instance M.x.serialized_name) gives the value assigned to that field last, and without an assignment the present value of its type; an assignment changes no other computed field, even if it shares the type, and no type. Exports use a serialized_name assigned to the field. (Refuted: an export_level assigned to a computed field is used; exports use that of the type. Refuted: fields taken over by derived classes keep assigned attributes; they have those of the type. Refuted: copy.copy and unpickling of a computed field work; they raise RecursionError.)", "quantifier": "all programs that make types and computed fields, assign attributes and derive classes, in any order and number; all attributes that Serializable does not define itself; any recursion limit", "why_tests_cant": "Tests read a few attributes of fresh fields; the order of assignments, shared types and derivations is unbounded.", "anchors": ["schematics/types/serializable.py:71-112", "schematics/transforms.py:266-271", "schematics/types/base.py:253-262"]}
{"id": "C116", "title": "Fields of nested models called fields, export or convert", "statement": "If no class has a field called fields, export or convert, exports, conversion, validation and mock objects of nested models do not depend on lookups by name; whatever the fields are called, an instance constructs nested instances, and an export is the right one or fails. (Refuted: fields of nested models can have any name. A nested model whose class has a field called fields can be imported but not exported: AttributeError; an instance in a polymorphic field whose class has a field called export cannot be exported; with a field called convert, functional conversion and validation without conversion treat the nested data as the value of that field, so that bad data pass; a class with a field called fields has no mock objects.)", "quantifier": "all programs, values, contexts, roles and depths of nesting", "why_tests_cant": "Tests use a few field names; the effect appears only when such a class is nested and exported.", "anchors": ["schematics/types/compound.py:150-169", "schematics/types/compound.py:435-441", "schematics/iteration.py:59", "schematics/deprecated.py:65-111", "schematics/models.py:46-47", "schematics/models.py:371"]}
{"id": "C117", "title": "Deprecation warnings turned into errors", "statement": "While deprecation warnings are only shown, nothing depends on them. If they are turned into exceptions, only lazy instances can be constructed; validate() and import_data() raise the warning (classes without setters whose values can be read); plain fields cannot be assigned and the instance does not change; computed fields can be assigned; membership can be asked only of names that hold a value; partial validation with nothing to validate still does nothing; serialize() never succeeds. (Refuted: the instance keeps its values then. validate() and serialize() drop every value that was not validated before, and values given lazily are lost also by import_data().)", "quantifier": "all programs, classes, instances, data, options and converters", "why_tests_cant": "Tests run with warnings shown; whether the library itself uses what it declares deprecated, and what is lost then, depends on the state of the instance.", "anchors": ["schematics/deprecated.py:15-111", "schematics/transforms.py:99-114", "schematics/models.py:55-61", "schematics/models.py:240-299", "schematics/models.py:401-403"]}
