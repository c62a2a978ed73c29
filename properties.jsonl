{"id": "C01", "title": "Patterned-object keys stay inside the documented alphabet", "statement": "Validating a patterned object (Servers, Channels, Operations, Messages, Parameters and every map in components) succeeds iff every key is a non-empty string over ASCII letters, digits, '-' and '_' (up to one trailing newline, which Python's $ tolerates) and every value is accepted by the map's value type; any other key, and any non-string key, is rejected, and no acceptable key is rejected.", "quantifier": "every key string over all Unicode code points, every map size", "why_tests_cant": "the set of strings is infinite and the interesting ones (trailing newline, non-ASCII digits, empty) are exactly those a test author does not write", "anchors": ["asyncapi3/models/helpers.py:validate_patterned_key", "asyncapi3/models/base_models.py:PatternedRootModel.validate_patterned_keys"]}
{"id": "C02", "title": "Extendable objects accept exactly the x- extensions as unknown keys", "statement": "An object whose class may be extended is accepted only if every key that is not a declared field (by name or alias) matches ^x-[\\w\\d.\\-_]+$ in the sense of Python's re.match; in particular a key that does not begin with 'x-' is never accepted.", "quantifier": "every extendable class, every input mapping, every key string, every Unicode word-character table", "why_tests_cant": "infinitely many keys and key combinations", "anchors": ["asyncapi3/models/base_models.py:ExtendableBaseModel.validate_extensions"]}
{"id": "C03", "title": "Closed objects reject every unknown key", "statement": "For every closed class (all protocol binding objects and Reference) validation of a mapping fails whenever the mapping has a key that is neither the name nor the alias of a declared field, whatever else it contains; an accepted instance never carries extra data.", "quantifier": "every closed class in the package, every input mapping", "why_tests_cant": "about one hundred classes times infinitely many unknown keys", "anchors": ["asyncapi3/models/base_models.py:NonExtendableBaseModel", "asyncapi3/models/bindings/*.py"]}
{"id": "C04", "title": "Contact e-mail acceptance is exactly the documented shape", "statement": "A contact e-mail is accepted iff it is local@domain.tld with a non-empty local part over [A-Za-z0-9._%+-], a domain over [A-Za-z0-9.-], an alphabetic top-level label of length at least 2, and no two consecutive dots anywhere (up to one trailing newline, which Python's $ tolerates); so an accepted address has exactly one '@' and contains no white space other than that newline.", "quantifier": "every string", "why_tests_cant": "regular-expression acceptance over an infinite language with look-ahead and backtracking", "anchors": ["asyncapi3/models/helpers.py:EmailStr._validate_email"]}
{"id": "C05", "title": "Only AsyncAPI 3.x.y version strings are accepted", "statement": "The asyncapi field accepts a string iff it is digits.digits.digits with an optional -suffix over word characters, dots and hyphens and its first component denotes the number 3; every 1.x, 2.x, 4.x or malformed version is rejected.", "quantifier": "every string, every Unicode digit table", "why_tests_cant": "infinitely many strings; digits may be non-ASCII and zero-padded", "anchors": ["asyncapi3/models/asyncapi.py:AsyncAPI3.validate_asyncapi_version"]}
{"id": "C06", "title": "Channel parameters require an address with an address expression", "statement": "A Channel value with a parameters map is accepted only if its address is a string containing an address expression '{' name '}' with a non-empty brace-free name; a channel without parameters is never rejected by this rule.", "quantifier": "every address string and parameters map", "why_tests_cant": "infinitely many addresses (nested, unbalanced, empty braces)", "anchors": ["asyncapi3/models/channel.py:Channel.validate_parameters"]}
{"id": "C07", "title": "Security scheme field dependencies are enforced exactly", "statement": "A SecurityScheme is accepted iff the per-type rules hold: apiKey needs in=user|password; httpApiKey needs name and in=query|header|cookie; http needs scheme; bearerFormat only with type http and scheme 'bearer'; oauth2 needs flows; openIdConnect needs openIdConnectUrl; scopes only with oauth2 or openIdConnect.", "quantifier": "every combination of type and optional fields with arbitrary string contents", "why_tests_cant": "13 types times 2^8 field presence patterns times arbitrary strings", "anchors": ["asyncapi3/models/security.py:SecurityScheme.validate_security_scheme_dependencies"]}
{"id": "C08", "title": "OAuth flows carry the URLs their flow type requires", "statement": "An OAuthFlows object is accepted iff a present implicit flow has authorizationUrl, present password and clientCredentials flows have tokenUrl, and a present authorizationCode flow has both.", "quantifier": "every combination of the four flows and their optional URLs", "why_tests_cant": "the combinations and URL contents are not enumerable by examples", "anchors": ["asyncapi3/models/security.py:OAuthFlows.validate_oauth_flows_requirements"]}
{"id": "C09", "title": "Conditional rules of protocol bindings hold in every accepted instance", "statement": "Every accepted AMQP channel binding with is=routingKey has exchange and no queue (and dually for queue); every accepted IBM MQ channel binding never has both queue and topic and has a queue if destinationType=queue; IBM MQ messages of type string/jms have no headers; Solace destinations carry exactly the object their destinationType names; Kafka schemaRegistryVendor implies schemaRegistryUrl. Conversely, an instance that satisfies its declared field types and the rule is not rejected.", "quantifier": "every input mapping of these binding classes", "why_tests_cant": "unbounded field contents and every combination of optional fields", "anchors": ["asyncapi3/models/bindings/amqp.py", "asyncapi3/models/bindings/ibmmq.py", "asyncapi3/models/bindings/solace.py", "asyncapi3/models/bindings/kafka.py"]}
{"id": "C10", "title": "Numeric and length limits of bindings hold in every accepted instance", "statement": "In every accepted instance: Kafka partitions and replicas are positive; AMQP expiration and IBM MQ expiry are >= 0; IBM MQ heartBeatInterval is in 0..999999 and maxMsgLength in 0..104857600; an integer Solace priority is in 0..255; AMQP exchange/queue names and NATS queue have at most 255 characters, Solace clientName at most 160, IBM MQ objectName at most 48 and topic string at most 10240.", "quantifier": "every integer (unbounded) and every string", "why_tests_cant": "unbounded integers and strings; boundaries on both sides", "anchors": ["asyncapi3/models/bindings/kafka.py", "asyncapi3/models/bindings/ibmmq.py", "asyncapi3/models/bindings/amqp.py", "asyncapi3/models/bindings/solace.py", "asyncapi3/models/bindings/nats.py"]}
{"id": "C11", "title": "Message examples and correlation ids are never vacuous", "statement": "An accepted MessageExample has non-null headers or a non-null payload; an accepted CorrelationID location starts with '$message.'; nothing else about these fields is rejected by these rules.", "quantifier": "every input mapping", "why_tests_cant": "unbounded payload and string contents", "anchors": ["asyncapi3/models/message.py:MessageExample.validate_headers_or_payload", "asyncapi3/models/security.py:CorrelationID.validate_runtime_expression"]}
{"id": "C12", "title": "Patterned objects behave as insertion-ordered maps under any operation sequence", "statement": "For every sequence of item assignment, deletion, lookup, membership, len and iteration on a patterned object, each result equals that of a plain insertion-ordered dictionary with the same history; a missing key lookup or deletion raises and leaves the object unchanged.", "quantifier": "every operation sequence on every starting map", "why_tests_cant": "all histories, of any length", "anchors": ["asyncapi3/models/base_models.py:PatternedRootModel.__setitem__", "asyncapi3/models/base_models.py:PatternedRootModel.__delitem__", "asyncapi3/models/base_models.py:PatternedRootModel.__getitem__"]}
{"id": "C13", "title": "Objects stay valid however they are modified (README guarantee) - item assignment", "statement": "README: 'objects always contain valid data, regardless of how they are modified after creation'. After any sequence of item assignments on a patterned object all keys match the pattern and all values have the declared type.", "quantifier": "every operation sequence on a patterned object", "why_tests_cant": "quantifies over all histories", "anchors": ["README.md:Model Validation Behavior", "asyncapi3/models/base_models.py:PatternedRootModel.__setitem__"]}
{"id": "C14", "title": "Attribute assignment never stores a wrongly typed field", "statement": "Through any sequence of attribute assignments on a valid model instance every declared field keeps a value accepted by its declared type and field validator; an assignment whose value the field's type or field validator rejects raises and leaves the instance exactly as it was, and an assignment to an undeclared attribute of a closed class raises and leaves the instance as it was. Side condition for the first part: the assigned object is not a free-form object (Schema, MultiFormatSchema, KafkaTopicConfiguration) carrying an extra key spelled like one of its declared fields (see C48).", "quantifier": "every class, every instance, every sequence of assignments", "why_tests_cant": "all histories and all values", "anchors": ["asyncapi3/models/base_models.py:model_config(validate_assignment)"]}
{"id": "C15", "title": "A failed attribute assignment leaves the object valid (README guarantee)", "statement": "README: invalid assignment 'prevents invalid data from being stored in model instances'. After an attribute assignment that raises, the instance still satisfies its cross-field rules.", "quantifier": "every class with a cross-field rule, every instance, every assignment", "why_tests_cant": "depends on the order of mutation and after-validation for every class", "anchors": ["README.md:Model Validation Behavior", "asyncapi3/models/security.py:SecurityScheme", "asyncapi3/models/base_models.py:ExtendableBaseModel.validate_extensions"]}
{"id": "C16", "title": "Revalidating a valid instance changes nothing", "statement": "With revalidate_instances='always', passing an already validated instance wherever its type is expected (constructor argument, assignment, nested object) yields an equal instance and never fails, provided no free-form object inside it carries an extra key spelled like one of its declared fields.", "quantifier": "every type of the package and every value produced by validation", "why_tests_cant": "unbounded nesting, all classes", "anchors": ["asyncapi3/models/base_models.py:model_config(revalidate_instances)", "asyncapi3/models/schema.py:Schema.model_config"]}
{"id": "C17", "title": "Serialise-then-parse returns the same object", "statement": "For every instance obtained by validation, parsing its JSON serialisation yields an equal instance (process-only fields extra_converters/extra_validators excepted), so load/save cycles never change a document.", "quantifier": "every class, every valid instance of any depth", "why_tests_cant": "all documents of all sizes, all union alternatives", "anchors": ["asyncapi3/models/base_models.py:model_config(serialize_by_alias)", "asyncapi3/models/*.py:exclude_if"]}
{"id": "C18", "title": "Serialised output uses only specification keys and no spurious nulls", "statement": "In the serialisation of any valid instance every key of a declared field is its camelCase alias (never the snake_case Python name when they differ), every declared field that is set is present, no declared field appears with value null except Channel.address (always written) and MultiFormatSchema.schema (a required field of type Any that may be given as null), and extra_converters/extra_validators never appear.", "quantifier": "every class, every valid instance of any depth", "why_tests_cant": "all instances of about 150 classes", "anchors": ["asyncapi3/models/helpers.py:is_null", "asyncapi3/models/channel.py:Channel.address", "asyncapi3/models/asyncapi.py:AsyncAPI3.extra_validators"]}
{"id": "C19", "title": "bindingVersion is always present in serialised bindings", "statement": "README: for every binding class that declares binding_version, the serialisation of any valid instance contains bindingVersion with a string value: the given one, or the class default when it was not given.", "quantifier": "every binding class, every input mapping", "why_tests_cant": "all binding classes and all inputs", "anchors": ["README.md:Binding Version Behavior", "asyncapi3/models/bindings/*.py"]}
{"id": "C20", "title": "Extension data survives parsing and serialisation unchanged", "statement": "For every accepted mapping, each key that is not a declared field (x- extensions, arbitrary JSON Schema keywords in schemas, vendor topic configuration) appears in the serialisation with the identical JSON value and in the same relative order.", "quantifier": "every extendable or open class, every input mapping with arbitrary JSON extension values", "why_tests_cant": "arbitrary nested JSON values", "anchors": ["asyncapi3/models/base_models.py:ExtendableBaseModel", "asyncapi3/models/schema.py:Schema"]}
{"id": "C21", "title": "A $ref object is read as a Reference wherever one is allowed", "statement": "For every field whose declared type is 'object or Reference', the mapping {\"$ref\": s} validates to a Reference with that string, never to the inline object type.", "quantifier": "every such position in the class graph, every string s", "why_tests_cant": "many positions, infinitely many strings, depends on union selection", "anchors": ["asyncapi3/models/base.py:Reference", "asyncapi3/models/*.py (X | Reference unions)"]}
{"id": "C22", "title": "Reference resolution always terminates", "statement": "resolve_reference returns or raises for every document and every starting reference, including self-referential and mutually recursive references, after at most one step per Reference object of the document plus one.", "quantifier": "every document value and every reference string", "why_tests_cant": "termination over all documents, all cycle shapes", "anchors": ["asyncapi3/validators/utils.py:resolve_reference"]}
{"id": "C23", "title": "Resolution returns exactly the object the reference chain designates", "statement": "resolve_reference returns object o iff following the reference, and then each Reference found at the designated place, reaches o after finitely many steps, o is not itself a Reference, and every hop designates an existing place by field name, alias or map key; the reported path and type are those of o.", "quantifier": "every document, reference string and chain length", "why_tests_cant": "chains of any length in documents of any shape", "anchors": ["asyncapi3/validators/utils.py:resolve_reference", "asyncapi3/validators/utils.py:_resolve_path_parts"]}
{"id": "C24", "title": "Circular reference error iff the chain is circular", "statement": "resolve_reference raises 'Circular reference detected' iff the chain of references starting from the given one visits some reference string twice; otherwise it ends in an object, an external reference or a different error.", "quantifier": "every document, every reference string", "why_tests_cant": "all cycle lengths and tails", "anchors": ["asyncapi3/validators/utils.py:_initialize_visited_refs"]}
{"id": "C25", "title": "External references are tolerated, unsupported formats are not", "statement": "A reference whose string starts with http:// or https:// never causes an error, wherever it occurs; a reference string that starts with neither these nor '#' always raises; '#' followed only by slashes always raises.", "quantifier": "every reference string, every document", "why_tests_cant": "infinitely many strings", "anchors": ["asyncapi3/validators/utils.py:_is_external_reference", "asyncapi3/validators/utils.py:_parse_reference_path"]}
{"id": "C26", "title": "Reference factory methods designate the named entry", "statement": "For each of the 22 Reference.to_* factories and every name acceptable as a key, the produced reference resolves to the entry of that name in the corresponding root or components map when the entry exists and is not itself a reference, and fails to resolve when the map is absent or lacks the entry.", "quantifier": "every factory, every name, every document", "why_tests_cant": "infinitely many names and documents", "anchors": ["asyncapi3/models/base.py:Reference.to_root_server_name .. to_component_message_binding_name"]}
{"id": "C27", "title": "Reference factories are injective", "statement": "Two factory-made references are equal (and hash equal) iff they were made by factories for the same collection from the same name, for all names acceptable as keys.", "quantifier": "every pair of factories and names", "why_tests_cant": "infinitely many pairs", "anchors": ["asyncapi3/models/base.py:Reference"]}
{"id": "C28", "title": "Unified validation accepts iff every reachable Reference is acceptable", "statement": "UnifiedReferencesValidator accepts a document iff every Reference object reachable through non-excluded declared fields, lists and mappings either leads to an external reference or resolves to an object whose type is the one expected at its location; otherwise it raises, and it raises for the first offending Reference in traversal order.", "quantifier": "every document value of any size and depth", "why_tests_cant": "all documents", "anchors": ["asyncapi3/validators/unified_references_validator.py:validate_references_recursive", "asyncapi3/validators/unified_references_validator.py:validate_reference"]}
{"id": "C29", "title": "Path escaping never confuses keys with structure", "statement": "Splitting a dotted path built from arbitrary escaped segments returns exactly those segments, for every list of segment strings (dots, backslashes, empty).", "quantifier": "every list of strings", "why_tests_cant": "infinitely many segment contents", "anchors": ["asyncapi3/validators/unified_references_validator.py:_escape_path_segment", "asyncapi3/validators/unified_references_validator.py:_split_path"]}
{"id": "C30", "title": "Path patterns match exactly as documented", "statement": "A pattern matches a path iff the path can be cut so that '**' takes any number (possibly zero) of segments, '*' exactly one, a segment with '*' one segment matching the glob, and every other segment itself.", "quantifier": "every pattern and path", "why_tests_cant": "recursive matcher with backtracking over all lengths", "anchors": ["asyncapi3/validators/unified_references_validator.py:_path_matches_recursive"]}
{"id": "C31", "title": "The most specific matching pattern decides the expected type", "statement": "The expected type for a location is that of a matching table entry whose specificity (literal segments, fewer '**', fewer wildcards, more segments) is not exceeded by any other matching entry; if no entry matches, an error is raised; and the decision does not depend on the order of the table's entries.", "quantifier": "every location path; every permutation of the table", "why_tests_cant": "all paths and all table orders", "anchors": ["asyncapi3/validators/unified_references_validator.py:_get_expected_type_for_path", "asyncapi3/validators/unified_references_validator.py:_pattern_specificity"]}
{"id": "C32", "title": "Expected types agree with the object model at every location", "statement": "For every location of the class graph where a Reference may stand, the expected type used by the validator is the object type declared at that location (or prescribed by AsyncAPI for pure-reference fields), for every choice of user-chosen names along the path that do not coincide with the validator's own path keywords; so no legitimate reference is rejected for its location.", "quantifier": "every reference position of the class graph, every list index, every user-chosen key", "why_tests_cant": "hundreds of positions times infinitely many keys", "anchors": ["asyncapi3/validators/unified_references_validator.py:REFERENCE_TYPE_MAPPINGS", "asyncapi3/validators/unified_references_validator.py:_normalize_path"]}
{"id": "C33", "title": "Validation does not depend on the names users choose", "statement": "Consistently renaming user-chosen keys to other acceptable keys never changes the expected type at a location: a channel named 'messages' or 'root' is treated as a channel named 'c1'.", "quantifier": "every acceptable key at every position", "why_tests_cant": "infinitely many keys, few of them bad", "anchors": ["asyncapi3/validators/unified_references_validator.py:_normalize_path", "asyncapi3/validators/unified_references_validator.py:_get_expected_type_for_path"]}
{"id": "C34", "title": "An accepted document has no dangling or ill-typed internal reference", "statement": "If a document is successfully built with the unified validator enabled, every Reference at a declared location with ordinary keys either leads outside the document or designates, through finitely many hops, an existing object of the type declared at that location.", "quantifier": "every accepted document", "why_tests_cant": "end-to-end over all documents", "anchors": ["asyncapi3/models/asyncapi.py:AsyncAPI3.as_builder", "asyncapi3/validators/unified_references_validator.py:UnifiedReferencesValidator"]}
{"id": "C35", "title": "Tag reference validation covers exactly its documented locations", "statement": "TagsRefValidator accepts a document iff, at each of its 13 documented locations, every tag that is a reference is acceptable (external, or naming an existing components tag); references elsewhere do not influence it.", "quantifier": "every well-typed document", "why_tests_cant": "all documents, all sizes of all collections", "anchors": ["asyncapi3/validators/tags_ref_validator.py:TagsRefValidator", "docs/extra_validators/references.md"]}
{"id": "C36", "title": "An internal tag or external-docs reference is accepted iff its target exists", "statement": "An internal reference is accepted by the tag (external docs) validator iff it is '#/components/tags/' ('#/components/externalDocs/') followed by a key present in that map.", "quantifier": "every reference string, every document", "why_tests_cant": "infinitely many strings", "anchors": ["asyncapi3/validators/tags_ref_validator.py:validate_internal_tag_ref", "asyncapi3/validators/external_docs_ref_validator.py:validate_internal_external_doc_ref"]}
{"id": "C37", "title": "External-docs reference validation covers exactly the locations of its code", "statement": "ExternalDocsRefValidator accepts a document iff at each location it inspects every externalDocs reference is acceptable.", "quantifier": "every well-typed document", "why_tests_cant": "all documents", "anchors": ["asyncapi3/validators/external_docs_ref_validator.py:ExternalDocsRefValidator"]}
{"id": "C38", "title": "External-docs validation covers its documented locations", "statement": "docs/extra_validators/references.md lists the fields ExternalDocsRefValidator verifies; a dangling reference at any listed location is rejected.", "quantifier": "every document and every listed location", "why_tests_cant": "all documents", "anchors": ["docs/extra_validators/references.md", "asyncapi3/validators/external_docs_ref_validator.py"]}
{"id": "C39", "title": "Processors run in declared order, converters before validators, and stop at the first failure", "statement": "On construction every converter runs exactly once in list order on the document left by the previous one, then every validator exactly once in list order; the first that raises stops the run and makes construction fail; with no processors the document is returned as validated.", "quantifier": "every list of converters and validators with arbitrary behaviour", "why_tests_cant": "arbitrary processors and lists", "anchors": ["asyncapi3/models/asyncapi.py:AsyncAPI3.run_extra_processors"]}
{"id": "C40", "title": "as_builder yields an empty valid document with reference checking on", "statement": "as_builder with accepted metadata that carries no reference and no further arguments yields a document whose servers, channels, operations and all component maps are present and empty and whose validators are the unified one; any keyword overrides the corresponding default and nothing else; a document with a bad reference (in metadata or passed by keyword) makes it raise unless validators are overridden.", "quantifier": "every metadata and keyword combination", "why_tests_cant": "all arguments", "anchors": ["asyncapi3/models/asyncapi.py:AsyncAPI3.as_builder"]}
{"id": "C41", "title": "Validators never change the document", "statement": "Running any of the bundled validators either raises or returns the document unchanged, and the 17 stub validators never raise.", "quantifier": "every document", "why_tests_cant": "all documents", "anchors": ["asyncapi3/validators/*.py"]}
{"id": "C42", "title": "Every reference in a document is checked (validator docstring)", "statement": "UnifiedReferencesValidator 'performs a comprehensive check of all Reference objects throughout the specification': a document containing a dangling internal $ref anywhere is rejected.", "quantifier": "every document and every place a $ref object can occur", "why_tests_cant": "all documents and positions", "anchors": ["asyncapi3/validators/unified_references_validator.py:UnifiedReferencesValidator", "asyncapi3/models/schema.py:Schema"]}
{"id": "C43", "title": "Unified validation terminates on shared and cyclic object graphs and still covers them", "statement": "For object graphs with sharing and cycles (possible through free-form fields), the traversal terminates and every Reference reachable from the document is checked at least once; on trees it coincides with the plain traversal.", "quantifier": "every finite object graph", "why_tests_cant": "all graphs, all cycle shapes", "anchors": ["asyncapi3/validators/unified_references_validator.py:validate_references_recursive(visited_objects)"]}
{"id": "C44", "title": "Reference acceptance does not depend on the order of map entries", "statement": "Reordering the entries of maps in a document (same keys and values) never changes whether the unified validator accepts it.", "quantifier": "every document, every permutation of any map", "why_tests_cant": "all permutations", "anchors": ["asyncapi3/validators/unified_references_validator.py:_validate_mapping_references"]}
{"id": "C45", "title": "Adding unrelated entries never breaks existing references", "statement": "If a reference resolves in a document, it resolves to the same object after any entry with a new key is added to any patterned map whose content is not itself the resolved object.", "quantifier": "every document, every added entry", "why_tests_cant": "all documents and extensions", "anchors": ["asyncapi3/validators/utils.py:_resolve_path_parts"]}
{"id": "C46", "title": "Revalidation is the identity without side conditions", "statement": "Passing any already validated instance wherever its type is expected yields an equal instance (C16 without its side condition).", "quantifier": "all validated instances, including free-form schemas with extra keys", "why_tests_cant": "Ranges over all instances; a counterexample needs an unusual combination of alias and Python name as keys, which tests do not try.", "anchors": ["asyncapi3/models/base_models.py:model_config(revalidate_instances)", "asyncapi3/models/schema.py:Schema.model_config"]}
{"id": "C47", "title": "Accepted patterned keys consist of documented characters only", "statement": "README: keys of patterned objects 'must contain only letters, digits, hyphens, and underscores'; every key of every accepted patterned object does.", "quantifier": "all mappings accepted by a patterned class", "why_tests_cant": "Ranges over all strings; the counterexample is an invisible trailing newline.", "anchors": ["asyncapi3/models/helpers.py:validate_patterned_key", "asyncapi3/models/base_models.py:PatternedRootModel.validate_patterned_keys"]}
{"id": "C48", "title": "Attribute assignment keeps fields typed, without side conditions", "statement": "C14 without its side condition: for every valid instance, including free-form schemas with extra keys, every sequence of attribute assignments leaves every declared field with a value of its declared type.", "quantifier": "every class, every instance, every sequence of assignments", "why_tests_cant": "quantifies over all instances and all assignment sequences; the failure needs an instance given both the alias and the Python name of a field", "anchors": ["asyncapi3/models/schema.py: Schema, MultiFormatSchema", "asyncapi3/models/base_models.py"]}
{"id": "C49", "title": "A free-form entry called root does not disturb references through its object", "statement": "A reference that designates a declared field (by name or alias) of an object resolves to it whatever free-form data the object carries.", "quantifier": "every accepted document, every designated place, every free-form content of the objects on the way", "why_tests_cant": "free-form content is arbitrary; only one particular extra name changes the result", "anchors": ["asyncapi3/validators/utils.py:_has_root_mapping", "asyncapi3/validators/utils.py:_resolve_path_part"]}
{"id": "C50", "title": "Documented key syntax of channels, messages and parameters", "statement": "The docstrings of Channels, Messages and Parameters say their keys must match ^[A-Za-z0-9\\.\\-_]+$: every such key is accepted (and no other).", "quantifier": "every key string", "why_tests_cant": "infinitely many strings", "anchors": ["asyncapi3/models/channel.py:Channels", "asyncapi3/models/channel.py:Parameters", "asyncapi3/models/message.py:Messages", "asyncapi3/models/base_models.py:PatternedRootModel.validate_patterned_keys"]}
{"id": "C51", "title": "Tags of traits are verified as the per-field documentation says", "statement": "docs/extra_validators/references.md marks the tags of message and operation traits given in place as verified by TagsRefValidator: a dangling tag reference there is rejected.", "quantifier": "every document and every marked field", "why_tests_cant": "all documents", "anchors": ["docs/extra_validators/references.md", "asyncapi3/validators/tags_ref_validator.py:TagsRefValidator"]}
{"id": "C52", "title": "Parsed documents are valid at every depth", "statement": "In the object obtained from any plain JSON-like data, every contained object - at any depth, through fields, lists, maps and extras - satisfies its own class: declared fields have their declared types and limits, cross-field rules hold, and extra keys follow the class's policy; every contained map has documented keys and entries of its declared type.", "quantifier": "every class, every input (of any depth) that parses, every contained object", "why_tests_cant": "unbounded nesting and all inputs", "anchors": ["asyncapi3/models/base_models.py:ExtendableBaseModel", "asyncapi3/models/base_models.py:NonExtendableBaseModel", "asyncapi3/models/base_models.py:PatternedRootModel", "asyncapi3/models/**"]}
{"id": "C53", "title": "The order of keys in the input does not matter", "statement": "Two inputs that differ only in the order of mapping entries (at any depth) are both accepted or both rejected, give objects equal up to entry order, serialise to data equal up to entry order, and get the same verdict from UnifiedReferencesValidator.", "quantifier": "every class and annotation, every pair of inputs that are permutations of one another at any depth", "why_tests_cant": "factorially many orders for infinitely many documents; smart unions and alias/name precedence could depend on order", "anchors": ["asyncapi3/models/**", "asyncapi3/validators/unified_references_validator.py:UnifiedReferencesValidator"]}
{"id": "C54", "title": "Specification names and Python names are interchangeable in the input", "statement": "Because models are configured with validate_by_name and validate_by_alias, writing any fields, at any depth, under the Python name instead of the specification (alias) name or conversely does not change what is parsed.", "quantifier": "every class, every input and every choice of spellings at any depth (each field given under one spelling)", "why_tests_cant": "exponentially many spellings of infinitely many inputs", "anchors": ["asyncapi3/models/base_models.py:ExtendableBaseModel", "asyncapi3/models/base_models.py:NonExtendableBaseModel"]}
{"id": "C55", "title": "An explicit null means the same as omitting an optional field", "statement": "Removing an explicit null for a field whose default is None, at any depth, does not change what is parsed.", "quantifier": "every class, every input, every set of explicit nulls at any depth", "why_tests_cant": "infinitely many inputs; interaction with smart unions", "anchors": ["asyncapi3/models/**", "asyncapi3/models/schema.py:Schema", "asyncapi3/models/base.py:Reference"]}
{"id": "C56", "title": "An admitted extra key does not influence the rest of the object", "statement": "Adding an extension key x-... to an input of an extendable class (or any undeclared key to a free-form class) changes neither acceptance nor the declared fields; the value is kept unchanged under its key, in its place among the extras. In a closed class any undeclared key makes parsing fail.", "quantifier": "every class, every input, every position, undeclared key and value", "why_tests_cant": "infinitely many keys, values and inputs", "anchors": ["asyncapi3/models/base_models.py:ExtendableBaseModel.validate_extensions", "asyncapi3/models/base_models.py:NonExtendableBaseModel"]}
{"id": "C57", "title": "Replacing the contents of a map is validated like construction", "statement": "Assigning m.root = data on a patterned map (Servers, Channels, Tags, ...) returns normally exactly when constructing the map from data succeeds, and then leaves exactly the constructed map; a refused assignment leaves the map as it was; no other attribute can be assigned.", "quantifier": "every map class, every map and every value", "why_tests_cant": "all maps and all values", "anchors": ["asyncapi3/models/base_models.py:PatternedRootModel", "asyncapi3/models/base_models.py:PatternedRootModel.validate_patterned_keys"]}
{"id": "C58", "title": "Assigning an attribute of a document re-runs its processors", "statement": "Assigning a declared attribute of an AsyncAPI3 document either is refused by the attribute's type or rule and changes nothing, or stores the validated value, leaves all other attributes alone and runs the converters and then the validators listed in the changed document on it, returning normally iff they all do; with bundled validators the stored document is exactly the old one with that attribute replaced.", "quantifier": "every valid document, attribute, value and every behaviour of processors", "why_tests_cant": "arbitrary processors and documents", "anchors": ["asyncapi3/models/asyncapi.py:AsyncAPI3.run_extra_processors", "asyncapi3/models/base_models.py:ExtendableBaseModel"]}
{"id": "C59", "title": "A document keeps satisfying its validators while it is modified", "statement": "If a document lists UnifiedReferencesValidator and was accepted by it, then after any modification that returns normally - of the document or of anything inside it - it still satisfies it, and a modification that raises leaves a document that satisfies it.", "quantifier": "every accepted document and every sequence of modifications at any depth", "why_tests_cant": "all histories of modifications", "anchors": ["asyncapi3/models/asyncapi.py:AsyncAPI3.run_extra_processors", "asyncapi3/validators/unified_references_validator.py:UnifiedReferencesValidator"]}
{"id": "C60", "title": "Resolution returns parts of the document", "statement": "Whatever resolve_reference returns is an object contained in the document, never a Reference, and valid if the document was loaded from plain data; empty path segments (leading, trailing, repeated slashes) do not influence the result.", "quantifier": "every document and reference string", "why_tests_cant": "all documents, all strings, chains of any length", "anchors": ["asyncapi3/validators/utils.py:resolve_reference"]}
{"id": "C61", "title": "Defaults are valid, immutable and the same as omission", "statement": "The default of every optional field of every class is an immutable value (None, bool, int or str) that the field's own type and validator accept unchanged; omitting the field gives it, and gives the same object as passing it explicitly.", "quantifier": "every class and field, every input", "why_tests_cant": "pydantic does not validate defaults; all inputs", "anchors": ["asyncapi3/models/**"]}
{"id": "C62", "title": "Required fields and documented defaults", "statement": "For every object of AsyncAPI 3.0 and of the bindings: construction fails unless each required field is given (by its key or its Python name); an omitted field gets its documented default (null if none); and leaving a non-required field out of accepted input gives accepted input, for objects without a rule across fields.", "quantifier": "every class and field, every input", "why_tests_cant": "every field of some 120 classes combined with every other content", "anchors": ["asyncapi3/models/**"]}
{"id": "C63", "title": "Fields hold the documented kinds of values", "statement": "Every field of every constructed object holds a value of its documented kind (string, email, URL, boolean, integer, one of the listed values, an object of a listed class, a list or map of these), null only where allowed; at any depth of a loaded document, after any attribute assignments, and for the entries of patterned maps. Conversely a value of a literal kind is accepted and kept unchanged.", "quantifier": "every class, field, input, depth and assignment history", "why_tests_cant": "all inputs and histories", "anchors": ["asyncapi3/models/**"]}
{"id": "C64", "title": "Admitted and recognised keys", "statement": "Accepted input for an object contains only its documented keys, their Python names, and the other keys the object admits (x- extensions, none, or any); a documented key (or, without it, the Python name) is read into its field and never ends up as an extra.", "quantifier": "every class and every input mapping", "why_tests_cant": "all keys", "anchors": ["asyncapi3/models/**"]}
{"id": "C65", "title": "Construction copies its input", "statement": "Building an object from a mapping or from instances never modifies the caller's objects, on success or failure; every list, dict, model and patterned map of the result is a new object found at one place of the result only (even if the input holds the same object at several places); the only caller's objects inside the result are parts of free-form data (extra entries, values declared Any). Hence changing the caller's data afterwards does not change the result.", "quantifier": "every class, input object graph (sharing allowed) and later modification", "why_tests_cant": "all input graphs and aliasings", "anchors": ["asyncapi3/models/base_models.py", "asyncapi3/models/**"]}
{"id": "C66", "title": "Sharing in the input does not matter", "statement": "Whether input is accepted, and the contents of the result, depend only on the contents of the input, not on which of its parts are the same Python object.", "quantifier": "every class and all pairs of input object graphs with equal contents", "why_tests_cant": "all object graphs", "anchors": ["asyncapi3/models/base_models.py", "asyncapi3/models/**"]}
{"id": "C67", "title": "Attribute assignment happens in place and stores a copy", "statement": "obj.attr = value changes the object as validation prescribes and changes nothing that does not contain it; a declared attribute receives a copy made of new objects (except free-form data), an undeclared one and obj[key] = value receive the very object. Over any history of assignments to objects nested in a loaded document, the document reads as the sequence of these updates, the original data and the assigned values stay unchanged, and another document loaded from the same data is not affected.", "quantifier": "every class, document, attribute path, value and history of assignments", "why_tests_cant": "all histories and aliasings", "anchors": ["asyncapi3/models/base_models.py", "asyncapi3/models/asyncapi.py:AsyncAPI3"]}
{"id": "C68", "title": "Internal references mean what JSON Reference says", "statement": "A reference '#'+pointer designates the value RFC 6901 selects in the serialised document: whatever the pointer selects is found by the resolver, whatever the resolver finds is what the pointer selects; in particular a reference made by a factory method means for every JSON Reference tool the entry it was made for.", "quantifier": "every document, pointer and factory", "why_tests_cant": "all documents and pointers; relates the resolver to the serialiser", "anchors": ["asyncapi3/validators/utils.py:resolve_reference", "asyncapi3/models/base.py:Reference"]}
{"id": "C69", "title": "Saving and loading keeps the verdicts", "statement": "A document accepted (or rejected) by a bundled validator is accepted (rejected) again after it was serialised and loaded, and the unified validator names the same location; loading the serialised data with the same extra_converters/extra_validators makes exactly the same processor calls with the same result as the original construction.", "quantifier": "every document, every bundled validator, every (arbitrary) processor", "why_tests_cant": "all documents and all processors", "anchors": ["asyncapi3/models/asyncapi.py:AsyncAPI3", "asyncapi3/models/base_models.py:NonExtendableBaseModel", "asyncapi3/validators/unified_references_validator.py"]}
{"id": "C70", "title": "Adding and removing map entries has only local effects on reference checking", "statement": "Adding an entry under a new key to any patterned map of a document accepted by UnifiedReferencesValidator: the extended document is accepted iff every Reference inside the new entry is acceptable where it stands, and if it is rejected the reported location lies inside the new entry. Removing an entry from an accepted document: the only possible report is an unresolvable pointer, at a reference whose chain of references mentions the removed key; an entry that no remaining reference mentions can always be removed.", "quantifier": "all documents, all patterned maps at any depth, all entries and new keys", "why_tests_cant": "Ranges over all documents, insertion points and reference chains; a test adds one entry to one document.", "anchors": ["asyncapi3/validators/unified_references_validator.py: UnifiedReferencesValidator", "asyncapi3/validators/utils.py: resolve_reference", "asyncapi3/models/base.py: patterned root models"]}
{"id": "C71", "title": "The unified validator compared with the tag and external-docs validators", "statement": "A document that UnifiedReferencesValidator accepts is also accepted by TagsRefValidator and ExternalDocsRefValidator; conversely a local tag or external-docs reference that those validators accept resolves in the document.", "quantifier": "all parsed documents and all references in them", "why_tests_cant": "It compares three independently written walkers on every document; any finite set of documents can agree by accident.", "anchors": ["asyncapi3/validators/tags_ref_validator.py:TagsRefValidator", "asyncapi3/validators/external_docs_ref_validator.py:ExternalDocsRefValidator", "asyncapi3/validators/unified_references_validator.py:UnifiedReferencesValidator"]}
{"id": "C72", "title": "Converters and validators that modify the document they are given", "statement": "A processor may change the document it receives. If it only changes objects inside the document (their attributes, or items of dictionaries) construction behaves like the plain pipeline: every listed processor is called exactly once in order until one raises, and construction ends. If it assigns an attribute of the document itself, all listed processors run again inside that assignment, on the document as changed so far: the outcome is still uniquely determined, a first processor that always makes an acceptable assignment never lets construction end, construction does end whenever each such assignment makes some measure of the document smaller, and if construction returns a document and nobody replaces extra_validators, every bundled validator listed accepts the returned document. (Not true, and refuted: that validators only run after all converters, and that a converter's changes are judged only when it has finished.)", "quantifier": "every program a processor can run (looking at the document, assigning attributes, setting and deleting items, catching the exceptions of these), every list of processors, every input", "why_tests_cant": "The nesting of re-runs is unbounded and the processors are arbitrary user code; termination and the final verdict are claims about all of them.", "anchors": ["asyncapi3/models/asyncapi.py:run_extra_processors", "asyncapi3/models/asyncapi.py:_run_extra_converters", "asyncapi3/models/asyncapi.py:_run_extra_validators", "asyncapi3/models/base_models.py:NonExtendableBaseModel", "asyncapi3/protocols.py:ProcessorProtocol"]}
{"id": "C73", "title": "Renaming an entry together with its references keeps the verdict", "statement": "Take a parsed document whose user-chosen keys above references do not look like the validator's path syntax, rename one entry of a patterned map (a channel, a message, a component, ...) to such a name that the map does not use yet, and rewrite exactly the references that lead through this entry (always possible). Then every reference that resolved before resolves to the correspondingly renamed place and to an object of the same type, and the unified reference validator accepts the renamed document if it accepted the original; if no reference already used the new name, it also rejects the renamed document if it rejected the original. Both conditions are necessary: a channel renamed to 'root' makes the validator reject, and a dangling reference to the new name gets captured.", "quantifier": "all parsed documents, all maps at any depth, all old and new names, all ways to spell the rewritten references", "why_tests_cant": "The renamed entry may be nested anywhere, be reached through aliases or Python names and through chains of references; refactoring safety is a claim about every document and every name.", "anchors": ["asyncapi3/validators/unified_references_validator.py:UnifiedReferencesValidator", "asyncapi3/validators/utils.py:resolve_reference"]}
{"id": "C74", "title": "Validating an existing object again returns it unchanged exactly when it is valid", "statement": "For any object graph of library classes (however it was built or modified, including by unchecked item assignments), passing it to the class again (model_validate / the constructor, revalidate_instances='always') returns an equal object if and only if every object in it obeys its class at every depth: typed fields, field rules, cross-field rules, admitted extra keys, documented map keys. Otherwise it raises or returns a repaired object, which is valid and on which validating once more changes nothing. A document with bundled processors is returned unchanged if and only if it is valid and all its processors accept it; in particular an accepted document is accepted again. (Conditions: extra keys of free-form classes do not shadow declared fields, free-form places hold JSON data, and the key of a Kafka message binding is not a plain dictionary, for which c74_settled_needed gives the counterexample.)", "quantifier": "all object graphs over all model classes, hence all modification histories", "why_tests_cant": "It characterises the fixed points of validation over all states an object can be brought into.", "anchors": ["asyncapi3/models/base_models.py:NonExtendableBaseModel", "asyncapi3/models/base_models.py:ExtendableBaseModel", "asyncapi3/models/base_models.py:PatternedRootModel", "asyncapi3/models/asyncapi.py:AsyncAPI3", "asyncapi3/models/bindings/kafka.py:KafkaMessageBindings"]}
{"id": "C75", "title": "The error of reference checking says where and what", "statement": "When the unified reference validator rejects a document, its message is exactly the documented text for the first offending reference in document order: 'Invalid reference at <path>: <reason>' for a chain that does not lead to an object, 'Unknown reference type for path: ...' when no rule covers the path, and 'Reference at <path> resolved to <place> with type <T>, expected <A | B>' for a type mismatch; every reference visited before it is acceptable. <reason> is what resolve_reference raises: the first segment that cannot be followed with the dotted path up to it (missing key, missing field, unset field, scalar), a bad format, an empty path, or the first reference string the chain returns to. Conversely every such situation yields that message, exactly the chains that neither end at an object nor leave the document have one, and in a parsed document the path in the message belongs to one single reference.", "quantifier": "all documents, reference strings and chains", "why_tests_cant": "Tests match a few substrings of messages on a few documents; that the message points at the first culprit and at no other place is a claim over all documents.", "anchors": ["asyncapi3/validators/utils.py:resolve_reference", "asyncapi3/validators/utils.py:_resolve_path_part", "asyncapi3/validators/unified_references_validator.py:UnifiedReferencesValidator"]}
{"id": "C76", "title": "Outside references are reported, once each and in order, and nothing else", "statement": "Resolving a reference logs one warning, naming the outside reference, if and only if its chain leaves the document, and none otherwise. Validating a document logs exactly the warnings of its references in document order: all of them if it is accepted, those of the references before the first refused one if it is rejected. An accepted document is accepted silently if and only if no chain of references leaves it.", "quantifier": "all documents and reference chains", "why_tests_cant": "A missing or duplicated warning on some document shape is invisible to a finite set of log assertions.", "anchors": ["asyncapi3/validators/utils.py:resolve_reference", "asyncapi3/validators/unified_references_validator.py:UnifiedReferencesValidator"]}
{"id": "C77", "title": "The tag and documentation validators say which object they complain about", "statement": "A run of the tag (external-documentation) reference validator logs and raises exactly the sentences of the references at its verified locations, location after location and in document order, up to the first bad one; each sentence begins with the description of that reference's own place (kind of object, its key, the keys and indices around it). The text should identify the object. Refuted as it stands: the description goes through str.capitalize(), which turns names into lower case, so a complaint about channel 'userEvents' reads \"Channel 'userevents' ...\" and is the same text as for another channel 'userevents'. Proved instead: between objects whose names have no capital letters and no quotes (in particular patterned keys without capitals), the sentence determines the location, all keys on the way (for the documentation validator also all indices), the kind of problem and the reference text.", "quantifier": "all well-typed documents, all references in them, any result of capitalize() on non-ASCII text", "why_tests_cant": "Tests match substrings of a few messages; that each of the 40 contexts names its own place, that no other place can produce the same sentence, and the order of reports are claims over all documents.", "anchors": ["asyncapi3/validators/tags_ref_validator.py:TagsRefValidator", "asyncapi3/validators/external_docs_ref_validator.py:ExternalDocsRefValidator"]}
{"id": "C78", "title": "A rejected value is reported with exactly its faults", "statement": "Validating a value against a model class lists no error if and only if the value is accepted; otherwise the ValidationError lists exactly the faults of the value, each with its location and (for the library's own validators) its exact sentence: a value of the wrong kind, a missing required field, a key that is not allowed, a field outside its documented limits, a malformed version or e-mail, a malformed extension or map key, a violated rule relating several fields. A union is reported with the faults of all its members, and only when all of them reject.", "quantifier": "all values and all 149 model classes and maps", "why_tests_cant": "Tests match one message of one bad input each; that nothing is forgotten and nothing invented is a claim over all inputs and all combinations of faults.", "anchors": ["asyncapi3/models/base_models.py:ExtendableBaseModel", "asyncapi3/models/base_models.py:PatternedRootModel", "asyncapi3/models/helpers.py:validate_patterned_key", "asyncapi3/models/asyncapi.py:AsyncAPI3.validate_asyncapi_version", "asyncapi3/models/security.py:SecurityScheme"]}
{"id": "C79", "title": "Error locations lead into the input", "statement": "Following the location of a reported error in the value that was passed (keys of mappings, attributes of instances, indices of lists) always leads to a part of that value; for a missing field it leads to a mapping or instance that does not contain the last key.", "quantifier": "all values with distinct dictionary keys, all model classes, all reported errors", "why_tests_cant": "Aliases, Python names, unions, instances and extras each change which key is reported; only a proof covers all mixtures at any depth.", "anchors": ["asyncapi3/models/base.py", "asyncapi3/models/base_models.py:ExtendableBaseModel"]}
{"id": "C80", "title": "Each place is complained about at most once", "statement": "No two errors of one rejection have the same location (the union member being part of the location), so a location determines its cause.", "quantifier": "all values with distinct dictionary keys, all model classes", "why_tests_cant": "Needs that no two fields of any class answer to the same key, and that checks of fields, extra keys and rules never overlap, for all inputs.", "anchors": ["asyncapi3/models/base_models.py:ExtendableBaseModel"]}
{"id": "C81", "title": "One fault does not hide another field's faults", "statement": "The errors reported under the key of a field are those of its own value, whatever else the object contains: repairing or breaking other fields neither adds nor removes any of them. A missing required field and a forbidden key are always reported. The same holds for the items of a list and the entries of a mapping.", "quantifier": "all model classes, fields, objects and values", "why_tests_cant": "Masking shows only for particular combinations of several faults in one input.", "anchors": ["asyncapi3/models/base_models.py:ExtendableBaseModel", "asyncapi3/models/base_models.py:PatternedRootModel"]}
{"id": "C82", "title": "Rules relating several fields: one sentence, the first violated rule", "statement": "An object whose fields are fine is reported with at most one sentence, at its own location: the first unknown key, in the order of the input, that is not an extension; else the first violated rule of its class in the documented order. Such a sentence is only given when nothing else is wrong within the object. The same holds for the keys of a patterned map: the first malformed key is named.", "quantifier": "all classes, all inputs", "why_tests_cant": "Tests violate one rule at a time; which rule is named when several are violated, and that it is withheld while a field is wrong, are claims over all inputs.", "anchors": ["asyncapi3/models/security.py:SecurityScheme", "asyncapi3/models/security.py:OAuthFlows", "asyncapi3/models/channel.py:Channel", "asyncapi3/models/base_models.py:PatternedRootModel"]}
{"id": "C83", "title": "What the caller of model_validate sees", "statement": "Loading a document either fails with exactly the faults of its fields, without running a processor or logging anything; or runs the listed processors, converters first, in order: if none objects the document is returned, otherwise the sentence of the first that objects is the only error, located at the root. The log consists of what each of them has to log, in order, up to that point. With bundled processors there is no other outcome.", "quantifier": "all documents without model instances in them that list bundled processors only; all lists of them", "why_tests_cant": "Combines all validators, their order and their messages over all documents.", "anchors": ["asyncapi3/models/asyncapi.py:AsyncAPI3.run_extra_processors", "asyncapi3/validators/__init__.py"]}
{"id": "C84", "title": "A refused attribute assignment: what is reported tells whether the value was stored", "statement": "obj.name = v either returns or raises a ValidationError. If the value itself is not admitted, the errors are exactly the faults of the value, each located under the attribute's name, and the object is unchanged. If the attribute does not exist on a closed class, that is the only error, under its name, and the object is unchanged. If the value is admitted but the object as a whole is then wrong, there is one error without a location, naming the first thing that is wrong, and the new value has been stored. There is no other case. Replacing the contents of a patterned map reports exactly the errors of building the map from the same data.", "quantifier": "all classes, instances, attribute names and values; all verdicts of the processors of a document", "why_tests_cant": "Tests assign a handful of values; that the location of the error decides whether the object was changed is a claim over all classes and values.", "anchors": ["asyncapi3/models/base_models.py:ExtendableBaseModel", "asyncapi3/models/base_models.py:NonExtendableBaseModel", "asyncapi3/models/base_models.py:PatternedRootModel", "asyncapi3/models/asyncapi.py:AsyncAPI3.run_extra_processors"]}
{"id": "C85", "title": "The order in which documents are written", "statement": "model_dump / model_dump_json of a loaded document write every object with its declared fields first, in the order the class declares them, and then its extra entries in the order of the input. So two declared keys never swap places between objects of a class, the order of the declared keys in the input leaves no trace (the loaded object, hence the text, is literally the same), and the entries of patterned maps and the items of lists keep the order of the input.", "quantifier": "all classes, all JSON inputs, all objects at any depth", "why_tests_cant": "Diff-stable output is a claim about all documents and all input orders.", "anchors": ["asyncapi3/models/base_models.py:ExtendableBaseModel", "asyncapi3/models/base_models.py:PatternedRootModel", "asyncapi3/models/asyncapi.py:AsyncAPI3"]}
{"id": "C86", "title": "Building a document out of ready-made parts is the same as loading it whole", "statement": "Passing instances of the library's classes (themselves built from parts, to any depth), lists and dicts of them, or plain data in any mixture to a constructor gives the same object, or is refused exactly as, loading the corresponding plain data as a whole; the processors of a document see the same document. Where several classes are possible, the part has to be of the class that is chosen for the data.", "quantifier": "all classes, all data, all ways to split the data into parts", "why_tests_cant": "The ways to split a document into instances and data are unbounded in number and depth.", "anchors": ["asyncapi3/models/base_models.py:ExtendableBaseModel", "asyncapi3/models/base_models.py:PatternedRootModel", "asyncapi3/models/asyncapi.py:AsyncAPI3"]}
{"id": "C87", "title": "Assigning to a document tells what its validators say about the changed document", "statement": "Assigning a declared attribute of a loaded document whose listed processors are bundled ones: a value the attribute does not admit is refused under the attribute's name, nothing is logged and no processor runs; an admissible value is stored, and then the processors the changed document lists run on the changed document in order, converters first, logging what each has to log, up to the first that objects; its sentence is the single error, without location, and the assignment returns normally if none objects.", "quantifier": "all documents, attributes, values and lists of bundled processors", "why_tests_cant": "Documents, values and processor lists are unbounded; the log and the error depend on every reference in the changed document.", "anchors": ["asyncapi3/models/asyncapi.py:AsyncAPI3.run_extra_processors", "asyncapi3/models/base_models.py:ExtendableBaseModel", "asyncapi3/validators/tags_ref_validator.py:TagsRefValidator", "asyncapi3/validators/unified_references_validator.py:UnifiedReferencesValidator"]}
{"id": "C88", "title": "The order of the errors is determined by the value and its class", "statement": "The errors of a ValidationError are listed in one fixed order: fields of a class in the order of their declaration, then keys the class does not know in the order of the input; list items by position; entries of a map in the order of the input; the alternatives of a union in the order of the annotation; nested errors where their part is. No reported location is the beginning of another. So exactly one list of errors is possible for a given input.", "quantifier": "all classes, all inputs, all pairs of reported errors", "why_tests_cant": "The number and nesting of simultaneous errors is unbounded, and order is a statement about every pair of them.", "anchors": ["asyncapi3/models/base_models.py:ExtendableBaseModel", "asyncapi3/models/base_models.py:NonExtendableBaseModel", "asyncapi3/models/base_models.py:PatternedRootModel"]}
{"id": "C89", "title": "A valid document stays valid over any history of edits (README: the model is always valid)", "statement": "Start from a loaded document and apply, in any order and number and at any depth reachable by attributes, subscripts and indices: attribute assignments that return normally, item assignments of valid entries under documented keys, item deletions, in-place changes of lists and dicts to contents of the declared type, in-place changes of the values of extra data. The document is still valid at every depth: every object has its fields typed, obeys the rules on single fields and the rules relating fields, and carries only admissible extra data; every map has documented keys and typed entries.", "quantifier": "all documents, all finite histories of such edits, all paths, all inserted valid data", "why_tests_cant": "Histories, depths and documents are unbounded; a nested edit is not seen by the validators of the enclosing objects, so every rule of every class has to be shown insensitive to it.", "anchors": ["asyncapi3/models/base_models.py:ExtendableBaseModel", "asyncapi3/models/base_models.py:PatternedRootModel", "asyncapi3/models/security.py:OAuthFlows", "asyncapi3/models/asyncapi.py:AsyncAPI3"]}
{"id": "C90", "title": "Equality of documents", "statement": "== between documents, or any two values of the models, is an equivalence: it holds iff the classes agree, the declared fields and the extra data are equal, lists are equal item by item and dicts and patterned maps entry by entry whatever the order of their keys, and numbers by value (True == 1 == 1.0). Two References are equal iff they have the same string, and equal References have equal hashes, so they can be deduplicated in sets and dicts. Equal documents cannot be told apart by the library: they get the same verdict from the reference check, the tag validator and the external-documentation validator (and warnings about the same external references), every reference string resolves in both to equal objects at the same place or fails with the same error, and, if they were loaded from JSON, they serialise to equal data (though not to the same text, as True == 1).", "quantifier": "all values, all pairs of documents, all reference strings", "why_tests_cant": "Pairs of documents and orders of keys are unbounded; that no check depends on the order of keys or on how a number is represented has to be shown of every check and every table row.", "anchors": ["asyncapi3/models/base.py:Reference.__hash__", "asyncapi3/models/base_models.py:ExtendableBaseModel", "asyncapi3/models/base_models.py:PatternedRootModel", "asyncapi3/validators/unified_references_validator.py:UnifiedReferencesValidator", "asyncapi3/validators/utils.py:resolve_reference"]}
{"id": "C91", "title": "The text entry points read JSON and read back what they wrote", "statement": "model_validate_json hands to validation exactly the data a JSON text stands for (RFC 8259 plus NaN, Infinity and -Infinity, nested no deeper than the reader's limit, integers of at most 4300 digits): a text is read iff it is in the grammar, it has one reading only, and the result is plain data in which a key given twice keeps its first place and its last value. model_dump_json writes a JSON text that stands for model_dump(mode='json') of the same object (for plain data: for the data itself), so reading it back gives that data, provided no NaN or infinity is inside (they are written as null). Writing plain data raises exactly if a string or key has a lone surrogate or an integer has more than 4300 digits, hence never on data that was read from a text.", "quantifier": "all texts, all data, all objects of every class built from data", "why_tests_cant": "Texts, escapes, blanks and nestings are unbounded; that the writer's escapes are the ones the reader undoes has to hold for every code point, and that nothing outside the grammar is read cannot be sampled.", "anchors": ["README.md:256-257", "README.md:282", "tests/test_base_validation.py:28", "asyncapi3/models/base_models.py:ExtendableBaseModel", "asyncapi3/models/base_models.py:PatternedRootModel"]}
{"id": "C92", "title": "A file cut short or appended to never loads as another document", "statement": "If the text model_dump_json wrote for a document (or any mapping, list or model object) is cut at any point before its end, as by a crash while the file is written, model_validate_json refuses what is left, for every class. If something is appended to it, it is refused unless only blanks were appended, and then it reads as the original.", "quantifier": "all documents and values, all cut points, all appended texts, all classes it is loaded as", "why_tests_cant": "Cut points and contents are unbounded; a string value may itself contain braces, quotes and backslashes around the cut.", "anchors": ["README.md:256-257", "README.md:282"]}
{"id": "C93", "title": "Saving and loading as text gives the same document and the same text", "statement": "A document (or object of any class) loaded from a JSON text, written with model_dump_json and loaded again is the same document, except that processor fields are not saved; written once more it gives the same text, character by character.", "quantifier": "all texts, all classes, all resulting documents", "why_tests_cant": "Documents, extension data and union alternatives at every place are unbounded.", "anchors": ["README.md:256-257", "README.md:282", "asyncapi3/models/base_models.py:ExtendableBaseModel", "asyncapi3/models/asyncapi.py:AsyncAPI3"]}
{"id": "C94", "title": "Working on a document step by step", "statement": "A document is changed through references into it: attribute assignment, item assignment and deletion on patterned maps and dicts, appending to lists, with values at hand or freshly constructed ones, exceptions being caught. As long as no step is made to an object the document shares with the caller, each step raises or succeeds exactly as it would on a document without shared parts, the document afterwards has exactly the contents of those changes, and the caller's data and other documents are unchanged. A step through one reference is seen through every other reference to the same object and leaves every object not containing it as it was.", "quantifier": "all classes, inputs, histories of edits, paths, values", "why_tests_cant": "The histories, and the ways in which parts can be shared, are unbounded.", "anchors": ["asyncapi3/models/base_models.py:PatternedRootModel", "asyncapi3/models/base_models.py:__setitem__", "asyncapi3/models/base_models.py:__delitem__"]}
{"id": "C95", "title": "What the library writes meets the JSON Schema it publishes", "statement": "For every class, the JSON written for an object that was read (or, since then, changed without losing the types of its fields) is valid under the class's own model_json_schema(). The schema requires the required fields, is closed exactly for the closed classes, and leaves out exactly the fields that are never written.", "quantifier": "all classes, all objects", "why_tests_cant": "Objects, extension data and union alternatives are unbounded.", "anchors": ["asyncapi3/models/helpers.py:EmailStr.__get_pydantic_json_schema__", "asyncapi3/models/asyncapi.py:SkipJsonSchema", "asyncapi3/models/base_models.py"]}
{"id": "C96", "title": "What the published schema refuses, the library refuses", "statement": "A JSON value the library accepts is valid under the published schema of the class.", "quantifier": "all classes, all JSON values", "why_tests_cant": "All JSON values.", "anchors": ["asyncapi3/models/base_models.py:validate_by_name", "asyncapi3/models/helpers.py:EmailStr.__get_pydantic_json_schema__"]}
{"id": "C97", "title": "The published schema and the documented rules together decide acceptance", "statement": "A JSON value written with the specification's names is accepted, without conversions, exactly when it is valid under the published schema and breaks none of the documented rules (e-mail, URL, rules on a field, rules relating fields, extension keys, keys of patterned maps) at any depth. For a class without such rules the schema alone decides.", "quantifier": "all classes, all JSON values", "why_tests_cant": "All JSON values; a rule missing from the list would only show on the values that break it.", "anchors": ["asyncapi3/models/base_models.py", "asyncapi3/models/helpers.py", "asyncapi3/models/**"]}
{"id": "C98", "title": "What a value becomes where a field allows several kinds of objects", "statement": "Where a field allows several alternatives (X or Reference, Schema or Reference, Multi Format Schema or Schema or Reference, int or Schema or Reference, ...), the outcome is determined by the value alone. Where no Schema is among the alternatives at most one of them accepts a given value, so neither the declaration order nor the union preference rule matters. A mapping becomes a Reference exactly when $ref (or ref) with a string is its only key; an instance stays an instance of its class. Where a Schema is allowed any other mapping becomes the Schema, or a Multi Format Schema when that is allowed, it has the key schema, a string (or nothing) as schemaFormat, and no key that the Schema Object declares.", "quantifier": "every union annotation of every class, every input value, every mapping", "why_tests_cant": "there are some sixty fields with alternatives and unboundedly many mappings for each; tests try one mapping per field", "anchors": ["asyncapi3/models/base.py:Reference", "asyncapi3/models/schema.py:Schema", "asyncapi3/models/schema.py:MultiFormatSchema", "asyncapi3/models/bindings/kafka.py:KafkaMessageBindings.key"]}
{"id": "C99", "title": "A mapping with a $ref is that reference, whatever else it has", "statement": "The AsyncAPI specification says of the Reference Object that any properties added shall be ignored: wherever a reference is allowed and a mapping with a string $ref is accepted, it is read as that reference.", "quantifier": "every field that allows a Reference, every mapping with a string under $ref", "why_tests_cant": "the siblings of $ref and the fields are unbounded; the failing case needs a position that also allows a free-form class", "anchors": ["asyncapi3/models/base.py:Reference", "asyncapi3/models/schema.py:Schema", "asyncapi3/validators/unified_references_validator.py:UnifiedReferencesValidator"]}
{"id": "C100", "title": "A Multi Format Schema is read as one or refused", "statement": "Where Multi Format Schema, Schema or Reference is allowed, an accepted mapping with the key schemaFormat is read as a Multi Format Schema.", "quantifier": "every mapping", "why_tests_cant": "faulty mappings are unbounded; the tests only give well-formed ones", "anchors": ["asyncapi3/models/schema.py:MultiFormatSchema", "asyncapi3/models/message.py:Message"]}
{"id": "C101", "title": "Loaded data carries no code: it selects no processors and runs none", "statement": "A document loaded from data (JSON text, or Python data without class objects) never lists a converter or a validator: a non-empty list under extra_converters or extra_validators is refused, since a name is not a class. Consequently loading from data calls no processor, whatever processor classes exist in the program; the outcome is exactly field validation, and in particular references are not checked. The same inertness holds at every depth of the loaded value, for every class of the library.", "quantifier": "every class of the library, every JSON text or value without classes and foreign objects in it, every behaviour of the processor classes", "why_tests_cant": "Tests feed a few strings as processor names; that no data of any depth can smuggle a callable into the document or cause one to run is a statement about all inputs and all processor behaviours.", "anchors": ["asyncapi3/models/asyncapi.py:AsyncAPI3.extra_converters", "asyncapi3/models/asyncapi.py:AsyncAPI3.extra_validators", "asyncapi3/protocols.py:ProcessorProtocol"]}
{"id": "C102", "title": "The target of an accepted reference can stand in its place", "statement": "Take a document loaded with AsyncAPI3.model_validate from JSON data that the unified validator accepts, and a Reference in it standing where the annotation allows a Reference or an object in place. Then either its chain leaves the document (http/https), or it ends at an object of the document whose class the place declares, and replacing the Reference by that object gives a document in which every field again holds what its annotation declares and every object satisfies its class's rules (patterns, exclusions, required fields, validators) — so tools that dereference documents produce valid documents. False inside a trait given in place, where the validator expects the trait's class instead (C32, C34); proved everywhere else.", "quantifier": "every JSON input, every accepted document, every reference position, chains of any length", "why_tests_cant": "needs the expected type computed from the path text to agree with the annotation at every one of infinitely many locations, and the validity of objects to be insensitive to where they stand", "anchors": ["asyncapi3/validators/unified_references_validator.py:UnifiedReferencesValidator", "asyncapi3/models/base.py:Reference"]}
{"id": "C103", "title": "Inlining a reference keeps the document accepted", "statement": "If the unified validator accepts a document loaded from JSON data, then replacing a Reference by the object its chain ends at gives a document it accepts again: every other reference still resolves (through the replaced one, to an object of the same class, or out of the document), and the references inside the inlined object are acceptable at their new place. So is the result of any number of inlinings, and every object of it is valid. False for traits: inlining a trait makes the references directly inside it be judged as references to traits (C32); proved when no reference stands directly inside a trait given in place, before and after.", "quantifier": "every JSON input, every accepted document, every reference in it, every sequence of inlinings, reference chains of any length, targets that contain the reference itself", "why_tests_cant": "inlining changes the traversal, the paths, the expected types and the navigation of all other references at once; that nothing breaks needs an argument over all documents and chains", "anchors": ["asyncapi3/validators/unified_references_validator.py:UnifiedReferencesValidator", "asyncapi3/models/base.py:Reference"]}
{"id": "C104", "title": "References point where the field documentation says they must", "statement": "The field documentation says: the channel of a root operation MUST point into the root Channels Object, the servers of a root channel into the root Servers Object, the messages of an operation at messages of the operation's channel, and the channel of a reply with an address has no address. A document accepted by the unified validator satisfies these four rules. (False for each of the four: the validator checks the class of the target, not its place. True: the channel of a root operation leads to a Channel, its messages to Messages, the servers of a root channel to Servers, or out of the document; and the first three rules hold in every accepted document whose references are written in the documented form #/channels/c, #/servers/s, #/channels/c/messages/m.)", "quantifier": "every input, every accepted document, every root operation and channel, all reference strings and chains", "why_tests_cant": "the rules relate several references and the places of their targets in arbitrary documents; tests show single documents", "anchors": ["asyncapi3/models/operation.py:Operation", "asyncapi3/models/operation.py:OperationReply", "asyncapi3/models/channel.py:Channel", "asyncapi3/validators/unified_references_validator.py:UnifiedReferencesValidator"]}
{"id": "C105", "title": "A session of work: load, edit, save, load again", "statement": "Load a document from JSON, change it any number of times by attribute assignments, in-place edits of containers, and additions to and removals from maps (as in C89), and save it. Provided the result can be saved without loss (only JSON in untyped places, no None over a non-null default, no extra key spelled like a declared field, no free-form object that looks like another alternative of its union), validating the document in memory again returns it unchanged, the saved data and the saved text load to the document in memory (processors aside), the text written after loading again is the same, no proper prefix of the text loads, and the bundled validators say of the document loaded again what they say of the document in memory. The saved data meets the published JSON Schema whether or not the other conditions hold, as long as no extra key is spelled like a declared field.", "quantifier": "all classes of the library, all JSON inputs, all histories of edits of any length, all nesting limits and points of truncation", "why_tests_cant": "The guarantee composes loading, an unbounded history of edits and saving; tests can only try finitely many histories, and each of the steps is only known to keep what the next needs by an invariant.", "anchors": ["asyncapi3/models/base_models.py:ExtendableBaseModel", "asyncapi3/models/base_models.py:NonExtendableBaseModel", "asyncapi3/models/base_models.py:PatternedRootModel", "asyncapi3/models/asyncapi.py:AsyncAPI3"]}
{"id": "C106", "title": "Sets of References deduplicate by their string", "statement": "References put into a Python set (or used as dict keys) stand for their reference strings: after any sequence of add, discard and assignment, a Reference is found in the set exactly if its string is among those put in and not taken out again, and the set has exactly one member for each such string. This needs that nothing is assigned to a Reference while it is a member: References stay assignable though they hash by their string, and a member whose ref was changed is in the set but not found there, and adding it again makes the same object a member twice.", "quantifier": "every hash function of strings (collisions included), every store of valid References, every finite sequence of add, discard and assignment operations in which no member is assigned to", "why_tests_cant": "ranges over all hash functions, stores and operation histories", "anchors": ["asyncapi3/models/base.py:Reference.__hash__", "CHANGELOG.md:#14"]}
{"id": "C107", "title": "Two accepted documents combined are an accepted document", "statement": "Take two valid documents that the library's validators accept, and combine them: patterned maps (servers, channels, operations, every map of components) key by key, an attribute only one of them has taken over, specification extensions merged, everything else (info, ...) the same in both. If the maps agree on the keys they share, the combination is a valid document (every field typed, every object and map valid), every reference of either document resolves in it at the same path to the same object (a map or the components object may have more entries), every bundled validator that accepts both accepts it, and constructing it returns it unchanged. Agreement is needed: with two different channels under the same key the combination can be rejected.", "quantifier": "all pairs of valid documents of any size, all their combinations, all references, every bundled validator, every list of processors", "why_tests_cant": "ranges over all pairs of documents and everything that may refer to anything in them", "anchors": ["asyncapi3/models/asyncapi.py:AsyncAPI3", "asyncapi3/models/components.py:Components", "asyncapi3/validators/unified_references_validator.py:UnifiedReferencesValidator.__call__", "asyncapi3/validators/tags_ref_validator.py:TagsRefValidator.__call__", "asyncapi3/validators/external_docs_ref_validator.py:ExternalDocsRefValidator.__call__", "asyncapi3/validators/utils.py:resolve_reference"]}
{"id": "C108", "title": "Removing many entries at once: a document stripped of what nothing refers to stays valid", "statement": "Take a document that passed validation and remove any number of entries from its maps (components, channels, messages, operations, ... at any depth), also entries that refer to each other. Then: (1) the smaller document is still valid at every depth and still an instance of its class; (2) if validation of the smaller document reports anything, it is a reference that is still in the document and whose chain runs into a place where something was and is no longer, and that reference (or one on its chain) has a removed key as a segment; (3) so if no remaining reference leads through a removed place - in particular if no remaining reference has a removed key as a segment - the smaller document passes validation, no matter how the removed entries referred to each other; (4) whatever resolves in the smaller document resolves in the larger one, to the same location and to the same object but for what was removed inside it.", "quantifier": "all documents, all sets of entries removed from patterned maps at any depth, all references that remain, all reference chains", "why_tests_cant": "which sets of entries can be removed together depends on all references of the document; there are exponentially many subsets and unboundedly many documents", "anchors": ["asyncapi3/validators/unified_references_validator.py: UnifiedReferencesValidator", "asyncapi3/models/base_models.py: PatternedRootModel", "asyncapi3/models/components.py: Components"]}
{"id": "C109", "title": "Every way of writing a document reads back as that document", "statement": "Take any loaded document or part of one (loaded from JSON-like data, meeting the conditions of C17 on extra keys that coincide with field names and on reference/schema ambiguity). However it is written out as data - each declared field under its specification name or under its Python name, chosen field by field; fields that hold the value they get by default left out or not, in any selection; URLs as URL objects or as strings; at any depth - loading the written data gives the same document again (but for its list of processors, which is never written). The order of the keys does not matter either, and any JSON text of any such writing loads as the document. So any two ways of writing it load alike, and two different documents are never written alike. Every combination of the model_dump options by_alias, mode, exclude_defaults and exclude_none is such a way of writing, where for exclude_none no extension entry and no required field may be null; without that proviso exclude_none loses the null extension entry, or writes a MultiFormatSchema that cannot be loaded. What the options leave out is exactly: fields never serialised, nulls that exclude_none (or the field itself) drops, and under exclude_defaults fields equal to their default; everything else is there, with its value, and nothing else. Unless mode is python the result is JSON. With the options at their defaults it is the serialisation of C17.", "quantifier": "all classes, all loaded documents, all selections of omitted default-valued fields, all choices of name per field, all combinations of options", "why_tests_cant": "the number of ways of writing grows exponentially with the document, and the property is about all documents", "anchors": ["asyncapi3/models/base_models.py: ExtendableBaseModel", "asyncapi3/models/base_models.py: NonExtendableBaseModel", "asyncapi3/models/helpers.py: is_null", "asyncapi3/models/asyncapi.py: AsyncAPI3"]}
{"id": "C110", "title": "Merging two files and loading the result is loading both and combining them", "statement": "Take the data of two documents A and B (plain JSON data, e.g. a document split over two files), each of which loads, and merge the data as dictionaries: sections of the document key by key, maps (servers, channels, operations and the maps under components) entry by entry, where what both have must be the same. Then the merged data loads, and what is loaded is the combination, in the sense of C107, of what A and B load to - whatever other order the merged data is written in. So if A and B each pass the bundled validators the merged file passes them, and every reference that resolves in A or in B resolves in the merged document to the same location and the same object (a map may have got more entries). The data must spell the sections by their specification names and both or neither must state the version: otherwise the merged file may not load, or load as a document of another version than one of the two.", "quantifier": "all pairs of loadable documents, all mergings of their data, all orders of keys, all references", "why_tests_cant": "merging interacts with every optional field, default, extension and map of both documents; the property ranges over all pairs of documents", "anchors": ["asyncapi3/models/asyncapi.py: AsyncAPI3", "asyncapi3/models/components.py: Components", "asyncapi3/models/base_models.py: PatternedRootModel", "asyncapi3/validators/unified_references_validator.py: UnifiedReferencesValidator"]}
{"id": "C111", "title": "What is listed in extra_converters and extra_validators decides, nothing else about the lists", "statement": "Give the same JSON data to AsyncAPI3 with different lists of bundled processor classes. The data is parsed the same way whatever is listed: a refused document stays refused and no processor is called, an accepted one is the same document but for the two lists. The load then succeeds exactly if every listed one of UnifiedReferencesValidator, TagsRefValidator and ExternalDocsRefValidator accepts the document as loaded without any processors. So it does not matter in which of the two lists a class is, in which order, how often, or which of the deprecated per-kind validators are listed with it: two listings with the same working classes accept the same data and give the same document but for the lists. Listing more refuses more, never less. With the deprecated classes only, every document that fits the model is accepted, dangling references included. Listing them afterwards, by assigning extra_converters or extra_validators of the loaded document, returns normally exactly if loading with them would have succeeded; the list is stored either way and nothing else changes.", "quantifier": "every JSON data, every pair of lists of bundled processor classes of any length, every execution", "why_tests_cant": "unbounded documents and processor lists; a relation between several loads of the same data", "anchors": ["asyncapi3/models/asyncapi.py:AsyncAPI3.run_extra_processors", "asyncapi3/validators/*.py"]}
{"id": "C112", "title": "Factoring out a repeated object keeps the document accepted", "statement": "If a document in which an object is written out is accepted by the unified validator, then writing instead of it a Reference whose chain ends at an object like it gives an accepted document, provided the annotation there allows an object of that class, the keys on the way are ordinary (C32), the place is not directly inside a trait given in place, and no other reference navigates through the part that was written out. Together with C103: under the conditions of both, the two ways of writing the document are judged alike. So it is after any number of factorings. False without the last condition.", "quantifier": "every JSON input, every place where a Reference may stand, every reference chain of any length ending at the object, every other reference of the document and everything its chain goes through", "why_tests_cant": "the replacement removes a part that any other reference may navigate through and changes what all chains through that place meet; that nothing else breaks needs an argument over all documents and chains", "anchors": ["asyncapi3/validators/unified_references_validator.py:UnifiedReferencesValidator", "asyncapi3/models/base.py:Reference"]}
