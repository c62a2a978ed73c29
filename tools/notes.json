{
 "C01": {
  "note": "Every patterned class: accepted iff all keys are accepted keys (a documented key, possibly with one trailing newline, see C47) and all values are accepted."
 },
 "C13": {
  "note": "REFUTED: item assignment on a patterned object is not validated; the partial theorem says operations keep a map valid when the caller stores valid keys and values."
 },
 "C14": {
  "note": "[keeps]: the configured processors leave a typed document typed (C41 shows the bundled ones change nothing). [never_shadowed] is the side condition of the property."
 },
 "C15": {
  "note": "REFUTED: mode='after' rules run after the value has been stored, so a failed assignment can leave a Channel (etc.) breaking its rule, and an extra key that is not x-. Partial: classes without cross-field rules are left unchanged; in the nine classes with one the failure modes are characterised."
 },
 "C16": {
  "note": "Assumes URL normalisation is idempotent (url_idem), a fact about pydantic."
 },
 "C46": {
  "note": "REFUTED: Schema given both externalDocs and external_docs. Partial: values without free-form objects."
 },
 "C47": {
  "note": "REFUTED: re.match with $ accepts one trailing newline. Partial: nothing else is accepted."
 },
 "C48": {
  "note": "REFUTED by a Schema with extra data under a field's Python name; C14 gives the strongest true version."
 },
 "C22": {
  "note": "Bound stated on the number of nested calls: number of Reference objects plus two."
 },
 "C23": {
  "note": "Side condition no_root_keyword; c23_side_condition shows parsed documents can only break it in free-form objects (C49). ENavigate covers all lookup errors."
 },
 "C26": {
  "note": "For parsed documents, no side condition on the rest of the document; names: any non-empty string without slash (accepted keys are such)."
 },
 "C49": {
  "note": "REFUTED: a Schema with extra data root: {...} hides its declared fields from references. C23 is the strongest true version."
 },
 "C28": {
  "note": "Side condition no_root_keyword (see C23, C49); values are trees (graphs: C43). The error kinds are the three messages of the code."
 },
 "C30": {
  "note": "fnmatch bracket expressions are not modelled; c30_no_brackets shows the table has none."
 },
 "C31": {
  "note": "c31_most_specific and c31_none hold for any table; order independence for the validator's own table."
 },
 "C32": {
  "note": "REFUTED: directly inside a trait given in place (traits[i].tags, .correlationId, .externalDocs, .security) the validator expects the trait's own type and rejects legitimate references. Partial: all other locations (354 shapes) agree; c32_inside_trait characterises the exception exactly."
 },
 "C33": {
  "note": "REFUTED: a channel named 'root' is rejected. Partial: keys outside path_keywords, not ending in _bindings or .root and without [digits], can be exchanged freely."
 },
 "C34": {
  "note": "REFUTED at the in-place-trait locations (an ill-typed reference is accepted). Partial: all other locations; c34_no_dangling holds everywhere."
 },
 "C42": {
  "note": "REFUTED: a dangling $ref kept as raw data in a Schema is accepted. Partial: every Reference object of a document read from plain data is visited."
 },
 "C43": {
  "note": "Object graph model: heap of nodes, identity = index."
 },
 "C44": {
  "note": "python_dicts: keys of one dict are distinct, as in Python."
 },
 "C45": {
  "note": "Resolution unconditional; acceptance for added entries that contain no Reference."
 },
 "C17": {
  "note": "Refuted as stated: an explicit null in an optional field with a non-null default (e.g. AnypointMQ destinationType, Pulsar retention time/size) is dropped and reads back as the default; a Schema {$ref, deprecated: null} reads back as a Reference; a Schema with keyword 'schema' and explicit nulls reads back as MultiFormatSchema; an extra entry spelled like a declared field can become the field. c17_reload_partial proves the round trip for every class and every instance without these (c17_needs_* show each exclusion is needed). Assumes URL normalisation is idempotent. Without the exclusion on nulls, c17_reload_exact says what loading gives: the document with each such null replaced by the default (with_defaults), so under the other exclusions the round trip is the identity if and only if there is no such null (c17_reload_iff); only three fields of the library are affected (c17_affected), and one round settles the document (c17_settles)."
 },
 "C18": {
  "note": "For every object at any depth of any parsed instance whose untyped data is JSON (always the case for JSON input, c17_json_data)."
 },
 "C19": {
  "note": "34 classes declare binding_version."
 },
 "C20": {
  "note": "Equality of the ordered lists of undeclared entries of input and output, for every class."
 },
 "C35": {
  "note": "All 13 locations, any well-typed document; warnings and the reported error are characterised too. 'Acceptable' is what the code does (every occurrence of the prefix removed), related to the documented meaning in C36."
 },
 "C36": {
  "note": "REFUTED: str.replace removes every occurrence of the prefix, so '#/components/tags/#/components/tags/a' is accepted. Partial: strings in which the prefix occurs once, in particular every key a map can have (c36_ordinary_key)."
 },
 "C37": {
  "note": "whole: every Reference instance carries a string (holds for documents read from plain data, c37_parsed)."
 },
 "C38": {
  "note": "REFUTED: 7 of the 26 listed fields are never looked at (c38_unchecked gives one document with a bad reference at each of them). Partial: the other 19."
 },
 "C50": {
  "note": "REFUTED: dots are rejected although three docstrings allow them. Partial: documented keys without dots are accepted."
 },
 "C51": {
  "note": "REFUTED: none of the five trait fields is looked at (c51_none_checked)."
 },
 "C39": {
  "note": "Processors are arbitrary (also nondeterministic) relations on the document and the list being iterated. well_behaved excludes editing that list in place during the loop and leaving the document ill-typed; c39_none and c39_deterministic need neither."
 },
 "C40": {
  "note": "c40_metadata/c40_empty assume idempotent URL normalisation (the metadata is validated twice) and metadata without free-form objects carrying shadowed names."
 },
 "C41": {
  "note": "That the bundled validators do not assign to the document is part of the modelling (they are read from the source as functions of it); the theorems say what follows for constructions."
 },
 "C52": {
  "note": "Also for inputs containing instances as long as untyped places hold plain data; c52_needs_plain_data shows that condition is needed."
 },
 "C54": {
  "note": "respelled (SpecSpelling) is the reflexive-transitive closure of single changes of spelling at any depth."
 },
 "C55": {
  "note": "REFUTED: {\"$ref\": ..., \"discriminator\": null} is read as a Schema where {\"$ref\": ...} is read as a Reference. Partial: nulls reachable without crossing an ambiguous alternative."
 },
 "C57": {
  "note": "The iff is proved (c57_root_assignment). REFUTED: a refused assignment with a bad key leaves the new contents in place; c57_failure_modes_partial characterises failures."
 },
 "C59": {
  "note": "REFUTED twice: objects inside the document do not re-run its validators; a refused document attribute has been stored. Partial: sequences of normal returns on the document's own attributes."
 },
 "C62": {
  "note": "The documentation is transcribed in SpecObjects.v, independently of the class table. Divergence recorded by c62_schema_format: schemaFormat is documented REQUIRED but has a default. with_rule lists the classes with a rule across fields."
 },
 "C63": {
  "note": "c63_assigned has the side condition of C14 (free-form objects shadowing attribute names)."
 },
 "C65": {
  "note": "REFUTED in the last sentence: extra entries and Any values are shared with the caller (c65_later_changes_refuted, a Schema built from a dict with 'properties'); proved for every object outside the free-form data."
 },
 "C67": {
  "note": "Processors are read-only here (only_reads; c67_processors: every pipeline returning its argument qualifies). Histories: values that existed before the document (or are parts of another one), targets that are not pre-existing objects reached through free-form data."
 },
 "C68": {
  "note": "REFUTED both ways: array elements, extension data, properties of schemas and escaped tokens are not found (c68_missed); '#components/..', doubled slashes and Python field names are resolved (c68_beyond). Proved: where both find something it is the same value (c68_agree_partial, c68_resolver_partial), the reasons for a difference are exhausted by arrays / extra data / null (c68_found_partial) and Python names / unserialised fields (c68_known_partial); factory references agree without exception (c68_factories). Percent-encoding is outside the specification used."
 },
 "C69": {
  "note": "REFUTED in general (c69_verdict_refuted): a schema {\"$ref\": .., \"deprecated\": null} is a Schema, accepted, and comes back as a dangling Reference. Proved under the conditions of C17 (c69_same_document_partial, c69_same_run_partial, c69_verdicts_partial); that the verdict does not depend on the processor fields is unconditional for JSON-like documents (c69_without_processors)."
 },
 "C70": {
  "note": "Side condition: no free-form entry called root holding a mapping (C49)."
 },
 "C71": {
  "note": "Refuted in general both ways: '#/components//tags/t' and '#/components/schemas/x/externalDocs' pass the unified validator only (c71_subsumed_refuted); a circular pair of component tags passes the tag validator (c71_sound_refuted). Proved for references written '#/components/tags/<key>' (resp. externalDocs) or leading outside (c71_tags_partial, c71_docs_partial), and an accepted reference naming an entry given in place resolves to that entry (c71_resolves_partial)."
 },
 "C72": {
  "note": "Partial because two natural readings fail: c72_validators_after_refuted (a converter that assigns an attribute makes the validators run before later converters) and c72_half_converted_refuted (a converter that adds an operation and then its channel is rejected by UnifiedReferencesValidator in between, though the finished document is fine). Proved: exact equivalence with the sequential pipeline for inner changes, exactly-once, termination by any measure, non-termination of unconditional assignment, determinism, final acceptance by the bundled validators."
 },
 "C73": {
  "note": "Full statement proved; c73_ordinary_needed and c73_avoids_needed show by counterexample documents that neither condition can be dropped (the unconditional naming claim is C33)."
 },
 "C74": {
  "note": "Strengthens C16 (whose objects all come from parsing) to arbitrary values; the reverse direction is by the same canonical-form analysis as C52."
 },
 "C77": {
  "note": "Refuted because of str.capitalize(); proved for names without capital letters; the exact log and error texts are proved for all well-typed documents."
 },
 "C84": {
  "note": "Proved of all classes of the table. The processors are any function from documents to verdicts that does not write to the document."
 },
 "C85": {
  "note": "Order of pydantic's serialiser: trusted reading (DESIGN section 3)."
 },
 "C86": {
  "note": "Parts must not carry a shadowed key (no_shadowing, only free-form objects can; see C46) and URL normalisation must be idempotent. c86_choice_needed: a Schema built from a lone $ref differs from the data."
 },
 "C87": {
  "note": "Composition of C58, C75-C77, C83 and C84. Documents in which a Reference holds something other than a string (reachable only by assignment of instances) and documents using the keyword 'root' in a path are excluded by hypothesis, as in C83."
 },
 "C88": {
  "note": "The order in which pydantic visits fields, extra keys and union members is part of the trusted reading of pydantic (DESIGN.md section 3)."
 },
 "C89": {
  "note": "Refuted as stated: removing a URL of a flow (doc...flows.implicit.authorization_url = None) returns normally and breaks the rule of the enclosing OAuthFlows (c89_nested_refuted). Proved: without edits of OAuthFlow objects the full statement (c89_stays_valid_partial); with them, everything but that one rule (c89_any_partial). Processors that write are excluded (inert)."
 },
 "C91": {
  "note": "The JSON reader and writer are pydantic-core's (trusted reading in JsonText.v); floats are opaque with faithful printing as a hypothesis; the nesting limit is a parameter."
 },
 "C92": {
  "note": "Uses only that floats are printed as numerals."
 },
 "C93": {
  "note": "Refuted as stated, for the reasons of C17 (an explicit null over a non-null default, names shadowed by aliases, ambiguous schemas); proved under the exclusions of C17 plus: no NaN or infinity, nesting within the reader's limit. c93_save_load_exact: without the exclusion on nulls, the loaded document is the saved one with the defaults filled in."
 },
 "C94": {
  "note": "Values are the caller's objects or objects constructed by the step. c94_shared_needed refutes the statement for an object stored twice and then changed."
 },
 "C95": {
  "note": "Assumes that a normalised URL is not empty and, for HttpUrl, not longer than the 2083 characters the schema allows (c95_url_needed)."
 },
 "C96": {
  "note": "As stated it is false: the library also accepts Python names (c96_refuted) and converts (c96_conversions_needed). Proved for the specification's names without conversions."
 },
 "C99": {
  "note": "REFUTED: where a Schema is allowed, a $ref with siblings is read as a Schema with $ref among its free-form data, and no validator ever looks at it (c99_unchecked: a dangling one is accepted). Proved: everywhere else siblings are refused (c99_refused_partial); in schema positions the $ref is always kept as data (c99_schema_partial)."
 },
 "C100": {
  "note": "REFUTED: {schemaFormat: ...} without schema, or with a non-string format, is silently read as a Schema. Proved: well-formed ones without Schema keys are read as Multi Format Schemas (c100_multi_partial), and whatever is called one is well-formed (c100_sound)."
 },
 "C101": {
  "note": "Proved for every class table annotation and every processor behaviour; the example loads a document with a dangling reference unchecked."
 },
 "C102": {
  "note": "Refuted as stated (c102_inlined_refuted): directly inside a trait given in place the validator accepts references to the trait's class. Strongest true version: every other place. Keys on the way must be ordinary (as for C32)."
 },
 "C103": {
  "note": "Refuted as stated (c103_inlining_refuted, a message trait whose correlationId is a reference). Proved for documents where no reference stands directly inside a trait given in place before or after, with ordinary keys in the visited mappings; c103_repeated_partial for sequences of inlinings."
 },
 "C104": {
  "note": "Refuted as documented: c104_channel_refuted, c104_servers_refuted, c104_messages_refuted, c104_reply_address_refuted. Proved: the class of every such target (c104_targets_partial) and the first three rules for references in the documented form (c104_built_partial)."
 },
 "C105": {
  "note": "Proved under the stated conditions on the edited document (savable); refuted without them (c105_reload_refuted: assigning None to a field whose default is not None, saved and loaded again, gives the default). c105_schema needs only no_shadowing and the URL-oracle condition of C95."
 },
 "C106": {
  "note": "Refuted without the proviso that no member is assigned to (c106_assigned_refuted, c106_lost_refuted: a member whose string was changed is not found, and can be added twice); the property is proved for every history with the proviso."
 },
 "C107": {
  "note": "Full statement proved; c107_agreement_needed shows by two concrete documents that the agreement on shared keys cannot be dropped. c107_document has the side conditions of C74 (settled, no_shadowing)."
 },
 "C109": {
  "note": "`writes` (SpecWritings.v) is a relation with no function of the model in it but the class table. exclude_unset is covered by the relation only (the model does not record which fields were set): what it leaves out has its default value unless an omitted field was filled in by a validator. exclude_none: trusted reading of pydantic, declared fields and extra entries, not entries of plain dicts or patterned maps."
 },
 "C110": {
  "note": "`merged_documents` (SpecMergeData.v) is a relation on plain data; the library has no merge function, so this is a property of loading. An entry of a map, or a section that is not a map, that both files have must be the same data."
 },
 "C111": {
  "note": "Full, for the bundled classes (a class of the user can change the document, C39 and C72). The list positions decide only which call raises first and the order of warnings (C39, C76)."
 },
 "C112": {
  "note": "c112_factoring_partial (accepted written out implies accepted with the reference) and c112_alike_partial (with C103, an equivalence), c112_repeated_partial (any number of factorings). c112_factoring_refuted: without still_leads the statement is false - a reference into the object that was written out has nothing left to navigate to. c112_ex meets every hypothesis."
 }
}