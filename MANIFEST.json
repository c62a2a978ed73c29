{
 "claims": [
  {
   "property": "C01",
   "status": "proved",
   "theorems": [
    "c01_patterned_keys",
    "c01_only_maps",
    "c01_components_maps",
    "c01_root_maps"
   ],
   "note": "Every patterned class: accepted iff all keys are accepted keys (a documented key, possibly with one trailing newline, see C47) and all values are accepted."
  },
  {
   "property": "C02",
   "status": "proved",
   "theorems": [
    "c02_extensions",
    "c02_prefix"
   ],
   "note": ""
  },
  {
   "property": "C03",
   "status": "proved",
   "theorems": [
    "c03_closed",
    "c03_no_extra",
    "c03_bindings_closed"
   ],
   "note": ""
  },
  {
   "property": "C04",
   "status": "proved",
   "theorems": [
    "c04_email",
    "c04_contact",
    "c04_shape"
   ],
   "note": ""
  },
  {
   "property": "C05",
   "status": "proved",
   "theorems": [
    "c05_version",
    "c05_document"
   ],
   "note": ""
  },
  {
   "property": "C06",
   "status": "proved",
   "theorems": [
    "c06_channel",
    "c06_channel_sound"
   ],
   "note": ""
  },
  {
   "property": "C07",
   "status": "proved",
   "theorems": [
    "c07_security",
    "c07_security_sound"
   ],
   "note": ""
  },
  {
   "property": "C08",
   "status": "proved",
   "theorems": [
    "c08_oauth",
    "c08_oauth_sound"
   ],
   "note": ""
  },
  {
   "property": "C09",
   "status": "proved",
   "theorems": [
    "c09_amqp_channel",
    "c09_amqp_channel_sound",
    "c09_ibmmq_channel",
    "c09_ibmmq_channel_sound",
    "c09_ibmmq_message",
    "c09_ibmmq_message_sound",
    "c09_kafka_server",
    "c09_kafka_server_sound",
    "c09_solace_destination",
    "c09_solace_destination_sound",
    "c09_no_other_rules"
   ],
   "note": ""
  },
  {
   "property": "C10",
   "status": "proved",
   "theorems": [
    "c10_kafka",
    "c10_amqp_expiration",
    "c10_ibmmq_expiry",
    "c10_ibmmq_heartbeat",
    "c10_ibmmq_max_msg",
    "c10_solace_priority",
    "c10_solace_client",
    "c10_nats_queue",
    "c10_amqp_exchange",
    "c10_amqp_queue",
    "c10_ibmmq_queue",
    "c10_ibmmq_topic"
   ],
   "note": ""
  },
  {
   "property": "C11",
   "status": "proved",
   "theorems": [
    "c11_example",
    "c11_example_sound",
    "c11_correlation",
    "c11_correlation_iff"
   ],
   "note": ""
  },
  {
   "property": "C12",
   "status": "proved",
   "theorems": [
    "c12_history",
    "c12_holds_functional",
    "c12_error_unchanged",
    "c12_reads_pure"
   ],
   "note": ""
  },
  {
   "property": "C13",
   "status": "partial",
   "theorems": [
    "c13_item_assignment_refuted",
    "c13_items_partial"
   ],
   "note": "REFUTED: item assignment on a patterned object is not validated; the partial theorem says operations keep a map valid when the caller stores valid keys and values."
  },
  {
   "property": "C14",
   "status": "proved",
   "theorems": [
    "c14_assignments_keep_types",
    "c14_rejected_unchanged",
    "c14_closed_unchanged",
    "c14_accepted"
   ],
   "note": "[keeps]: the configured processors leave a typed document typed (C41 shows the bundled ones change nothing). [never_shadowed] is the side condition of the property."
  },
  {
   "property": "C15",
   "status": "partial",
   "theorems": [
    "c15_failed_assignment_refuted",
    "c15_extra_refuted",
    "c15_unchanged_partial",
    "c15_failure_modes_partial"
   ],
   "note": "REFUTED: mode='after' rules run after the value has been stored, so a failed assignment can leave a Channel (etc.) breaking its rule, and an extra key that is not x-. Partial: classes without cross-field rules are left unchanged; in the nine classes with one the failure modes are characterised."
  },
  {
   "property": "C16",
   "status": "proved",
   "theorems": [
    "c16_revalidation"
   ],
   "note": "Assumes URL normalisation is idempotent (url_idem), a fact about pydantic."
  },
  {
   "property": "C17",
   "status": "partial",
   "theorems": [
    "c17_reload_exact",
    "c17_reload_iff",
    "c17_affected",
    "c17_settles",
    "c17_reload_refuted",
    "c17_reload_partial",
    "c17_json_data",
    "c17_reload_loaded_partial",
    "c17_needs_no_null_over_default",
    "c17_needs_no_shadowing",
    "c17_needs_no_ambiguity"
   ],
   "note": "Refuted as stated: an explicit null in an optional field with a non-null default (e.g. AnypointMQ destinationType, Pulsar retention time/size) is dropped and reads back as the default; a Schema {$ref, deprecated: null} reads back as a Reference; a Schema with keyword 'schema' and explicit nulls reads back as MultiFormatSchema; an extra entry spelled like a declared field can become the field. c17_reload_partial proves the round trip for every class and every instance without these (c17_needs_* show each exclusion is needed). Assumes URL normalisation is idempotent. Without the exclusion on nulls, c17_reload_exact says what loading gives: the document with each such null replaced by the default (with_defaults), so under the other exclusions the round trip is the identity if and only if there is no such null (c17_reload_iff); only three fields of the library are affected (c17_affected), and one round settles the document (c17_settles)."
  },
  {
   "property": "C18",
   "status": "proved",
   "theorems": [
    "c18_keys",
    "c18_present",
    "c18_address",
    "c18_nested",
    "c18_json",
    "c18_no_processors"
   ],
   "note": "For every object at any depth of any parsed instance whose untyped data is JSON (always the case for JSON input, c17_json_data)."
  },
  {
   "property": "C19",
   "status": "proved",
   "theorems": [
    "c19_binding_version",
    "c19_given_or_default"
   ],
   "note": "34 classes declare binding_version."
  },
  {
   "property": "C20",
   "status": "proved",
   "theorems": [
    "c20_extension_data"
   ],
   "note": "Equality of the ordered lists of undeclared entries of input and output, for every class."
  },
  {
   "property": "C21",
   "status": "proved",
   "theorems": [
    "c21_reference"
   ],
   "note": ""
  },
  {
   "property": "C22",
   "status": "proved",
   "theorems": [
    "c22_terminates",
    "c22_counts_references"
   ],
   "note": "Bound stated on the number of nested calls: number of Reference objects plus two."
  },
  {
   "property": "C23",
   "status": "proved",
   "theorems": [
    "c23_resolves_iff",
    "c23_chain_functional",
    "c23_side_condition"
   ],
   "note": "Side condition no_root_keyword; c23_side_condition shows parsed documents can only break it in free-form objects (C49). ENavigate covers all lookup errors."
  },
  {
   "property": "C24",
   "status": "proved",
   "theorems": [
    "c24_circular_iff",
    "c24_otherwise"
   ],
   "note": ""
  },
  {
   "property": "C25",
   "status": "proved",
   "theorems": [
    "c25_external",
    "c25_external_iff",
    "c25_unsupported",
    "c25_only_slashes",
    "c25_not_blamed",
    "c25_all_external",
    "c25_unsupported_rejected",
    "c25_tags_docs"
   ],
   "note": ""
  },
  {
   "property": "C26",
   "status": "proved",
   "theorems": [
    "c26_factories",
    "c26_all_factories"
   ],
   "note": "For parsed documents, no side condition on the rest of the document; names: any non-empty string without slash (accepted keys are such)."
  },
  {
   "property": "C27",
   "status": "proved",
   "theorems": [
    "c27_injective",
    "c27_hash"
   ],
   "note": ""
  },
  {
   "property": "C28",
   "status": "proved",
   "theorems": [
    "c28_accepts_iff",
    "c28_first_offender",
    "c28_reason",
    "c28_order_total"
   ],
   "note": "Side condition no_root_keyword (see C23, C49); values are trees (graphs: C43). The error kinds are the three messages of the code."
  },
  {
   "property": "C29",
   "status": "proved",
   "theorems": [
    "c29_split_join",
    "c29_injective"
   ],
   "note": ""
  },
  {
   "property": "C30",
   "status": "proved",
   "theorems": [
    "c30_matches",
    "c30_no_brackets"
   ],
   "note": "fnmatch bracket expressions are not modelled; c30_no_brackets shows the table has none."
  },
  {
   "property": "C31",
   "status": "proved",
   "theorems": [
    "c31_most_specific",
    "c31_none",
    "c31_order",
    "c31_unmatched"
   ],
   "note": "c31_most_specific and c31_none hold for any table; order independence for the validator's own table."
  },
  {
   "property": "C32",
   "status": "partial",
   "theorems": [
    "c32_agrees_refuted",
    "c32_rejects",
    "c32_agrees_partial",
    "c32_inside_trait"
   ],
   "note": "REFUTED: directly inside a trait given in place (traits[i].tags, .correlationId, .externalDocs, .security) the validator expects the trait's own type and rejects legitimate references. Partial: all other locations (354 shapes) agree; c32_inside_trait characterises the exception exactly."
  },
  {
   "property": "C33",
   "status": "partial",
   "theorems": [
    "c33_renaming_refuted",
    "c33_rejects",
    "c33_renaming_partial"
   ],
   "note": "REFUTED: a channel named 'root' is rejected. Partial: keys outside path_keywords, not ending in _bindings or .root and without [digits], can be exchanged freely."
  },
  {
   "property": "C34",
   "status": "partial",
   "theorems": [
    "c34_sound_refuted",
    "c34_sound_partial",
    "c34_no_dangling"
   ],
   "note": "REFUTED at the in-place-trait locations (an ill-typed reference is accepted). Partial: all other locations; c34_no_dangling holds everywhere."
  },
  {
   "property": "C35",
   "status": "proved",
   "theorems": [
    "c35_accepts_iff",
    "c35_warnings",
    "c35_error",
    "c35_only_locations"
   ],
   "note": "All 13 locations, any well-typed document; warnings and the reported error are characterised too. 'Acceptable' is what the code does (every occurrence of the prefix removed), related to the documented meaning in C36."
  },
  {
   "property": "C36",
   "status": "partial",
   "theorems": [
    "c36_exact",
    "c36_target_refuted",
    "c36_target_partial",
    "c36_ordinary_key"
   ],
   "note": "REFUTED: str.replace removes every occurrence of the prefix, so '#/components/tags/#/components/tags/a' is accepted. Partial: strings in which the prefix occurs once, in particular every key a map can have (c36_ordinary_key)."
  },
  {
   "property": "C37",
   "status": "proved",
   "theorems": [
    "c37_accepts_iff",
    "c37_warnings",
    "c37_error",
    "c37_parsed"
   ],
   "note": "whole: every Reference instance carries a string (holds for documents read from plain data, c37_parsed)."
  },
  {
   "property": "C38",
   "status": "partial",
   "theorems": [
    "c38_documented_refuted",
    "c38_unchecked",
    "c38_documented_partial"
   ],
   "note": "REFUTED: 7 of the 26 listed fields are never looked at (c38_unchecked gives one document with a bad reference at each of them). Partial: the other 19."
  },
  {
   "property": "C39",
   "status": "proved",
   "theorems": [
    "c39_success",
    "c39_failure",
    "c39_invalid",
    "c39_none",
    "c39_ends",
    "c39_deterministic"
   ],
   "note": "Processors are arbitrary (also nondeterministic) relations on the document and the list being iterated. well_behaved excludes editing that list in place during the loop and leaving the document ill-typed; c39_none and c39_deterministic need neither."
  },
  {
   "property": "C40",
   "status": "proved",
   "theorems": [
    "c40_metadata",
    "c40_empty",
    "c40_bad_metadata",
    "c40_keywords",
    "c40_checked",
    "c40_unchecked",
    "c40_info"
   ],
   "note": "c40_metadata/c40_empty assume idempotent URL normalisation (the metadata is validated twice) and metadata without free-form objects carrying shadowed names."
  },
  {
   "property": "C41",
   "status": "proved",
   "theorems": [
    "c41_bundled_names",
    "c41_stubs",
    "c41_unchanged",
    "c41_accepts"
   ],
   "note": "That the bundled validators do not assign to the document is part of the modelling (they are read from the source as functions of it); the theorems say what follows for constructions."
  },
  {
   "property": "C42",
   "status": "partial",
   "theorems": [
    "c42_all_checked_refuted",
    "c42_located",
    "c42_all_checked_partial"
   ],
   "note": "REFUTED: a dangling $ref kept as raw data in a Schema is accepted. Partial: every Reference object of a document read from plain data is visited."
  },
  {
   "property": "C43",
   "status": "proved",
   "theorems": [
    "c43_terminates",
    "c43_covers",
    "c43_error",
    "c43_tree"
   ],
   "note": "Object graph model: heap of nodes, identity = index."
  },
  {
   "property": "C44",
   "status": "proved",
   "theorems": [
    "c44_order",
    "c44_resolves"
   ],
   "note": "python_dicts: keys of one dict are distinct, as in Python."
  },
  {
   "property": "C45",
   "status": "proved",
   "theorems": [
    "c45_resolves",
    "c45_external",
    "c45_accepts"
   ],
   "note": "Resolution unconditional; acceptance for added entries that contain no Reference."
  },
  {
   "property": "C46",
   "status": "partial",
   "theorems": [
    "c46_revalidation_refuted",
    "c46_no_free_form_partial"
   ],
   "note": "REFUTED: Schema given both externalDocs and external_docs. Partial: values without free-form objects."
  },
  {
   "property": "C47",
   "status": "partial",
   "theorems": [
    "c47_newline_key_refuted",
    "c47_keys_partial"
   ],
   "note": "REFUTED: re.match with $ accepts one trailing newline. Partial: nothing else is accepted."
  },
  {
   "property": "C48",
   "status": "partial",
   "theorems": [
    "c48_assignment_refuted"
   ],
   "note": "REFUTED by a Schema with extra data under a field's Python name; C14 gives the strongest true version."
  },
  {
   "property": "C49",
   "status": "partial",
   "theorems": [
    "c49_walk_refuted"
   ],
   "note": "REFUTED: a Schema with extra data root: {...} hides its declared fields from references. C23 is the strongest true version."
  },
  {
   "property": "C50",
   "status": "partial",
   "theorems": [
    "c50_docstring_refuted",
    "c50_dot_rejected",
    "c50_docstring_partial"
   ],
   "note": "REFUTED: dots are rejected although three docstrings allow them. Partial: documented keys without dots are accepted."
  },
  {
   "property": "C51",
   "status": "partial",
   "theorems": [
    "c51_traits_refuted",
    "c51_traits_partial",
    "c51_none_checked"
   ],
   "note": "REFUTED: none of the five trait fields is looked at (c51_none_checked)."
  },
  {
   "property": "C52",
   "status": "proved",
   "theorems": [
    "c52_parsed_valid",
    "c52_instances_valid",
    "c52_needs_plain_data"
   ],
   "note": "Also for inputs containing instances as long as untyped places hold plain data; c52_needs_plain_data shows that condition is needed."
  },
  {
   "property": "C53",
   "status": "proved",
   "theorems": [
    "c53_key_order",
    "c53_serialised",
    "c53_checked"
   ],
   "note": ""
  },
  {
   "property": "C54",
   "status": "proved",
   "theorems": [
    "c54_spelling"
   ],
   "note": "respelled (SpecSpelling) is the reflexive-transitive closure of single changes of spelling at any depth."
  },
  {
   "property": "C55",
   "status": "partial",
   "theorems": [
    "c55_null_refuted",
    "c55_nulls_partial"
   ],
   "note": "REFUTED: {\"$ref\": ..., \"discriminator\": null} is read as a Schema where {\"$ref\": ...} is read as a Reference. Partial: nulls reachable without crossing an ambiguous alternative."
  },
  {
   "property": "C56",
   "status": "proved",
   "theorems": [
    "c56_extra_key_neutral",
    "c56_closed"
   ],
   "note": ""
  },
  {
   "property": "C57",
   "status": "partial",
   "theorems": [
    "c57_root_assignment",
    "c57_other_attribute",
    "c57_failed_refuted",
    "c57_failure_modes_partial"
   ],
   "note": "The iff is proved (c57_root_assignment). REFUTED: a refused assignment with a bad key leaves the new contents in place; c57_failure_modes_partial characterises failures."
  },
  {
   "property": "C58",
   "status": "proved",
   "theorems": [
    "c58_assignment",
    "c58_bundled"
   ],
   "note": ""
  },
  {
   "property": "C59",
   "status": "partial",
   "theorems": [
    "c59_nested_refuted",
    "c59_failed_refuted",
    "c59_direct_partial"
   ],
   "note": "REFUTED twice: objects inside the document do not re-run its validators; a refused document attribute has been stored. Partial: sequences of normal returns on the document's own attributes."
  },
  {
   "property": "C60",
   "status": "proved",
   "theorems": [
    "c60_within",
    "c60_valid",
    "c60_slashes"
   ],
   "note": ""
  },
  {
   "property": "C61",
   "status": "proved",
   "theorems": [
    "c61_defaults_valid",
    "c61_omitted"
   ],
   "note": ""
  },
  {
   "property": "C62",
   "status": "proved",
   "theorems": [
    "c62_complete",
    "c62_required",
    "c62_omitted",
    "c62_optional",
    "c62_schema_format"
   ],
   "note": "The documentation is transcribed in SpecObjects.v, independently of the class table. Divergence recorded by c62_schema_format: schemaFormat is documented REQUIRED but has a default. with_rule lists the classes with a rule across fields."
  },
  {
   "property": "C63",
   "status": "proved",
   "theorems": [
    "c63_fields",
    "c63_throughout",
    "c63_assigned",
    "c63_map_entries",
    "c63_accepts"
   ],
   "note": "c63_assigned has the side condition of C14 (free-form objects shadowing attribute names)."
  },
  {
   "property": "C64",
   "status": "proved",
   "theorems": [
    "c64_keys",
    "c64_recognised",
    "c64_python_name"
   ],
   "note": ""
  },
  {
   "property": "C65",
   "status": "partial",
   "theorems": [
    "c65_inputs_kept",
    "c65_built",
    "c65_once",
    "c65_later_changes_refuted",
    "c65_later_changes_partial"
   ],
   "note": "REFUTED in the last sentence: extra entries and Any values are shared with the caller (c65_later_changes_refuted, a Schema built from a dict with 'properties'); proved for every object outside the free-form data."
  },
  {
   "property": "C66",
   "status": "proved",
   "theorems": [
    "c66_contents",
    "c66_sharing"
   ],
   "note": ""
  },
  {
   "property": "C67",
   "status": "proved",
   "theorems": [
    "c67_object",
    "c67_elsewhere",
    "c67_processors",
    "c67_copy_stored",
    "c67_undeclared_shared",
    "c67_item_shared",
    "c67_history",
    "c67_two_documents"
   ],
   "note": "Processors are read-only here (only_reads; c67_processors: every pipeline returning its argument qualifies). Histories: values that existed before the document (or are parts of another one), targets that are not pre-existing objects reached through free-form data."
  },
  {
   "property": "C68",
   "status": "partial",
   "theorems": [
    "c68_missed",
    "c68_json_pointer_refuted",
    "c68_beyond",
    "c68_agree_partial",
    "c68_resolver_partial",
    "c68_found_partial",
    "c68_known_partial",
    "c68_factories"
   ],
   "note": "REFUTED both ways: array elements, extension data, properties of schemas and escaped tokens are not found (c68_missed); '#components/..', doubled slashes and Python field names are resolved (c68_beyond). Proved: where both find something it is the same value (c68_agree_partial, c68_resolver_partial), the reasons for a difference are exhausted by arrays / extra data / null (c68_found_partial) and Python names / unserialised fields (c68_known_partial); factory references agree without exception (c68_factories). Percent-encoding is outside the specification used."
  },
  {
   "property": "C69",
   "status": "partial",
   "theorems": [
    "c69_verdict_refuted",
    "c69_same_document_partial",
    "c69_same_run_partial",
    "c69_without_processors",
    "c69_verdicts_partial"
   ],
   "note": "REFUTED in general (c69_verdict_refuted): a schema {\"$ref\": .., \"deprecated\": null} is a Schema, accepted, and comes back as a dangling Reference. Proved under the conditions of C17 (c69_same_document_partial, c69_same_run_partial, c69_verdicts_partial); that the verdict does not depend on the processor fields is unconditional for JSON-like documents (c69_without_processors)."
  },
  {
   "property": "C70",
   "status": "proved",
   "theorems": [
    "c70_new_entry",
    "c70_blame",
    "c70_removed",
    "c70_unused"
   ],
   "note": "Side condition: no free-form entry called root holding a mapping (C49)."
  },
  {
   "property": "C71",
   "status": "partial",
   "theorems": [
    "c71_tags_partial",
    "c71_docs_partial",
    "c71_subsumed_refuted",
    "c71_resolves_partial",
    "c71_sound_refuted"
   ],
   "note": "Refuted in general both ways: '#/components//tags/t' and '#/components/schemas/x/externalDocs' pass the unified validator only (c71_subsumed_refuted); a circular pair of component tags passes the tag validator (c71_sound_refuted). Proved for references written '#/components/tags/<key>' (resp. externalDocs) or leading outside (c71_tags_partial, c71_docs_partial), and an accepted reference naming an entry given in place resolves to that entry (c71_resolves_partial)."
  },
  {
   "property": "C72",
   "status": "partial",
   "theorems": [
    "c72_set_item",
    "c72_del_item",
    "c72_no_item",
    "c72_set_attribute",
    "c72_no_end",
    "c72_unconditional",
    "c72_inside_partial",
    "c72_once_partial",
    "c72_deterministic",
    "c72_measure",
    "c72_inside_ends",
    "c72_final",
    "c72_validators_after_refuted",
    "c72_half_converted_refuted"
   ],
   "note": "Partial because two natural readings fail: c72_validators_after_refuted (a converter that assigns an attribute makes the validators run before later converters) and c72_half_converted_refuted (a converter that adds an operation and then its channel is rejected by UnifiedReferencesValidator in between, though the finished document is fine). Proved: exact equivalence with the sequential pipeline for inner changes, exactly-once, termination by any measure, non-termination of unconditional assignment, determinism, final acceptance by the bundled validators."
  },
  {
   "property": "C73",
   "status": "proved",
   "theorems": [
    "c73_rewriter",
    "c73_resolves",
    "c73_accepts",
    "c73_rejects",
    "c73_ordinary_needed",
    "c73_avoids_needed"
   ],
   "note": "Full statement proved; c73_ordinary_needed and c73_avoids_needed show by counterexample documents that neither condition can be dropped (the unconditional naming claim is C33)."
  },
  {
   "property": "C74",
   "status": "proved",
   "theorems": [
    "c74_valid_unchanged",
    "c74_unchanged_iff",
    "c74_once",
    "c74_document",
    "c74_accepted_again",
    "c74_settled_needed"
   ],
   "note": "Strengthens C16 (whose objects all come from parsing) to arbitrary values; the reverse direction is by the same canonical-form analysis as C52."
  },
  {
   "property": "C75",
   "status": "proved",
   "theorems": [
    "c75_same_resolution",
    "c75_resolution_message",
    "c75_same_verdict",
    "c75_message",
    "c75_path_names_one_place",
    "c75_always_a_message"
   ],
   "note": ""
  },
  {
   "property": "C76",
   "status": "proved",
   "theorems": [
    "c76_resolution",
    "c76_warnings",
    "c76_determined",
    "c76_silent"
   ],
   "note": ""
  },
  {
   "property": "C77",
   "status": "partial",
   "theorems": [
    "c77_tags",
    "c77_docs",
    "c77_sites",
    "c77_names_refuted",
    "c77_names_partial",
    "c77_docs_names_partial",
    "c77_small_keys"
   ],
   "note": "Refuted because of str.capitalize(); proved for names without capital letters; the exact log and error texts are proved for all well-typed documents."
  },
  {
   "property": "C78",
   "status": "proved",
   "theorems": [
    "c78_silent_iff_accepted",
    "c78_exactly_the_faults"
   ],
   "note": ""
  },
  {
   "property": "C79",
   "status": "proved",
   "theorems": [
    "c79_found",
    "c79_missing"
   ],
   "note": ""
  },
  {
   "property": "C80",
   "status": "proved",
   "theorems": [
    "c80_once",
    "c80_one_cause"
   ],
   "note": ""
  },
  {
   "property": "C81",
   "status": "proved",
   "theorems": [
    "c81_field",
    "c81_independent",
    "c81_missing",
    "c81_extra",
    "c81_item",
    "c81_entry"
   ],
   "note": ""
  },
  {
   "property": "C82",
   "status": "proved",
   "theorems": [
    "c82_object",
    "c82_rules_wait",
    "c82_keys"
   ],
   "note": ""
  },
  {
   "property": "C83",
   "status": "proved",
   "theorems": [
    "c83_invalid_fields",
    "c83_processors",
    "c83_same_outcome"
   ],
   "note": ""
  },
  {
   "property": "C84",
   "status": "proved",
   "theorems": [
    "c84_returns_iff",
    "c84_bad_value",
    "c84_no_such_attribute",
    "c84_location_tells",
    "c84_map_attribute",
    "c84_map"
   ],
   "note": "Proved of all classes of the table. The processors are any function from documents to verdicts that does not write to the document."
  },
  {
   "property": "C85",
   "status": "proved",
   "theorems": [
    "c85_layout",
    "c85_input",
    "c85_same_order",
    "c85_no_trace",
    "c85_maps",
    "c85_lists"
   ],
   "note": "Order of pydantic's serialiser: trusted reading (DESIGN section 3)."
  },
  {
   "property": "C86",
   "status": "proved",
   "theorems": [
    "c86_same",
    "c86_instance",
    "c86_document",
    "c86_choice_needed"
   ],
   "note": "Parts must not carry a shadowed key (no_shadowing, only free-form objects can; see C46) and URL normalisation must be idempotent. c86_choice_needed: a Schema built from a lone $ref differs from the data."
  },
  {
   "property": "C87",
   "status": "proved",
   "theorems": [
    "c87_assigned",
    "c87_refused_value"
   ],
   "note": "Composition of C58, C75-C77, C83 and C84. Documents in which a Reference holds something other than a string (reachable only by assignment of instances) and documents using the keyword 'root' in a path are excluded by hypothesis, as in C83."
  },
  {
   "property": "C88",
   "status": "proved",
   "theorems": [
    "c88_order",
    "c88_apart",
    "c88_determined"
   ],
   "note": "The order in which pydantic visits fields, extra keys and union members is part of the trusted reading of pydantic (DESIGN.md section 3)."
  },
  {
   "property": "C89",
   "status": "partial",
   "theorems": [
    "c89_stays_valid_partial",
    "c89_any_partial",
    "c89_stays_typed",
    "c89_loaded_partial",
    "c89_nested_refuted"
   ],
   "note": "Refuted as stated: removing a URL of a flow (doc...flows.implicit.authorization_url = None) returns normally and breaks the rule of the enclosing OAuthFlows (c89_nested_refuted). Proved: without edits of OAuthFlow objects the full statement (c89_stays_valid_partial); with them, everything but that one rule (c89_any_partial). Processors that write are excluded (inert)."
  },
  {
   "property": "C90",
   "status": "proved",
   "theorems": [
    "c90_decides",
    "c90_equivalence",
    "c90_reference",
    "c90_checked",
    "c90_resolves",
    "c90_tags",
    "c90_docs",
    "c90_serialised",
    "c90_text_may_differ"
   ],
   "note": ""
  },
  {
   "property": "C91",
   "status": "proved",
   "theorems": [
    "c91_reads_exactly_json",
    "c91_unambiguous",
    "c91_plain_data",
    "c91_data_roundtrip",
    "c91_instance_roundtrip",
    "c91_writes_or_raises",
    "c91_rewritable",
    "c91_finite_needed"
   ],
   "note": "The JSON reader and writer are pydantic-core's (trusted reading in JsonText.v); floats are opaque with faithful printing as a hypothesis; the nesting limit is a parameter."
  },
  {
   "property": "C92",
   "status": "proved",
   "theorems": [
    "c92_cut_short",
    "c92_appended",
    "c92_crash_safe"
   ],
   "note": "Uses only that floats are printed as numerals."
  },
  {
   "property": "C93",
   "status": "partial",
   "theorems": [
    "c93_save_load_exact",
    "c93_save_load_partial",
    "c93_text_stable_partial",
    "c93_save_load_refuted"
   ],
   "note": "Refuted as stated, for the reasons of C17 (an explicit null over a non-null default, names shadowed by aliases, ambiguous schemas); proved under the exclusions of C17 plus: no NaN or infinity, nesting within the reader's limit. c93_save_load_exact: without the exclusion on nulls, the loaded document is the saved one with the defaults filled in."
  },
  {
   "property": "C94",
   "status": "proved",
   "theorems": [
    "c94_history",
    "c94_two_documents",
    "c94_alias",
    "c94_elsewhere",
    "c94_shared_needed"
   ],
   "note": "Values are the caller's objects or objects constructed by the step. c94_shared_needed refutes the statement for an object stored twice and then changed."
  },
  {
   "property": "C95",
   "status": "proved",
   "theorems": [
    "c95_written",
    "c95_changed",
    "c95_modes",
    "c95_required",
    "c95_url_needed"
   ],
   "note": "Assumes that a normalised URL is not empty and, for HttpUrl, not longer than the 2083 characters the schema allows (c95_url_needed)."
  },
  {
   "property": "C96",
   "status": "partial",
   "theorems": [
    "c96_accepted_partial",
    "c96_refuted",
    "c96_conversions_needed"
   ],
   "note": "As stated it is false: the library also accepts Python names (c96_refuted) and converts (c96_conversions_needed). Proved for the specification's names without conversions."
  },
  {
   "property": "C97",
   "status": "proved",
   "theorems": [
    "c97_decides",
    "c97_refused_for_a_rule",
    "c97_without_rules"
   ],
   "note": ""
  },
  {
   "property": "C98",
   "status": "proved",
   "theorems": [
    "c98_one_reading",
    "c98_some_alternative",
    "c98_instance",
    "c98_reference",
    "c98_schema",
    "c98_multi",
    "c98_multi_format"
   ],
   "note": ""
  },
  {
   "property": "C99",
   "status": "partial",
   "theorems": [
    "c99_siblings_refuted",
    "c99_refused_partial",
    "c99_schema_partial",
    "c99_unchecked"
   ],
   "note": "REFUTED: where a Schema is allowed, a $ref with siblings is read as a Schema with $ref among its free-form data, and no validator ever looks at it (c99_unchecked: a dangling one is accepted). Proved: everywhere else siblings are refused (c99_refused_partial); in schema positions the $ref is always kept as data (c99_schema_partial)."
  },
  {
   "property": "C100",
   "status": "partial",
   "theorems": [
    "c100_multi_refuted",
    "c100_multi_partial",
    "c100_sound"
   ],
   "note": "REFUTED: {schemaFormat: ...} without schema, or with a non-string format, is silently read as a Schema. Proved: well-formed ones without Schema keys are read as Multi Format Schemas (c100_multi_partial), and whatever is called one is well-formed (c100_sound)."
  },
  {
   "property": "C101",
   "status": "proved",
   "theorems": [
    "c101_no_code",
    "c101_json_is_inert",
    "c101_no_processors",
    "c101_no_calls",
    "c101_text",
    "c101_names_refused"
   ],
   "note": "Proved for every class table annotation and every processor behaviour; the example loads a document with a dangling reference unchecked."
  },
  {
   "property": "C102",
   "status": "partial",
   "theorems": [
    "c102_inlined_partial",
    "c102_inlined_refuted"
   ],
   "note": "Refuted as stated (c102_inlined_refuted): directly inside a trait given in place the validator accepts references to the trait's class. Strongest true version: every other place. Keys on the way must be ordinary (as for C32)."
  },
  {
   "property": "C103",
   "status": "partial",
   "theorems": [
    "c103_inlining_partial",
    "c103_repeated_partial",
    "c103_inlining_refuted"
   ],
   "note": "Refuted as stated (c103_inlining_refuted, a message trait whose correlationId is a reference). Proved for documents where no reference stands directly inside a trait given in place before or after, with ordinary keys in the visited mappings; c103_repeated_partial for sequences of inlinings."
  },
  {
   "property": "C104",
   "status": "partial",
   "theorems": [
    "c104_channel_refuted",
    "c104_servers_refuted",
    "c104_messages_refuted",
    "c104_reply_address_refuted",
    "c104_targets_partial",
    "c104_built_partial"
   ],
   "note": "Refuted as documented: c104_channel_refuted, c104_servers_refuted, c104_messages_refuted, c104_reply_address_refuted. Proved: the class of every such target (c104_targets_partial) and the first three rules for references in the documented form (c104_built_partial)."
  },
  {
   "property": "C105",
   "status": "partial",
   "theorems": [
    "c105_reload_partial",
    "c105_schema",
    "c105_text_partial",
    "c105_verdicts_partial",
    "c105_reload_refuted"
   ],
   "note": "Proved under the stated conditions on the edited document (savable); refuted without them (c105_reload_refuted: assigning None to a field whose default is not None, saved and loaded again, gives the default). c105_schema needs only no_shadowing and the URL-oracle condition of C95."
  },
  {
   "property": "C106",
   "status": "partial",
   "theorems": [
    "c106_strings_partial",
    "c106_assigned_refuted",
    "c106_lost_refuted"
   ],
   "note": "Refuted without the proviso that no member is assigned to (c106_assigned_refuted, c106_lost_refuted: a member whose string was changed is not found, and can be added twice); the property is proved for every history with the proviso."
  },
  {
   "property": "C107",
   "status": "proved",
   "theorems": [
    "c107_valid",
    "c107_resolves",
    "c107_accepted",
    "c107_document",
    "c107_agreement_needed"
   ],
   "note": "Full statement proved; c107_agreement_needed shows by two concrete documents that the agreement on shared keys cannot be dropped. c107_document has the side conditions of C74 (settled, no_shadowing)."
  },
  {
   "property": "C108",
   "status": "proved",
   "theorems": [
    "c108_report",
    "c108_unused",
    "c108_unmentioned",
    "c108_resolves",
    "c108_valid",
    "c108_prune"
   ],
   "note": ""
  },
  {
   "property": "C109",
   "status": "proved",
   "theorems": [
    "c109_reads",
    "c109_same",
    "c109_injective",
    "c109_options",
    "c109_dump_reads",
    "c109_default",
    "c109_null_extra_lost",
    "c109_null_required_lost",
    "c109_omitted",
    "c109_keys",
    "c109_extras",
    "c109_json",
    "c109_any_order",
    "c109_text"
   ],
   "note": "`writes` (SpecWritings.v) is a relation with no function of the model in it but the class table. exclude_unset is covered by the relation only (the model does not record which fields were set): what it leaves out has its default value unless an omitted field was filled in by a validator. exclude_none: trusted reading of pydantic, declared fields and extra entries, not entries of plain dicts or patterned maps."
  },
  {
   "property": "C110",
   "status": "proved",
   "theorems": [
    "c110_loads",
    "c110_accepted",
    "c110_references",
    "c110_names_needed",
    "c110_any_order",
    "c110_versions_needed"
   ],
   "note": "`merged_documents` (SpecMergeData.v) is a relation on plain data; the library has no merge function, so this is a property of loading. An entry of a map, or a section that is not a map, that both files have must be the same data."
  },
  {
   "property": "C111",
   "status": "proved",
   "theorems": [
    "c111_same_data",
    "c111_verdict",
    "c111_invalid",
    "c111_listing",
    "c111_stricter",
    "c111_deprecated",
    "c111_later"
   ],
   "note": "Full, for the bundled classes (a class of the user can change the document, C39 and C72). The list positions decide only which call raises first and the order of warnings (C39, C76)."
  },
  {
   "property": "C112",
   "status": "partial",
   "theorems": [
    "c112_factoring_partial",
    "c112_alike_partial",
    "c112_repeated_partial",
    "c112_factoring_refuted"
   ],
   "note": "c112_factoring_partial (accepted written out implies accepted with the reference) and c112_alike_partial (with C103, an equivalence), c112_repeated_partial (any number of factorings). c112_factoring_refuted: without still_leads the statement is false - a reference into the object that was written out has nothing left to navigate to. c112_ex meets every hypothesis."
  }
 ]
}