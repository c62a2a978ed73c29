# Formal model of insspb/asyncapi3 — design

Everything is in `rocq/theories` (logical root `Verif`), Coq 8.16.1, standard library only.
`properties.jsonl` lists the properties, `MANIFEST.json` maps them to theorems (generated by
`tools/manifest.py` from the theorem names: `c07_...` belongs to C07), `seeded/LOG.jsonl` records the
seeded-bug experiments.

## 1. What is modelled, and where

Model files (no proofs except structural induction principles):

| file | models (in /repo/asyncapi3) |
|------|------|
| `PyStr.v` | Python `str` primitives the code calls: `startswith`, `endswith`, `replace`, `split`, `strip`, slicing, `in`, `str(int)`; strings are lists of code points (`N`) |
| `Regex.v` | `re.match` / `re.search`: regex AST, inductive language semantics, derivative matcher proved equivalent, Python's `$` (one trailing newline tolerated) |
| `Value.v` | Python values: JSON-like data, model instances, patterned-root instances, processors; the oracle record `env` |
| `Types.v` | the annotation language |
| `ClassTable.v` | generated from the source text by `tools/gen_classes.py`: all 149 model classes, fields, aliases, defaults, `exclude`, `exclude_if`, `max_length`, field validators; file:line citation on each class |
| `Rules.v` | every custom validator of `models/**`: patterned keys, extension keys, e-mail, version, all `field_validator`s and all `mode="after"` validators |
| `Pydantic.v` | the part of pydantic the library relies on (validation of a value against an annotation) |
| `Classes.v`, `Linked.v` | lookup of a class by name; the table is closed and well formed (checked by computation over the finite table) |
| `State.v` | `PatternedRootModel`'s mapping protocol; attribute assignment (`validate_assignment`) on an object or on an object nested in another one |
| `Heap.v` | the same validation and assignment with object identity: lists, dicts and instances live at addresses of a memory, `Any` values are passed on, containers and instances are rebuilt (`revalidate_instances="always"`) |
| `Dump.v` | `model_dump(mode="json")` / `model_dump_json` |
| `Resolve.v` | `validators/utils.py`; the 22 `Reference` factories and `Reference.__hash__` (`models/base.py`) |
| `Unified.v` | `validators/unified_references_validator.py` including `REFERENCE_TYPE_MAPPINGS`; second model on an object heap (identity, sharing, cycles): `gcheck` |
| `Validators.v` | `validators/tags_ref_validator.py`, `validators/external_docs_ref_validator.py`: every check, in order, with warnings and errors |
| `Messages.v` | the error texts and log warnings of `validators/utils.py` and `validators/unified_references_validator.py` |
| `Texts.v` | the sentences logged and raised by the tag and external-docs validators, with `str.capitalize()` |
| `Errors.v` | the errors of a `ValidationError`: location and cause of every fault, the sentences of all field and model validators of `models/` |
| `Loading.v` | `AsyncAPI3.model_validate` as its caller sees it: errors, log lines, document |
| `Assigning.v` | `obj.name = v` as its caller sees it: the errors of a refused assignment |
| `Equality.v` | `a == b` on values and instances |
| `JsonText.v` | README.md:256-257, 282: `model_validate_json` / `model_dump_json` (JSON reader and writer of pydantic-core) |
| `Edits.v` | base_models.py:96-100 `__setitem__`, `__delitem__` with object identity; item assignment, deletion and append of dicts and lists held by fields |
| `JsonSchema.v` | `model_json_schema()` of every class; models/helpers.py:74-85 `EmailStr.__get_pydantic_json_schema__`, models/asyncapi.py:137, 146 `SkipJsonSchema` |
| `SpecUnions.v`, `ProofUnions.v`, `PropUnions.v` | C98–C100: fields with alternatives (no new model code: `TUnion` of `Pydantic.v`, `annotations` of `SpecParse.v`) |
| `SpecInert.v`, `PropInert.v` | C101: data without classes or foreign objects stays so when loaded, at every depth; no processor is listed or called |
| `SpecDeref.v`, `ProofDeref.v`, `PropDeref.v`, `PropInline.v` | C102, C103: putting the target of a reference in place of the reference; `stands` (places that allow a Reference or an object in place), `put` (replacement at a position) |
| `SpecPlacement.v`, `PropPlacement.v` | C104: the documented rules on where the references of operations, replies and channels point |
| `SpecSession.v`, `PropSession.v` | C105: sessions (load, edits, save, load again) |
| `SpecDefaults.v`, `ProofDefaults.v`, `PropDefaults.v` | C17, C93: what saving and loading does to nulls over defaults |
| `Dedup.v`, `SpecDedup.v`, `PropDedup.v` | C106: sets of References over histories of add, discard and assignment |
| `SpecMerge.v`, `PropMerge.v` | C107: combining two documents |
| `SpecPrune.v`, `PropPrune.v` | C108: removing many entries at once |
| `SpecWritings.v`, `ProofWritings.v`, `PropWritings.v` | C109: all the ways of writing a document; the options of `model_dump` |
| `SpecMergeData.v`, `PropMergeData.v` | C110: merging the data of two documents |
| `SpecSwitches.v`, `PropSwitches.v` | C111: what is listed among the bundled processors decides, not how |
| `PropItems.v` | C72, continued: what attribute and item edits inside the document do and tell the processor |
| `PropFactor.v` | C112: writing a reference instead of a repeated object (the reverse of C103) |
| `Pipeline.v` | `AsyncAPI3.run_extra_processors`, `AsyncAPI3.as_builder`, the 17 stub validators, `protocols.py` |
| `Reentry.v` | processors written with the library's operations: `run_extra_processors` run again by `validate_assignment` inside a processor |

`Spec*.v`: the vocabulary the theorems are stated in (no model helpers beyond values, the class
table and the entry points `parse`, `assign`, `dump`, `resolve`, `unified`, ...).  `Proof*.v`, `Canon.v`, `Fix.v`:
lemmas.  `Prop*.v`: the property theorems `cNN_*`, each with an `Example` showing a concrete
case that meets its hypotheses.  `Replay*.v`: the project's own tests run on the model (section 3).  `Sample.v`: a concrete environment for examples.

## 2. What is not modelled

* Debug log output.  Warnings and the text of error messages are modelled for reference resolution and the unified validator
  (`Messages.v`) and for the tag / external-docs validators (`Texts.v`; capitalize() on non-ASCII text is a parameter); and for all validators of `models/`
  (`Errors.v`).  pydantic's own error texts are not modelled, only three kinds (missing, extra_forbidden, other).
* YAML text (the library reads none); of JSON text: numbers other than integers are opaque, the bytes of the file are already decoded, `indent=` and the
  the options of `model_dump_json` other than those of C109 (`exclude_unset`, `include`/`exclude`, `round_trip`, `context`, warnings).  Annotations (title, description, default) in `model_json_schema`.
* Python's recursion limit (a very deep document raises `RecursionError`), memory, performance, threads.
* Floats other than as opaque tokens; mappings with non-string keys, bytes, dates etc. are the opaque value
  `VOpaque`, accepted only by `Any`.
* Python objects pydantic's lax mode would convert (bytes to str, tuples and sets to list, `Mapping` objects to dict, `Decimal`, ...):
  inputs are `None`, `bool`, `int`, `float`, `str`, `list`, `dict` and instances.
* The exactness tie-break of smart unions (where no `Schema` is allowed it cannot matter: `c98_one_reading`).  Only `KafkaMessageBindings.key: Schema | Reference | dict[str, Any]` (kafka.py:252) has
  members it could matter for; the model lets `Schema` win over `dict`, as the repository's own tests assert for `{type, enum}`.
  There pydantic may keep `{}` or a mapping whose `Schema` reading needs a lax conversion as a plain dict.  Between
  `MultiFormatSchema` and `Schema` a tie in the number of set fields goes to the first member.
* `fnmatch` bracket expressions (`[...]`) in path patterns; no pattern of the table has one (`c30_no_brackets`).
* `model_construct`, `model_copy`, direct writes to `__dict__`, subclasses written by users.
* Assigning an attribute whose name starts with an underscore (pydantic treats it as private).

## 3. Trusted base

* Coq's kernel (including `vm_compute`).  No axioms: `Print Assumptions` prints "Closed under the global context" for
  every `cNN_*` theorem (it is printed under the main ones during the build).  A listing of the axioms of *loaded
  libraries* (coqchk) may show `Coq.ssr.ssrunder.*` because the standard library loads it; no theorem uses it.
* The reading of the source (file and line citations on the definitions) and `tools/gen_classes.py` for the class table.
* The reading of pydantic v2 (a dependency; its source is not here):
  - a field is looked up by alias first, then by name; the keys no field consumed are extra data;
  - `model_json_schema`: one definition per class under `$defs`, properties by alias, `required` for fields without default, `additionalProperties` from `extra`, unions and Optional as `anyOf`; field and model validators leave no trace in it;
  - defaults are not validated; field validators run on supplied values only;
  - instances are revalidated from their `__dict__` updated with the extras (`revalidate_instances="always"`); an instance of another class is
    rejected (no class of the library subclasses another concrete model class);
  - smart unions: among the members that accept, the first with the largest number of set fields (nested counts added up);
  - `str` is accepted as is; lax coercions to `int`/`bool` and URL parsing are oracles (below);
  - `validate_assignment`: the field value is validated first (failure leaves the object as it was), the new field and extra
    dictionaries are then stored, and only then do the `mode="after"` validators run, so that their failure does not undo
    the change.  The instance's extras are merged into the mapping before the split into fields and extras, so an extra under a
    field's Python name overrides the field (C48);
  - errors (C78-C83, C88): declared fields are visited in class order, then forbidden keys in the order of the input, union members in the order of the annotation; all items of a list or dict and all fields and forbidden keys of a model are visited even if one fails; `mode="after"` validators of a class run only
    if its fields are fine and no key is forbidden, those of the base class first, and the first ValueError ends them; a union that rejects reports
    the errors of all members, each under a label of the member (an index in the model); a field is located by the key the input uses, a
    missing one by its alias; a ValueError raised by a validator of a class is one error at the location of the object;
  - errors of assignments (C84): the errors of the value are located under the attribute's Python name (not its alias); an attribute a closed class (or a patterned map) does not have is one error under its name; the ValueError of a `mode="after"` validator has no location and is raised after the value was stored; the errors of a value assigned to `root` have no outer location;
  - JSON text (C91-C93): the reader accepts RFC 8259 plus NaN, Infinity, -Infinity, refuses integers of more than 4300 digits and nesting beyond a limit, the last of two equal keys wins; the writer is compact, escapes
    \" \\ and control characters, writes NaN and infinities as null, raises on lone surrogates; validation of the read data is that of model_validate;
  - serialisation: declared fields in class order under their alias, without `exclude=True` and without
    `exclude_if=is_null` fields holding None; then the extras; a later duplicate key overrides; URLs become strings.
* CPython: `int(str)` fails above 4300 digits (constant in `Rules.v`); `$` in `re.match` accepts before a final newline; `for` over a
  list that is edited meanwhile (`Pipeline.loop`); a set keeps the hash each member had when it was put in, and a member is found iff that hash equals the present hash of
  the object looked for and the two are identical or equal (C106; probe order left out).
* Re-entry (`Reentry.v`, C72 only): assigning an attribute of the document runs its `mode="after"` validators, hence all processors, inside the assignment;
  Python's recursion limit is not modelled (an infinite nesting has no execution instead of a RecursionError).
* Oracles (record `env`, universally quantified in every theorem): which non-ASCII code points are `\d` (and their digit value)
  and `\w`; lax coercions to int and bool; URL parsing and normalisation.  `url_idem` (normalising a normalised URL is
  the identity) is an explicit hypothesis of the theorems that need it (C16, C17, C40, C46).

* The model against the library's own tests.  `tools/replay.py` reads `/repo/tests` as text and translates each test function
  (each parametrised instance) into a program of a small test language (`Replay.v`: build, assign, delete, dump, resolve,
  validate, assert, "raises"); the generated files `ReplayModels.v`, `ReplayComponents.v`, `ReplayBindings.v`,
  `ReplayValidators.v` (1472 tests, 2311 assertions; 21 tests are left out: JSON schema, error text, classes declared
  by the tests, a self-containing list) and `ReplaySpecs.v` (the 34 fixture documents, all to be accepted) end in
  an `Example` that no program fails on the model.  171 of them say what the exception's text contains (`match=`,
  `in str(exc)`), checked against `Errors.v`, `Messages.v`, `Texts.v`, `Loading.v` (of pydantic's own wording only three fixed beginnings), and the
  assertions about log lines against the modelled warnings; 20 assertions are dropped (class hierarchy, internal sets, TypeError texts).  This is evidence
  that the model and the reading of pydantic agree with what the authors wrote down; no property rests on it.

## 4. Properties: what is modelled and how it is proved

Refuted properties are stated in full and refuted by a witness (`..._refuted`); the strongest true version found is proved
next to it (`..._partial`, or a companion theorem).

* **C01–C03, C47, C50** (`PropParse`) — `parse` on `TRoot` / `TModel`, for every class and mapping; regexes by the matcher-correctness theorem and
  language lemmas.  C47 (newline) and C50 (dots) refuted.
* **C04, C05** — the regexes of the source against a string-level specification (iff).
* **C06–C11** — a mapping is accepted iff its fields are typed, the extra keys follow the policy, and the rule holds (iff); every accepted
  value satisfies the rule however it was built.
* **C12** (`PropState`) — refinement of the mapping protocol to histories: answers of any operation sequence are determined by the
  events; **C13** refuted, partial: operations keep validity as far as the caller stores valid items.
* **C14, C48** — invariant over sequences of assignments at any depth, with arbitrary processors; **C15** refuted; failure modes characterised.
* **C16, C46** — results of validation are canonical (`Canon.v`), canonical values are fixed points (`Fix.v`); induction on annotations.
* **C17–C20** (`PropDump`) — `dump` then `parse`; refuted in general with one witness per excluded case, proved under these exclusions.  `PropDefaults`: without the exclusion on nulls the document read back is `with_defaults` of the saved one
  (the induction of the round trip with `with_defaults v` in place of `v`; the rules relating fields are stable under filling in defaults), whence an equivalence.
* **C21** — computed over all union annotations of the table, lifted to all strings.
* **C22–C25, C49** (`PropResolve`) — fuelled resolver against an inductive chain semantics; pigeonhole on the reference strings of the document.
* **C26, C27** — string lemmas, injectivity over the 22 factories.
* **C28** (`PropUnified`) — traversal against inductive reachability; first failure in visiting order, and its reason.
* **C29–C31** — path escaping inverse, glob/`**` matching against an inductive relation, argmax of specificity, independence of table order.
* **C32–C34** — typed locations of the object model (`location`), finite enumeration of their shapes checked by `vm_compute`, lifted to all user keys by
  a symbolic-matching lemma; refuted inside in-place traits and for keyword names.
* **C42** refuted (raw data in schemas), **C43** heap model: termination and coverage, **C44, C45** permutation / extension invariance.
* **C35–C38, C51** (`PropValidators`) — each check of the two validators equals a location path (`selects`); acceptance iff, warnings, first error.
* **C39–C41** (`PropPipeline`) — processors are arbitrary relations on (document, list being iterated); the calls of a construction are
  characterised on success and on failure.  That the bundled validators do not write to the document is part of the modelling (they are
  read from the source as functions of the document).
* **C52** (`PropDeep`) — canonical values (`Canon.v`) give validity of every object `within` the result; plain data contains no instances.
* **C53** (`PropSame`) — a relation "equal up to entry order" is preserved by validation (induction on annotations), serialisation and the reference check.
* **C54–C56** (`PropSpelling`) — one change at a time at any depth (inductive `respelled`, `nulls_dropped`), congruence of validation; C55 refuted through
  the smart union `Schema | Reference`.
* **C57–C59** (`PropAssign`) — `State.assign` with the processor run of `Pipeline.v` plugged in (`runs`); C59 by an invariant (`guarded`) over sequences of
  assignments, refuted for nested and for failing ones.
* **C60** (`PropWithin`) — induction on the fuel; chain semantics does not mention empty segments.
* **C61** (`PropSpelling`) — every default of the table checked by computation, lifted to all inputs.
* **C62–C64** (`PropObjects`) — `SpecObjects.v` transcribes the documented objects (field name, key, required/default, kind of value, other keys) in its own
  vocabulary (`form`, `mode`, `policy`, camelCase function); a computed comparison with the class table is lifted to all inputs by soundness and completeness
  of `form` against the annotations.  Divergences from the documentation found while transcribing: `schemaFormat` is documented REQUIRED but has a default; AMQP `is` is
  documented with a default but required.
* **C65–C67** (`PropHeap`) — `Heap.v` against `Pydantic.v`/`State.v` through `reads` (what an object graph reads as): induction on the annotation gives
  refinement (`ProofHeap`) and ownership of fresh objects (`ProofOwn`); assignment refines `State.assign` when the value does not contain the object
  (`ProofMut`); histories keep the invariant "the document is a tree of objects used once, with protected leaves" (`ProofRun`, counting occurrences).
  C65's last sentence is refuted for free-form data.
* **C68** (`PropPointer`, `SpecPointer`) — RFC 6901 transcribed over serialised data; the resolver's walk and the pointer are compared step by step at every object
  `within` the document (typing and name/alias separation are invariants of parsed documents); refuted both ways, the exhaustive list of reasons is proved.
* **C69** (`PropReload`) — C17 gives the data back without processors; adding the two processor keys to any mapping is a lemma on `typed_fields`; the
  resolver on the document with and without processor fields agrees except at targets no location accepts (no expected type is a list).
* **C70** (`SpecEntries`, `PropEntries`) — `added_at x k t doc doc'` inserts one entry and records its printed location. Adding: references that
  resolved keep resolving (C45's simulation), so only references inside the entry are left to check; the visited references of the larger document
  split into old ones and those of the entry. Removing: the converse simulation holds for every segment other than the removed key, by induction on fuel.
* **C71** (`PropRelations`) — the verdict characterisations C35/C37 (tag and documentation validators) and C22/C31 (unified) are compared through the
  `'#/components/<field>/<key>'` factory lemma of C32; both directions are refuted without the spelling condition and proved with it.
* **C72** (`PropReentry`) — processor bodies are programs (look, act, return, raise; infinitely branching trees, so any deterministic Python function of the
  document is one); executions are a mutual inductive relation. Non-termination: induction on a supposed execution; termination: strong induction on the
  measure; equivalence with the sequential pipeline of C39 by induction on the list; the validator list is an invariant of every execution (`holds`).
* **C73** (`SpecRename`, `PropRename`) — `renamed_document f a k k' doc`: the entry `k` of the map at the end of the way `a` gets the key `k'`, and every
  Reference string is mapped by `f`, where `rewrites` says which strings `f` may change and how (`c73_rewriter`: such an `f` exists). Resolution is a
  simulation, step by step, between a walk in the document and the walk with the replaced segment in the renamed one (`stp_sim`), both ways; the traversal is a
  simulation of routes; the expected types agree by C33 because every route to a Reference is a `location` (`canon_route`, induction over the object model).
* **C74** (`SpecRevalidate`, `PropRevalidate`) — the converse of `canon_wt` (C14/C52): a well-typed value that is valid throughout is canonical, by induction on the
  type (`wt_canon`), because at every union of the object model the members reject each other's values (`tame`, computed over the class table; the one exception
  is `KafkaMessageBindings.key`); canonical values are fixed points of validation (`canon_fix`, C16). Documents: composition with C41.
* **C75**, **C76** (`Messages`, `SpecMessages`, `PropMessages`) — a second model of resolution and traversal that returns the warnings and the message
  text; it is proved to agree with `resolve`/`unified` (`c75_same_*`). The texts are specified by relations over walks and hops (`blocked`, `dead_end`,
  `first_repeated`, `complaint`), which are functional; the run is related to the sorted list of visited references (`traversal`), so that the error is that of the
  first unacceptable one and the log is the concatenation over the ones before it. One path per reference: injectivity of printed routes (C27's escaping).
  `type(obj).__name__` of a value of a non-library type is simplified (comment in `Messages.v`).
* **C77** (`Texts`, `SpecPlaces`, `ProofPlaces`, `PropPlaces`) — a table gives, for each of the 13 + 27 locations, how a place is called (text, quoted keys, indices); each
  check is shown to run through its location with these descriptions (`nfits`, the proofs of C35/C37 with contexts kept), so the run is the `report` of the `agenda`. Identification:
  sentences are token lists (text without digits and quotes, quoted key, number), which can be read back (`read_back`); that no description is a prefix of another one is computed over
  the finite table; capitalize() is undone by comparing in lower case. The refutation is a pair of documents with the same message and different culprits.
* **C78** (`Errors`, `SpecErrors`, `ProofErrors`, `PropErrors`) — `report` follows the control flow of `validate` and collects (location, cause) pairs. Specification: `leads_to` (a location
  leads to a part and its annotation), `broken` (what is wrong with a part itself), `fault` = both. By induction over types the report is empty iff `validate` succeeds and contains exactly the faults; the sentences
  of cross-field rules are compared with a table of (rule, sentence) pairs in which the first violated one counts. That every limited field has its sentence is computed over the class table.
* **C79** — induction over `leads_to`: each step is a step of `found_in`, which knows dicts, maps, instances (extras before attributes) and lists only.
* **C80** — induction over types; fields of a class answer to pairwise different keys (computed over the class table), extra keys are not claimed by fields, missing fields are absent from the input.
* **C81** — the errors below the key of a field are computed from its value and the class only (`field_errors`); independence is a corollary.
* **C82** — direct from the report: fields fine and no forbidden key leave the after validators; their order is that of the table.
* **C83** (`Loading`, `SpecLoading`, `PropLoading`) — the outcome is composed from C75-C78: `proceeds` chains the specifications of the single validators; both sides are deterministic, hence the equivalence.
  `c83_same_outcome` ties it to the pipeline model of C39/C41.
* **C84** (`Assigning`, `PropAssigning`) — same control flow as `State.assign` with errors in place of `false`; the spec reuses `fault`, `objection` of C78-C82 and adds `wrong_now` (what is said about the object as it is now); `c84_returns_iff` ties it to `State.assign`, whose second component is the object afterwards.
* **C85** (`PropLayout`) — no result of validation carries an extra entry under an alias of its class (induction on annotations), so `dict_update` in `dump` appends; `part_of` (sublist) and `precedes` are the specification.
* **C86** (`PropParts`) — inductive `passed t v w` (what may be passed where data is expected); induction on the annotation, `validate` compared field by field without its counter, revalidation (C16) for the instances.
* **C87** (`PropDocAssign`) — `assign_says` of C84 with the processors of C83 (`speaking`); the changed document is identified through C58's `replaced`, its processors through `proceeds` of C83.
* **C88** (`PropOrder`) — spec `sooner` (which part is looked at first) and `before` (locations part where one goes sooner); `ForallOrdPairs` by induction on the annotation; asymmetry of `before` gives that the ordered list of faults is unique (`c88_determined`).
* **C89** (`SpecHistory`, `PropHistory`) — histories of edits at arbitrary paths; main lemma `keep_valid`: exchanging an object for a valid one of its class keeps everything around it valid, since annotations fix only the class (`alike_typed`) and every rule relating fields but that of OAuthFlows is insensitive to what is inside a field (`cross_near`). Refuted for flows of an OAuthFlows object; partial theorems with them left out, or that rule left out.
* **C90** (`Equality`, `SpecEquality`, `ProofEquality`, `PropEquality`) — `==` as a program (dicts compared by length and lookup) against an inductive relation on values; the checks and serialisation are shown to respect the relation (as in C44/C53 but with any order of fields and numbers by value; no row of the type table expects a number). Trusted: the reading of `BaseModel.__eq__`/`RootModel.__eq__` (class, fields, extra data; no private attributes), Python's `==` of dicts, lists and numbers; `fnum` (the value of a float) is arbitrary; no NaN.
* **C91–C93** (`JsonText`, `SpecJsonText`, `ProofJsonText`, `ProofJsonRead`, `ProofJsonWrite`, `PropJsonText`) — a fuelled recursive-descent reader is sound and complete for the inductive grammar of RFC 8259
  (induction on fuel / on the grammar, fuel bounded by the length of the text); the writer's text is derived in the grammar by induction on values; a text of a mapping or list is read up to its
  end whatever follows, so no proper prefix is a text (C92).  C93 combines C91 with C17; refuted in general as C17 is.
* **C94** (`Edits`, `SpecEdits`, `ProofEdits`, `PropEdits`) — refinement: the history on the heap simulates the history on the tree, by the invariant of C66/C67 (`ProofRun.inv`) that each part made by the document has one owner; aliasing and frame by `reads` over the objects reachable.
* **C95–C97** (`JsonSchema`, `SpecJsonSchema`, `SpecSchemaRules`, `ProofJsonSchema`, `ProofSchemaRules`, `PropJsonSchema`, `PropSchemaRules`) — the schema is JSON data; JSON Schema's meaning is an inductive relation between two JSON values, independent of the library; induction over annotations with "$ref" resolved in the table; C97 adds an inductive list of rules and shows schema + rules = acceptance.  C96 refuted as stated (Python names, conversions).
* **C98–C100** every union annotation is checked by a boolean on the class table: either its members are pairwise incompatible (different kinds of values, or a
  class that is not free-form against `Reference`), whence one reading; or it is one of five lists with `Schema`, for which the scores of the members are computed.
* **C101** `inert` (no class, no foreign object anywhere) is preserved by validation against every annotation, by induction over the
  annotation; a processors field of an inert document is therefore empty, and `construct` reduces to field validation for every behaviour
  of the processor classes. For JSON texts through C91.
* **C102** `canon` (the loaded form, ProofState/Linked) is shown stable under replacing a Reference by any loaded object of a class the place
  declares (`canon_put`, induction over `stands`); the class of the target comes from C34, its loadedness from the sub-object lemma of C60.
* **C103** `reached_split` (what the traversal reaches after the replacement: the old references at the old paths, or references inside the
  inlined object), `object_placed` (the object also stands somewhere in the old document, so its inner references were judged there by the
  same declared classes, C32), and `inl` (the replacement as a relation on values, along which walks and hops are transferred). The
  target may contain the replaced reference itself.
* **C104** the four rules are written down from the field descriptions (`SpecPlacement.v`); one accepted document breaks all of them. The
  guarantee on classes is C34 at the locations of those fields; for references of the documented form the path is read off the string.
* **C105** `session` = parse of JSON data followed by a `history` (C89) of edits; `savable` collects the conditions of C17/C69/C74 on the edited document. Proved by composing C89 (the edited document is well typed and valid throughout), C74 (so validating it again is the identity), C17, C69, C91–C93 and C95. Refuted without `savable`.
* **C106** a set is a list of (hash at insertion, object) over a store of References; invariant by induction on the history from the right: the entries stand, one for one, for a duplicate-free list of strings. The hash function is arbitrary, so collisions are covered. Refuted without the proviso on assignment.
* **C107** `combined A B M` is a relation on documents written without the model's functions (dictionary union with agreement). One side is simulated by the combination (`emb`: attributes may be filled in, maps may grow), as in C45; what is inside the combination is inside one side or is a combined map or object (`combined_within`), which gives validity, C28's check, the locations of C35/C37, and the conditions of C74.
* **C108** `pruned K` is an inductive relation: equal but for entries of patterned maps, at any depth, with keys in `K`. One step of resolution in the smaller document is simulated by the larger one; backwards it is too unless the key is in `K` (`pr_up`), so a failure is a place that is gone (`cut_off`). Validity by the induction of C89 on types; `c108_prune` shows that a recursive removal by key is such a relation.
* **C109** `writes` is an inductive relation (which fields are left out, under which of its names each other is written). Read back by the
  induction of C17 on types, with a lemma on reading an object from any of its writings (`vfields_own`); the member of a union is recovered
  because what is written carries the required keys. `dump_with` models `model_dump` with its options and is shown to be such a writing; `exclude_unset`
  is covered by the relation only. Trusted: `exclude_none` drops declared fields and extra entries, `exclude_defaults` declared fields equal to their default.
* **C110** `merged_documents` is a relation on plain data with one construction (`joined`: dictionaries merged key by key) used at three levels. A model is loaded
  field by field (`merged_fields`): present on one side, taken over; on both, the statement for the field's own type; extra data and map entries by union. Which
  fields are maps is decided over the class table. The consequences come from C107, C52 and C53. Two counterexamples show the provisos needed.
* **C111** `switched data conv vals` is the data with the two lists appended; `silent` says the data itself has neither key. `c111_same_data` is an equivalence between the
  two parses (dropping and adding the two fields, on the machinery of C69); the verdict then follows from `c41_unchanged` and from the bundled validators not seeing the two
  fields (`c69_without_processors`), and the listing theorems only compare which of the three working classes are listed. Not covered: user classes (C39, C72 treat them), and the
  order of warnings, which does depend on the lists.
* **C112** The document with the reference is `doc`, the one with the object written out `put pos o doc` (the `put` of C102 and C103). `still_leads` says that where a reference
  of `doc` leads to something in the written-out document it leads to something in `doc`. Chains are carried back hop by hop; every other reference is reached at the same path in both
  documents (`reached_beside`). `c112_alike_partial` combines it with C103; `c112_factoring_refuted` is a reference navigating into the written-out object.
