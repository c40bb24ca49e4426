{"id": "C01", "title": "SAID determinism of bundle generation", "statement": "Generating a bundle from the same OCABox content always serialises to the same JSON and hence the same bundle, capture base and overlay SAIDs, whatever iteration order the hash maps inside the box happen to have. The only exception is a box in which one frame id carries conflicting frame metadata: there the SAID really does depend on hash order.", "quantifier": "all box contents, all pairs of hash-map iteration orders for every map in the box", "why_tests_cant": "HashMap order is randomised per process; a test sees one or two of the n! orders and passes by luck", "anchors": ["semantics/oca-bundle/src/state/oca.rs: OCABox::generate_bundle, generate_overlays, generate_capture_base, serialize_overlays", "semantics/oca-bundle/src/state/oca/capture_base.rs: serialize_attributes, serialize_flagged_attributes", "semantics/oca-bundle/src/state/oca/overlay/attribute_framing.rs: add"]}
{"id": "C02", "title": "Generated overlays are exactly the attribute data", "statement": "A generated bundle has at most one overlay per (overlay type, language / link target / frame id); such an overlay exists exactly when some attribute (or the meta map) carries data for it, and it maps an attribute name to a value exactly when that attribute carries that value. The capture base lists exactly the box's attributes with their types, the classification and the flagged names.", "quantifier": "all boxes reachable through the OCABox API, all iteration orders", "why_tests_cant": "combinations of attributes x overlay kinds x languages are unbounded", "anchors": ["semantics/oca-bundle/src/state/oca.rs: generate_overlays, generate_capture_base", "semantics/oca-bundle/src/state/oca/overlay.rs: overlay! macro", "semantics/oca-bundle/src/state/oca/overlay/*.rs: add"]}
{"id": "C03", "title": "Generated bundles verify", "statement": "Every bundle produced by generate_bundle passes the SAID and capture-base checks of the bundle validator: bundle SAID, capture base SAID and every overlay SAID recompute to themselves and every overlay points at the capture base SAID. With no enforced translations the validator's verdict is exactly the verdict of the condition checks.", "quantifier": "all boxes, iteration orders and digest functions", "why_tests_cant": "must hold for every content a user can put in a bundle", "anchors": ["semantics/oca-bundle/src/state/oca.rs: generate_bundle, fill_said", "semantics/oca-bundle/src/state/oca/overlay.rs: sign", "semantics/oca-bundle/src/state/validator.rs: Validator::validate"]}
{"id": "C04", "title": "Tamper evidence", "statement": "If the validator accepts two bundles carrying the same bundle SAID then they serialise to the same content (capture base attributes, classification, flags, every overlay), unless two different serialisations collide under the digest. Likewise for capture bases and overlays.", "quantifier": "all pairs of bundles accepted by the validator", "why_tests_cant": "the adversary picks the tampered content; tests only try a few edits", "anchors": ["semantics/oca-bundle/src/state/validator.rs: Validator::validate", "semantics/oca-bundle/src/state/oca.rs: OCABundle::fill_said", "semantics/oca-bundle/src/state/oca/capture_base.rs: sign"]}
{"id": "C05", "title": "Bundle to box to bundle round trip", "statement": "Converting a generated bundle back into an editable box and generating again never panics and yields the same serialised bundle and SAIDs, provided the box holds no attribute mappings and no category labels (which the conversion silently drops).", "quantifier": "all boxes reachable through the API, all iteration orders of both generations", "why_tests_cant": "needs every overlay kind, language set and flag combination", "anchors": ["semantics/oca-bundle/src/state/oca.rs: From<OCABundle> for OCABox, generate_bundle"]}
{"id": "C06", "title": "Bundle JSON round trip", "statement": "Serialising a generated bundle to JSON and deserialising it gives a bundle with the same capture base, the same SAIDs and the same overlays up to order, provided no meta key collides with a reserved overlay field name.", "quantifier": "all generated bundles", "why_tests_cant": "unbounded nesting, key names and entry-code shapes", "anchors": ["semantics/oca-bundle/src/state/oca.rs: serialize_overlays, deserialize_overlays, Deserialize for DynOverlay", "semantics/oca-bundle/src/controller.rs: load_oca"]}
{"id": "C07", "title": "Bundle to AST to bundle", "statement": "Turning a bundle into an AST and building that AST from scratch reproduces the same SAID for bundles without links, framings, flagged attributes, category labels and mappings, whose languages have a two-letter code. Links, framings and flags are lost by the conversion.", "quantifier": "all such bundles, iteration orders", "why_tests_cant": "unbounded bundles; the loss cases need specific overlay kinds", "anchors": ["semantics/oca-bundle/src/state/oca.rs: OCABundle::to_ast", "semantics/oca-bundle/src/build.rs: from_ast, apply_command"]}
{"id": "C08", "title": "Condition encoding is lossless", "statement": "Storing a condition replaces every ${name} by ${i} and collects a duplicate-free dependency list; every index is in range, the dependency list holds exactly the names used, and substituting the dependencies back restores the original condition text, for every text including unbalanced or nested braces.", "quantifier": "all condition strings", "why_tests_cant": "strings are unbounded and regex edge cases ($${, ${${, unclosed) are exactly what tests omit", "anchors": ["semantics/oca-bundle/src/state/oca/overlay/conditional.rs: set_condition", "semantics/oca-bundle/src/state/oca.rs: From<OCABundle>, to_ast"]}
{"id": "C09", "title": "Condition checking", "statement": "Checking an attribute's condition reports an error for self-dependency and one for each dependency without a value, never panics for a condition installed through the API, and otherwise evaluates exactly the original condition with each ${name} replaced by the value's text.", "quantifier": "all attributes, conditions and value maps, any evaluator", "why_tests_cant": "quantifies over all conditions and dependency maps", "anchors": ["semantics/oca-bundle/src/state/oca/overlay/conditional.rs: check_condition"]}
{"id": "C10", "title": "Attribute merge law", "statement": "Merging an attribute into an existing one of the same name keeps every fact of the newer attribute and every fact of the older that the newer does not mention, per field and per language; the documented rule 'new value overwrites' fails for unit and entry codes, where the older value is kept, and for the flag; links and framings are replaced as whole tables. Merging an attribute with itself changes nothing, merge is associative, and it panics exactly for different names.", "quantifier": "all pairs and triples of attributes", "why_tests_cant": "22 optional fields and unbounded language maps", "anchors": ["semantics/oca-bundle/src/state/attribute.rs: Attribute::merge", "semantics/oca-bundle/src/state/oca.rs: add_attribute"]}
{"id": "C11", "title": "Attribute set semantics of a build", "statement": "After any sequence of commands that builds without error, the capture base's attribute names and types are exactly those obtained by replaying ADD ATTRIBUTE (last type wins) and REMOVE ATTRIBUTE in order; overlay commands never add, drop or retype an attribute.", "quantifier": "all command sequences, all starting boxes", "why_tests_cant": "histories are unbounded", "anchors": ["semantics/oca-bundle/src/build.rs: apply_command, from_ast", "semantics/oca-bundle/src/state/oca.rs: add_attribute, remove_attribute"]}
{"id": "C12", "title": "Build error reporting and atomicity", "statement": "A build returns errors exactly when some command is rejected; a rejected command leaves the working state as it was, later commands are still checked against that state, every error carries the line recorded for its command, and nothing of the build is returned.", "quantifier": "all ASTs and base bundles", "why_tests_cant": "positions and number of failing commands are unbounded", "anchors": ["semantics/oca-bundle/src/build.rs: from_ast, apply_command"]}
{"id": "C13", "title": "Build step chain", "statement": "A successful build yields one step per command, in order; each step's parent SAID is the SAID of the previous step's bundle (the base bundle's SAID or none for the first), each step's bundle is the bundle of the command prefix, and the last step's bundle has the SAID of the result.", "quantifier": "all ASTs, base bundles, iteration orders", "why_tests_cant": "sequence length unbounded", "anchors": ["semantics/oca-bundle/src/build.rs: from_ast, OCABuildStep"]}
{"id": "C14", "title": "Removal leaves no trace", "statement": "After REMOVE ATTRIBUTE a no overlay of the generated bundle mentions a as a key, the capture base no longer lists or flags it, all other attributes are untouched, and adding a again starts from a fresh attribute. A condition of another attribute may keep naming a as a dependency.", "quantifier": "all boxes, all removed names", "why_tests_cant": "any prior history of the attribute", "anchors": ["semantics/oca-bundle/src/build.rs: apply_command", "semantics/oca-bundle/src/state/oca.rs: remove_attribute"]}
{"id": "C15", "title": "Incremental AST validation", "statement": "For an AST assembled by validating each command against the AST so far, every ADD names only attributes absent at that point and every REMOVE names only attributes and properties present at that point, and conversely a command breaking this is rejected; commands of other kinds are always accepted; any version other than 1.0.0 is rejected.", "quantifier": "all command sequences", "why_tests_cant": "histories unbounded", "anchors": ["semantics/oca-ast/src/validator.rs: OCAValidator::validate, rule_add_attr_if_not_exist, rule_remove_attr_if_exist, extract_attributes, extract_properties"]}
{"id": "C16", "title": "Overlay command effect and frame", "statement": "An ADD overlay command that succeeds sets exactly the named value for exactly the named attributes (and language); every other attribute, overlay kind and language is unchanged. It is rejected when it names an attribute that is not in the capture base. Re-adding overwrites, except UNIT and ENTRY_CODE where the first value is silently kept.", "quantifier": "all boxes and overlay commands", "why_tests_cant": "unbounded contents and histories", "anchors": ["semantics/oca-bundle/src/build.rs: apply_command", "semantics/oca-bundle/src/state/attribute.rs: merge"]}
{"id": "C17", "title": "Overlay type text codec", "statement": "The serialised form of an overlay type parses back to the same type and version whenever the version is digits.digits, is rejected otherwise, and two distinct types never share a text.", "quantifier": "all 21 overlay types, all version strings", "why_tests_cant": "version strings are unbounded", "anchors": ["semantics/oca-ast/src/ast/mod.rs: Serialize/Deserialize for OverlayType"]}
{"id": "C18", "title": "Object kind byte codec", "statement": "The byte of an object kind decodes to an object of the same kind; every byte 0..22 decodes to a kind whose byte is the same; no other byte decodes.", "quantifier": "all object kinds and bytes", "why_tests_cant": "content of kinds is unbounded", "anchors": ["semantics/oca-ast/src/ast/mod.rs: From<u8> for ObjectKind, From<ObjectKind> for u8"]}
{"id": "C19", "title": "Command JSON codec", "statement": "A command serialised to JSON deserialises to the same command, provided overlay versions are 1.1, the overlay is not an attribute mapping and no plain string value looks like a reference; outside these conditions the round trip fails.", "quantifier": "all commands (unbounded nested values)", "why_tests_cant": "recursive values and arbitrary strings", "anchors": ["semantics/oca-ast/src/ast/mod.rs: Serialize for ObjectKind, Deserialize for Command, NestedValue, RefValue"]}
{"id": "C20", "title": "Attribute type and reference codecs", "statement": "Every nested attribute type (any array depth, references by SAID or name, null) survives JSON serialisation and deserialisation, and every reference survives its text form; a decoded text is the text of its value.", "quantifier": "all nested attribute types and references", "why_tests_cant": "array depth and names unbounded", "anchors": ["semantics/oca-ast/src/ast/attributes.rs", "semantics/oca-ast/src/ast/mod.rs: RefValue FromStr/Display/Serialize/Deserialize"]}
{"id": "C21", "title": "Relationship record codec", "statement": "The stored relationship list of an object decodes to the list that was stored, for any number of objects with SAIDs of at most 255 bytes; storing a longer SAID fails instead of corrupting the record. Adding a relation keeps all earlier ones.", "quantifier": "all relationship lists", "why_tests_cant": "unbounded lists of variable length records", "anchors": ["oca/src/facade/explore.rs: Relationship, add_relations, explore"]}
{"id": "C22", "title": "History replay", "statement": "After building an AST the stored history of the resulting bundle returns exactly the build's steps, oldest first, with their commands and bundles, continuing into the stored history of the base, provided the SAIDs along the history are pairwise distinct. A command that leaves the bundle unchanged, or returns it to an earlier state, makes the history unreadable.", "quantifier": "all builds on all consistent stores; attribute types within the nesting limit of JSON texts (see C56)", "why_tests_cant": "histories unbounded; the failures need particular command sequences", "anchors": ["oca/src/facade/build.rs: build_step", "oca/src/facade/fetch.rs: get_oca_bundle_steps", "semantics/oca-bundle/src/build.rs: from_ast"]}
{"id": "C23", "title": "Build then fetch", "statement": "After a successful build, fetching any of the SAIDs produced by its steps returns the bundle built at that step, and bundles stored earlier under other SAIDs are unchanged; fetching an unknown SAID is an error.", "quantifier": "all stores, builds and SAIDs; attribute types within the nesting limit of JSON texts (see C56)", "why_tests_cant": "unbounded histories of builds", "anchors": ["oca/src/facade/build.rs: build, build_step", "oca/src/facade/fetch.rs: get_oca_bundle"]}
{"id": "C24", "title": "Dependency closure on fetch", "statement": "Fetching a bundle with dependencies returns the bundle and exactly the bundles reachable through references by SAID in attribute types (directly or as an array element), each present in the store, and fails if any of them is missing; without dependencies it returns only the bundle. On a store whose references form no cycle it terminates.", "quantifier": "all acyclic stores and SAIDs", "why_tests_cant": "reference graphs are unbounded", "anchors": ["oca/src/facade/fetch.rs: get_oca_bundle, retrive_all_references"]}
{"id": "C25", "title": "Local reference resolution", "statement": "Resolving names replaces every named reference in added attribute types (directly or as array element) and link targets by the SAID registered for the name, changes nothing else, and fails when a name is unknown. Named references nested two arrays deep are left unresolved.", "quantifier": "all ASTs and reference tables", "why_tests_cant": "unbounded ASTs", "anchors": ["oca/src/local_references.rs: replace_refn_with_refs", "oca/src/facade/build.rs: oca_ast_to_oca_build_with_references"]}
{"id": "C26", "title": "FROM resolution", "statement": "An OCAfile starting with FROM builds on the stored base bundle: the result and its SAID are those of building the base's commands and then the rest, for any base a history of builds has left, also one that itself was built FROM a base. Commands after the first position that are FROM are rejected. When the base is unknown the error is dropped and the rest is built from scratch: the user is not told (refuted expectation: that an unknown base is reported).", "quantifier": "all OCAfile ASTs, stores and histories of builds; attribute types within the nesting limit of JSON texts (see C56)", "why_tests_cant": "depends on store contents", "anchors": ["oca/src/facade/build.rs: parse_and_check_base"]}
{"id": "C27", "title": "Key-value storage contract", "statement": "The in-memory store is a map per namespace: a read returns the last value written under that namespace and key, writes to other keys or namespaces do not affect it, and listing a namespace returns exactly its current pairs; namespaces have distinct names.", "quantifier": "all operation sequences", "why_tests_cant": "histories unbounded", "anchors": ["oca/src/data_storage.rs: DataStorage, InMemoryDataStorage, Namespace"]}
{"id": "C28", "title": "Pagination", "statement": "Walking pages 1,2,3,... with any positive limit visits every stored record exactly once in order and then only empty pages; the reported total is the number of records.", "quantifier": "all record lists, limits and pages", "why_tests_cant": "sizes unbounded, boundaries at every multiple", "anchors": ["oca/src/facade/fetch.rs: fetch_all_oca_bundle, fetch_all_capture_base", "oca/src/repositories/oca_bundle_cache_repo.rs", "oca/src/repositories/capture_base_cache_repo.rs"]}
{"id": "C29", "title": "Cache insert idempotence", "statement": "Inserting a record whose SAID is already cached leaves the cache unchanged; otherwise it adds exactly that record; no SAID is ever cached twice and cached data never changes.", "quantifier": "all insert sequences", "why_tests_cant": "histories unbounded", "anchors": ["oca/src/repositories/oca_bundle_cache_repo.rs: insert", "oca/src/repositories/capture_base_cache_repo.rs: insert", "oca/src/facade/build.rs: build_cache"]}
{"id": "C30", "title": "Version DAG of a build", "statement": "The core model of a build holds for each step one bundle node recording the step's bundle SAID, capture base and overlays, whose parent is the previous step's bundle; a capture base command adds a capture base node whose parent is the capture base of the latest earlier capture base command; an overlay command adds a node for the first overlay of the step's bundle with the command's type and language, whose parent is the latest earlier node of that kind and language. (The base of a FROM build is not recorded as a parent, and links to different targets share one line.)", "quantifier": "all step sequences", "why_tests_cant": "sequence length and interleaving unbounded", "anchors": ["semantics/oca-dag/src/lib.rs: build_core_db_model, apply_step"]}
{"id": "C31", "title": "Version graph storage", "statement": "In the version graph, reading parents and children returns what was added: a child appears among the children of its parent in insertion order and the parent is recorded for the child; the length-prefixed encoding decodes uniquely; a parent edge with a name over 255 bytes is refused.", "quantifier": "all add sequences and name lists", "why_tests_cant": "sequences unbounded", "anchors": ["semantics/oca-dag/src/versioning/mod.rs: Graph"]}
{"id": "C32", "title": "Versioned OCAfile build", "statement": "Building an OCAfile without FROM into the version store succeeds exactly when there are commands, none panics and each command's text is at most 255 bytes; it then records one operation per command, linked to its parent, leaves other keys alone and gives the bundle of the ordinary build when that succeeds. FROM with a stored SAID resumes the stored build. A command that fails to apply is never reported and discards the state built so far: the commands after it are applied to an empty box (refuted expectation: that it keeps the state).", "quantifier": "all command sequences; attribute types within the nesting limit of JSON texts (see C56)", "why_tests_cant": "histories unbounded", "anchors": ["semantics/oca-dag/src/versioning/ocafile.rs: build_oca"]}
{"id": "C33", "title": "Enforced translations", "statement": "With enforced languages the validator accepts a bundle only if, for meta, label, information and entry overlays present in it, the overlay languages are exactly the enforced ones and each attribute (or meta key) translated in one language is translated in all; and conversely such a bundle raises no translation error. It reports exactly the missing and unexpected languages and attributes.", "quantifier": "all bundles and language sets", "why_tests_cant": "unbounded bundles and language sets", "anchors": ["semantics/oca-bundle/src/state/validator.rs: validate_meta, validate_translations"]}
{"id": "C34", "title": "Transformation build", "statement": "Building a transformation AST yields exactly the last rename/link per source attribute in order of first appearance, with source and target taken from the metadata stripped of the reference tag; with metadata present but source or target missing the build aborts.", "quantifier": "all transformation ASTs", "why_tests_cant": "sequences unbounded", "anchors": ["transformation/transformation-file/src/build.rs: from_ast, apply_command", "transformation/transformation-file/src/state/mod.rs"]}
{"id": "C35", "title": "Precompiler dispatch and bundle collection", "statement": "An OCAfile is parsed as semantics unless its metadata names the transformation precompiler; any other precompiler is an error. A facade bundle keeps the last structural part and all transformations in order.", "quantifier": "all metadata maps and element sequences", "why_tests_cant": "unbounded sequences", "anchors": ["oca-file/src/ocafile/mod.rs: parse_from_string", "oca/src/facade/bundle.rs: Bundle::add"]}
{"id": "C36", "title": "Attribute type text round trip", "statement": "The OCAfile text of any attribute type made of base types, SAID references and arrays of any depth parses back to the same type.", "quantifier": "all such nested types", "why_tests_cant": "nesting depth unbounded", "anchors": ["semantics/oca-file/src/ocafile/mod.rs: oca_file_format", "semantics/oca-file/src/ocafile/instructions/helpers.rs: extract_attribute_type", "semantics/oca-file/src/ocafile.pest"]}
{"id": "C37", "title": "Incremental build equals build from scratch", "statement": "Building commands c1 and then building c2 FROM the resulting bundle has the same outcome as building c1 followed by c2 at once: same JSON and SAID, or the same error messages, or a panic in both cases. Provided ATTRIBUTE_FRAMING commands for the same frame id carry the same further properties (otherwise frame metadata depends on iteration order, see C01).", "quantifier": "all pairs of command lists, iteration orders", "why_tests_cant": "two unbounded histories", "anchors": ["semantics/oca-bundle/src/build.rs: from_ast", "semantics/oca-bundle/src/state/oca.rs: From<OCABundle>"]}
{"id": "C38", "title": "No panic on supported commands", "statement": "Applying a command panics exactly for the unsupported kinds (MODIFY, REMOVE overlay, ADD/REMOVE bundle) and for overlay values needing a missing or unknown language, link target or frame id; every other command returns a result or an error.", "quantifier": "all boxes and commands", "why_tests_cant": "all inputs", "anchors": ["semantics/oca-bundle/src/build.rs: apply_command"]}
{"id": "C39", "title": "Classification and flags", "statement": "The capture base classification after a build is the value of the last classification property added since it was last removed (or the base bundle's, if no command touches it), and empty otherwise; attribute commands do not touch it. An attribute is flagged in the result exactly when it is flagged in the base bundle and no command removed it: the flagged attributes named by ADD are ignored.", "quantifier": "all command sequences", "why_tests_cant": "histories unbounded", "anchors": ["semantics/oca-bundle/src/build.rs: apply_command", "semantics/oca-bundle/src/state/oca.rs: add_classification, remove_classification"]}
{"id": "C40", "title": "Operation record codec", "statement": "The stored operation record decodes to the parent SAID (or none) and the command that was written, for every parent SAID up to 255 bytes.", "quantifier": "all parents and commands; attribute types within the nesting limit of JSON texts (see C56)", "why_tests_cant": "unbounded contents", "anchors": ["oca/src/facade/build.rs: build_step", "oca/src/facade/fetch.rs: get_oca_bundle_steps"]}
{"id": "C41", "title": "Generated OCAfiles parse back", "statement": "For every AST whose commands are of the kinds the OCAfile syntax can express (names and values within the alphabet), generate_from_ast gives a text that parse_from_string accepts, to the same commands (overlay version 1.1, removed attributes without their types, META properties rotated), hence building both gives the same bundle SAID. ATTR_FRAMING commands, written over several lines, come back with the names inside the braces in lower case; when they already are, the build is the same.", "quantifier": "all lists of printable commands, all names, values, types", "why_tests_cant": "unbounded files, names, values and nesting", "anchors": ["semantics/oca-file/src/ocafile/mod.rs: generate_from_ast, parse_from_string, oca_file_format", "semantics/oca-file/src/ocafile.pest", "semantics/oca-file/src/ocafile/instructions"]}
{"id": "C42", "title": "OCAfile layout", "statement": "An OCAfile laid out in lines - commands, comments, blank lines, metadata lines in any number and order - parses to its commands in order (each validated against those before it), its metadata (last value of a key), and the line number and raw text of each command; comments and blank lines do not change the commands.", "quantifier": "all files made of such lines", "why_tests_cant": "unbounded files and interleavings", "anchors": ["semantics/oca-file/src/ocafile/mod.rs: parse_from_string", "semantics/oca-file/src/ocafile.pest: file, line, comment, empty_line, meta_comment"]}
{"id": "C44", "title": "Stopping and repeating a build", "statement": "If a facade build is stopped after any of its writes, every bundle stored before reads back as before (or as the new version of the step that replaces it), histories no step replaces are unchanged, and running the same build again - after any number of stopped attempts - gives the same bundle and the same store as an undisturbed run (relations up to listing order). Not kept: the listing and the name can show a bundle that is not stored yet, a history record can precede its bundle, and a file that mentions its own name gives another bundle.", "quantifier": "all bundles and steps, all stores, all crash points, any number of interrupted attempts; attribute types within the nesting limit of JSON texts (see C56)", "why_tests_cant": "every crash point of every build, repeated any number of times", "anchors": ["oca/src/facade/build.rs: build, build_from_ocafile, build_meta, build_models", "oca/src/repositories", "oca/src/facade/explore.rs"]}
{"id": "C43", "title": "Objects, listings and search after a history of builds", "statement": "After any number of facade builds: asking for the SAID of any object (bundle, capture base, overlay) of a built bundle gives that object and no other; asking for a SAID never written is an error naming it; paging through all bundles (or capture bases) gives every built bundle (capture base) exactly once, with the stored content and the true total; every search hit is a built bundle whose metadata in that language the hit quotes, and a bundle with metadata is indexed under it. Not kept: objects that belong only to an intermediate step are stored but asking for them panics.", "quantifier": "all histories of builds whose SAIDs identify their content, all page sizes, all requests, all search engines that return rows of the index; attribute types within the nesting limit of JSON texts (see C56)", "why_tests_cant": "histories, page sizes and requests are unbounded; the search engine and the hash-set order are arbitrary", "anchors": ["oca/src/facade/fetch.rs: get_oca_objects, fetch_all_oca_bundle, fetch_all_capture_base, search_oca_bundle", "oca/src/facade/build.rs: build, build_meta", "oca/src/repositories/oca_bundle_fts_repo.rs", "oca/src/repositories/oca_bundle_cache_repo.rs", "oca/src/repositories/capture_base_cache_repo.rs"]}
{"id": "C45", "title": "The stored version graph", "statement": "After a build, the graph record stored under a name is the last one the version graph of the build gives it and every other record is as before; records of different contents differ; the record of a step's bundle holds the SAID of the step before it as parent (empty for the first), the SAID of its capture base and the SAIDs of its overlays in order, unless a later step has an object with the same SAID.", "quantifier": "all bundles, steps and stores", "why_tests_cant": "unbounded chains of steps and earlier stores", "anchors": ["oca/src/facade/build.rs: build_models", "semantics/oca-dag/src/lib.rs", "semantics/oca-dag/src/versioning"]}
{"id": "C46", "title": "A validated build can always be carried out", "statement": "After any sequence of file validations and builds on one facade, building a file ends exactly as validating it does: with the same errors, and otherwise the build stores everything and returns the validated bundle; no storing step fails or panics, as long as the digest does not collide on the objects of the built bundles.", "quantifier": "all OCAfile ASTs, all histories of validations and builds, all overlay orders and digests without collision", "why_tests_cant": "unbounded histories of builds sharing one store; each step writes records that later ones read back", "anchors": ["oca/src/facade/build.rs: build_from_ocafile, validate_ocafile, build, build_step, build_meta, build_models", "oca/src/facade/explore.rs: add_relations"]}
{"id": "C47", "title": "Exported OCAfiles build the same bundle", "statement": "What the facade exports for a SAID, from its recorded history or from the bundle itself, builds that bundle again: after any sequence of validations and builds, the history returned for a SAID, replayed from scratch on any facade and with any iteration order, gives a bundle with that SAID and the stored JSON; the exported OCAfile text is accepted by the parser exactly when the recorded commands can stand one after the other in one file, and then validates to that bundle.", "quantifier": "all sequences of validations and builds, all SAIDs, all iteration orders of hash maps, all bundles built through the API whose texts can be written in an OCAfile; attribute types within the nesting limit of JSON texts (see C56)", "why_tests_cant": "unbounded histories across files that build on one another, all command lists, all iteration orders", "anchors": ["oca/src/facade/fetch.rs: get_oca_bundle_ocafile, get_oca_bundle_steps, get_oca_bundle_ast, parse_oca_bundle_to_ocafile", "semantics/oca-file/src/ocafile/mod.rs: generate_from_ast, parse_from_string", "semantics/oca-bundle/src/state/oca.rs: to_ast", "semantics/oca-bundle/src/build.rs: from_ast"]}
{"id": "C48", "title": "Reading any text", "statement": "Reading a text as an OCAfile always ends with an AST or an error, never with a panic unless the text has a backslash between braces. Every command of a text that was read has one of a fixed list of forms: names made of name characters, no repeated keys, values of the kind the command allows, SAIDs that are well formed, a language on every command that needs one; metadata keys are name, version or precompiler with non-empty values. Building or validating what was read ends with a bundle or a list of errors unless the file has no commands or contains one of the listed aborting commands (removal from an overlay, unknown language code, link without target, frame without id).", "quantifier": "all texts, all sets of wide characters, all SAID parsers, all language tables, all iteration orders, all bases and facades", "why_tests_cant": "the set of texts is infinite and the claim is about every path of the grammar and of the conversion; fuzzing samples a few", "anchors": ["semantics/oca-file/src/ocafile/mod.rs: parse_from_string", "semantics/oca-file/src/ocafile.pest", "semantics/oca-file/src/ocafile/instructions/helpers.rs", "semantics/oca-file/src/ocafile/instructions/add.rs", "semantics/oca-file/src/ocafile/instructions/remove.rs", "semantics/oca-file/src/ocafile/instructions/from.rs", "semantics/oca-bundle/src/build.rs: from_ast, apply_command", "oca/src/facade/build.rs: validate_ocafile"]}
{"id": "C49", "title": "Reading and building any file of either kind, after any history", "statement": "Reading a text as a transformation always ends with an AST or an error, never with a panic; every command read is a renaming or a linking of names (non-empty, made of name characters, no name twice) and the metadata keys are among name, version, precompiler, source and target with non-empty values. Building what was read gives a transformation unless there is metadata without a source or target, or nothing at all. Reading a file of either kind by its precompiler, and building a file, with or without a store and after any history of validations and builds in that store, aborts only if the text has a backslash between braces, or no command besides FROM, or a command of the listed aborting kinds.", "quantifier": "all texts, all histories of validations and builds of a facade, all iteration orders, all SAID parsers and language tables; attribute types within the nesting limit of JSON texts (see C56)", "why_tests_cant": "infinitely many texts and histories; the absence of panics depends on every earlier build having stored bundles that load again", "anchors": ["transformation/oca-file/src/ocafile/mod.rs: parse_from_string", "transformation/oca-file/src/ocafile.pest", "transformation/oca-file/src/ocafile/instructions/", "transformation/transformation-file/src/build.rs: from_ast", "oca-file/src/ocafile/mod.rs: parse_from_string", "oca/src/facade/build.rs: build_from_ocafile, validate_ocafile"]}
{"id": "C50", "title": "The file store on a real directory tree", "statement": "With keys that can be file names (not empty, '.' or '..', no slash or NUL, at most 255 bytes) a file store reads back what was last written under a namespace and key; writing one key changes no other (if the configured directory has no '..'), and on the whole disk one insert changes the file of its key under the configured directory and otherwise only makes missing directories on the way; in a fresh directory every sequence of inserts succeeds and every key reads as the last value written or absent. A facade whose database and cache are file stores in two fresh directories, neither inside the other, answers after any history of validations and builds of files whose name= value can be a file name, complete or cut off at any write, as the in-memory stores do. Names with a slash or '..' leave the directory or overwrite other records.", "quantifier": "all directory trees, directories, working directories, namespaces, keys and values; all histories of validations and builds, complete or interrupted at any write", "why_tests_cant": "infinitely many paths, disks and histories; path resolution makes one key's file reachable through other spellings", "anchors": ["oca/src/data_storage.rs: FileSystemStorage::get, insert, config", "oca/src/facade/build.rs: References::save, build_from_ocafile"]}
{"id": "C51", "title": "Build errors name their line", "statement": "Validating a file laid out in lines (comments, blank lines, metadata, a base, flagged attributes and printable commands in any order) reports exactly the errors of its lines, in order: a line's command is applied to the state the accepted lines before it left (the state of the stored base bundle when the first command is FROM a stored bundle), a rejected command leaves that state unchanged, and each of its messages carries the 1-based number of the line and the text of the line; validation succeeds only if no line has an error. After FROM of a bundle that is not stored, and after continued lines, the numbers are wrong.", "quantifier": "all files of any number of lines of these kinds, all facades, tables of known names and map orders", "why_tests_cant": "any number of lines, any mixture of commands and non-commands before the rejected one, any state of the facade", "anchors": ["oca/src/facade/build.rs: validate_ocafile, parse_and_check_base, oca_ast_to_oca_build_with_references", "semantics/oca-bundle/src/build.rs: from_ast, FromASTError", "semantics/oca-file/src/ocafile/mod.rs: parse_from_string"]}
{"id": "C52", "title": "Entry points agree", "statement": "For a text whose commands have no FROM first and no references by name, the free build_from_ocafile and the method of a facade in any state return the same bundle or the same errors (the method may in addition abort while storing, which C46 and C49 exclude). Validation with references kept by the caller gives the outcome of validation with the facade's own references whenever the two tables agree, keeps them in agreement, and leaves the facade unchanged. The list of all references of a facade is, after any history, the names of the validated files with the SAID of the last bundle of that name. With FROM or references by name the free function and the method differ.", "quantifier": "all texts, facades, tables of names, histories of validations and builds", "why_tests_cant": "all texts and all facade states", "anchors": ["oca/src/facade/build.rs: build_from_ocafile (function and method), validate_ocafile, validate_ocafile_with_external_references, References", "oca/src/facade/fetch.rs: fetch_all_refs", "oca/src/local_references.rs: replace_refn_with_refs"]}
{"id": "C53", "title": "Histories of texts", "statement": "Let any sequence of OCAfile texts be validated and built through the facade, none of whose plain texts reads as a reference, none of whose META properties has the name of an overlay field, and whose groups of entry codes are in increasing order. Then everything built can be stored and read back, with no condition on the bundles. If the digest does not collide and the commands agree on the metadata of a frame, every bundle built, and every step, is fetched by its SAID with the JSON it was built with, whatever was built or validated afterwards, its objects are fetched by theirs, and the listing shows each bundle once; a text that only names its base gives that base again. If the steps have different SAIDs, the facade answers with a history for each, and it rebuilds that bundle from scratch. Building one more text aborts only for the reasons C49 names.", "quantifier": "all sequences of texts, iteration orders, later validations and builds; attribute types within the nesting limit of JSON texts (see C56)", "why_tests_cant": "all texts and all histories of them", "anchors": ["oca/src/facade/build.rs: build_from_ocafile, validate_ocafile, build", "oca/src/facade/fetch.rs: get_oca_bundle, get_oca_bundle_ast, get_oca_objects, fetch_all_oca_bundle", "semantics/oca-file/src/ocafile/mod.rs: parse_from_string"]}
{"id": "C54", "title": "Standards", "statement": "A name is read as a standard exactly when, in small letters, it is a URN of the namespace ietf or iso whose rest is one of the texts of that namespace's pattern: for ietf a numbered series (rfc, fyi, std, bcp), a draft or meeting (id, mtg) with a word, or a single word; for iso it starts with std, one of six publishers, perhaps one of nine kinds of document, and a number, and such a start alone suffices. Behind the start stand, each of them optional and in this order, a part, a status with an edition, a version with amendments, languages, amendments, elements (clauses, figures, tables, terms), and a technical text or letters, and nothing else is accepted. What is kept is the name in small letters, reading it again gives it again, and names that differ in the case of letters are the same standard. A standard overlay written as JSON is read back with the same identifiers and entries. Trailing letters after an iso number are accepted. So is any character where the pattern means a dot.", "quantifier": "all names, all URN readers, all entries of a standard overlay", "why_tests_cant": "the set of names is infinite and the patterns are long; a test checks single names", "anchors": ["semantics/oca-bundle/src/state/standard.rs: Standard::new, Standard::regexes, Standard::validate, Serialize, Deserialize", "semantics/oca-bundle/config/standards.yml", "semantics/oca-bundle/src/state/oca/overlay/standard.rs: StandardOverlay"]}
{"id": "C55", "title": "Scope of search records", "statement": "For a stored bundle whose name and description are on one line, and a snippet (perhaps cut off at either end, with marked words) of characters that have no meaning in a regular expression, the scope of the search record is meta_overlay exactly when the snippet is taken from the name or the description, and empty otherwise; any other snippet gives meta_overlay, nothing, or an abort. So a search after any history of builds whose snippets are of this kind answers with that scope for every record. The snippet is used unescaped: a name or description whose snippet has an unclosed parenthesis makes every search that finds it abort; closed parentheses lose the scope; with names of several lines the scope can be a piece of the name.", "quantifier": "all names, descriptions, snippets, queries, histories of builds", "why_tests_cant": "all texts users put into META, and all snippets the engine cuts out of them", "anchors": ["oca/src/repositories/oca_bundle_fts_repo.rs: OCABundleFTSRepo::search, Record::get_scope", "oca/src/facade/fetch.rs: search_oca_bundle"]}
{"id": "C56", "title": "Records as JSON text", "statement": "What is written for a tree of JSON values is a text of that tree by the JSON grammar and is read back as the same tree, unless the tree nests more than 127 arrays and objects, in which case it is not read at all; different trees have different texts; a text is read as a tree exactly when the grammar derives it from that tree and the limit is kept, so blanks, line breaks and the way characters are escaped do not matter, and no text stands for two trees. Every text of a bundle whose attribute types nest at most 124 arrays loads to a bundle with the same JSON and identifier; the hand-assembled text of a facade bundle is JSON for any number of transformations and holds the parts. An attribute type nested deeper builds without error, but the bundle can then not be fetched, its history not be read, and a file that builds on it is built without it.", "quantifier": "all JSON trees, all texts (any layout and escapes), all bundles, any nesting depth, any number of transformations", "why_tests_cant": "every string content, every layout and every depth; a test writes a handful of texts", "anchors": ["semantics/oca-bundle/src/controller.rs: load_oca", "oca/src/facade/bundle.rs: Bundle::encode, load_oca", "oca/src/facade/build.rs: build_oca_bundle_from_ast", "oca/src/facade/fetch.rs: get_oca_bundle, get_oca_bundle_steps", "oca/src/repositories/oca_bundle_cache_repo.rs: OCABundleCacheRecord::new", "oca/src/repositories/capture_base_cache_repo.rs: CaptureBaseCacheRecord::new"]}
{"id": "C57", "title": "Rewriting a file", "statement": "Reading an OCAfile with parse_from_string and writing the commands back with generate_from_ast gives a text that is read again, into the same commands in the same order (the properties of a META command may change order), and that builds the same bundle with the same chain of steps, or the same errors, on any facade and whatever bundles are there - unless a command is of a kind that cannot be written: FROM, FLAGGED_ATTRIBUTES, REMOVE of an overlay, CHARACTER_ENCODING with PROPS, a reference by name or a link without a target, a META whose language is given again as something that is not a language or that says nothing else, ATTR_FRAMING deeper or shallower than two levels, a unit with a lone quote; or says a text that can only stand between single quotes; or takes a comment or a blank line of a continued line for a name. The rewritten text can be rewritten again. A file without single quotes and backslashes is only subject to the first list. The file metadata (--name) is not written: the rewritten file registers no name.", "quantifier": "every text that is read, every SAID test, every facade, digest and iteration order", "why_tests_cant": "the set of texts is unbounded; that a text is accepted says little about what can be written from it, and the conditions are on the source the user typed, not on an AST a test author built", "anchors": ["semantics/oca-file/src/ocafile/mod.rs: parse_from_string, generate_from_ast", "oca/src/facade/build.rs: validate_ocafile"]}
{"id": "C58", "title": "Attribute types of any nesting depth", "statement": "Reading an attribute type from JSON, reading one from an OCAfile and writing one to an OCAfile are loops over an explicit stack, and not recursive functions. They end for every input, and give what the plain recursive reading or writing of the type gives: the type with as many arrays as the input has, an error however deep the wrong part is, the text with as many brackets as the type has arrays. k arrays take 2k+3 rounds. Every type of the supported forms written to JSON is read back. A type with a reference by name, at whatever depth, makes the writer of OCAfiles panic.", "quantifier": "all JSON values, all pairs the parser of OCAfiles can produce, all attribute types, all depths", "why_tests_cant": "there is no bound on the depth of a type, and the order in which the two stacks are used matters at every depth", "anchors": ["semantics/oca-ast/src/ast/recursive_attributes.rs", "semantics/oca-ast/src/ast/attributes.rs: Deserialize for NestedAttrType", "semantics/oca-file/src/ocafile/instructions/helpers.rs: extract_attr_type", "semantics/oca-file/src/ocafile/mod.rs: oca_file_format"]}
{"id": "C59", "title": "Commands and objects that compare equal", "statement": "Two commands compare equal (==) exactly when they are the same but for the order in which attributes, properties and the names inside objects are given; this is an equivalence. ASTs that compare equal build the same bundle with the same SAID and record steps with the same parents and results, from scratch or on a base, unless a command gives entry codes in groups: then equal ASTs can have different SAIDs (refuted expectation). Of two equal commands that are not accepted, one can be rejected with an error and the other one can panic (refuted expectation). What a rewritten file (C57) reads as compares equal to what was read first. Equal bundle references and equal overlays hash alike; equal capture bases with attributes in another order do not, and a hash set can then keep both (refuted expectation: the contract of Hash). The objects that relations are made of are equal exactly when they have the same SAID and the same role, so their sets keep one of each whatever the hasher. The JSON of such an object tells its SAID and its role.", "quantifier": "all commands and ASTs whose maps have distinct keys, all bases, digests, hash-map orders and hashers", "why_tests_cant": "equality ignores an unbounded number of reorderings, at every depth, and the build folds over all of them", "anchors": ["semantics/oca-ast/src/ast/mod.rs: PartialEq and Hash of Command, ObjectKind, CaptureContent, Content, NestedValue", "semantics/oca-ast/src/ast/attributes.rs: Hash for NestedAttrType", "semantics/oca-bundle/src/build.rs: apply_command, from_ast", "oca/src/facade/explore.rs: OCAObject, Serialize for OCAObject, Relationship::add_relation"]}
{"id": "C60", "title": "The order of independent commands", "statement": "Commands that touch different things can be given in any order. A command touches the attributes it declares, retypes or removes, the attributes it names, the slots (label in a language, unit, link to a target, frame, ...) it gives them, meta entries by language and key, and the classification; two commands are independent when they share none of these (both may name one attribute, if neither declares or removes it). Two independent commands applied in either order are accepted, rejected (with the same errors) or abort alike, and leave exactly the same state. A build whose commands were rearranged by exchanging independent neighbours, in particular any permutation of a stretch of pairwise independent commands, from scratch or on a base, gives the same bundle with the same SAID, or the same error messages, or panics in both cases. Commands for the same slot do not commute: the first UNIT and the last FORMAT win (refuted expectation), and an attribute has to be declared before it is named.", "quantifier": "all commands and ASTs whose maps have distinct keys, all states reachable by the API, all bases, digests and hash-map orders", "why_tests_cant": "ranges over all pairs of commands of all kinds, all states and all permutations of lists of any length", "anchors": ["semantics/oca-bundle/src/build.rs: apply_command, from_ast", "semantics/oca-bundle/src/state/attribute.rs: Attribute::merge", "semantics/oca-bundle/src/state/oca.rs: OCABox::add_attribute, add_meta"]}
{"id": "C61", "title": "Published bytes and the version field", "statement": "The text published for a bundle or a transformation (what encode gives and what the stores hold) is JSON whose first field is a version string that states the protocol (OCAS 1.1 or OCAT 1.0), the format and the exact number of bytes of the text in hexadecimal, as long as that is below 16 MiB. Its SAID is the digest of exactly those bytes with 44 number signs in place of the SAID, for every generated or accepted bundle, every transformation built, and without a version for every capture base and overlay inside; so two published texts that verify with one SAID are the same bytes, and two accepted bundles with one SAID are published as the same bytes and say the same, or the hash collides. After a build the text stored under each SAID verifies against it; reading a stored or published text passes over the version and gives back the bundle. A bundle without a SAID states 42 bytes too many, and from 16 MiB on the SAID is the digest of another text than the published one (refuted expectations).", "quantifier": "all bundles, transformations, builds, stores and texts; all 44-character hash functions of bytes; all sizes", "why_tests_cant": "ranges over all objects and byte strings of any length, and over every hash; a collision is the only way out and cannot be searched for", "anchors": ["semantics/oca-bundle/src/state/oca.rs: OCABundle (derive SAD, version), fill_said", "transformation-file/src/state/mod.rs: Transformation", "oca/src/facade/build.rs: build_meta/encode at 316", "oca/src/repositories/oca_bundle_cache_repo.rs: insert", "tests/build_from_ocafile.rs: 59"]}
{"id": "C62", "title": "Hand-written commands mean what they say", "statement": "An OCAfile need not look like the ones the generator writes. A command may have its key words in any letter case, any blanks, tabs or continued lines (a backslash at the end of the line) between words, around the = of a pair and in front of a line's end, texts in double or in single quotes or bare words, references spelled in any case and arrays with blanks inside; lines may end in LF, CRLF or CR, the last one need not end, and comments, blank lines and metadata may stand between them. Every such text says exactly one command (no text says two), and a file of them is read as exactly those commands in order, each validated against those before it and recorded with its text and item number, with the metadata of the metadata lines; so two files that say the same commands are rejected alike or give the same commands and the same build with the same SAID. What the generator writes for a printable command is one of the ways to write it, so a generated file edited by hand that still says its commands builds the same. What hand-written text does not mean is refuted by counterexamples: a tab behind a bare unit runs on into the next pair, blanks around = are rejected for entry codes, indented commands are rejected and so are trailing blanks of an unended last line, a quoted classification keeps its quotes, attribute types are case sensitive.", "quantifier": "every command of the kinds attribute, classification, flagged attributes, overlay (label, information, meta, encoding, format, conformance, condition, cardinality, unit, entry code, entry, link), removal and base bundle, every spelling of it, every file of such lines, every base, hash and order", "why_tests_cant": "the spellings of a command are infinitely many and combine freely; a test shows that some of them are read, not that every one is and that none means anything else", "anchors": ["semantics/oca-file/src/ocafile.pest: arg_ws, key_pair, unit_key_pair, entry_code_key_pair, entry_key_pair, attr_pair, add, remove, from, file", "semantics/oca-file/src/ocafile/mod.rs: parse_from_string", "semantics/oca-file/src/ocafile/instructions/add.rs", "semantics/oca-file/src/ocafile/instructions/helpers.rs: extract_attribute, extract_attribute_key_pairs"]}
{"id": "C63", "title": "What a bundle says is the last word of its commands", "statement": "A bundle built from scratch can be read off its list of commands alone. For every attribute and every label, description, entry, format, encoding, cardinality, conformance, condition and link (and every meta text of a language) the bundle says exactly the last thing a command said about it that no later removal of the attribute wiped; for units and entry codes it says the first thing said since the attribute was last removed; an attribute is in a frame exactly if a command framed it after its last removal, and each of its scopes is the last word on that scope, scopes added later leaving the others alone. There is one overlay per kind, language, link target and frame, none without anything to say, and one answer per attribute. The capture base lists each attribute once, under the last type declared for it after its last removal, flags none, and carries the last classification not removed since. So any two lists of commands that say the same in this sense, with whatever detours and in whatever order, build bundles with the same JSON and the same SAIDs. This holds for the commands of any text that parses and of any hand-written file, so two texts that say the same give the same bundle; and a bundle built FROM another, itself possibly built from another, says the last word of the whole chain of commands behind it. After any history of builds, the bundle the store returns for a SAID is what can be read off the commands it lists for that SAID. Commands FROM a bundle that leave every last word what it was leave the bundle, and its SAIDs, what they were.", "quantifier": "every list of commands, attribute, slot, value and order of maps; every pair of lists", "why_tests_cant": "lists of commands are unboundedly many, and what a command contributes depends on all the commands behind it", "anchors": ["semantics/oca-bundle/src/build.rs: from_ast, apply_command", "semantics/oca-bundle/src/state/oca.rs: OCABox, generate_bundle", "semantics/oca-bundle/src/state/attribute.rs: Attribute::merge"]}
