# oca-rs in Rocq: design

Model: `/verif/rocq/theories/`. Each definition cites the `/repo` file and lines it models.

## Modelling conventions

* Rust `String`/`Vec<u8>` = Coq `string` (a list of bytes). `usize` = `nat`.
* `HashMap<String,V>` = std++ `gmap string V`. Its iteration order is *not* determined by its
  content, so each function that iterates a hash map takes an `order` oracle; `order_ok` says only
  that the oracle lists the map's pairs in some permutation (per map identity and per call).
  `BTreeMap` = `gmap` iterated in byte order. `IndexMap` = association list in insertion order.
* `isolang::Language` = its ISO 639-3 code (string); `from_639_1`/`to_639_1` are oracles.
* `SelfAddressingIdentifier` = its text; the parser is an oracle `said_ok : string -> bool`.
* A SAID computation (`said` crate: Blake3 over the JSON with the placeholder in `d`) = an oracle
  `digest : json -> string`. Theorems hold for every `digest`; the ones that need collision freedom
  say so in the statement (or exhibit the collision), and an injective digest is shown to exist.
* The Lua interpreter = an oracle. SQLite = lists with the primary-key rule. JSON is a tree with ordered
  object fields; its text is an oracle pair `to_text`/`of_text` of which theorems ask `text_ok`: a tree that nests at
  most 127 deep is read back. C56 models serde_json's text itself and proves `text_ok` of it.
* Panics (`unwrap`, `todo!`, `panic!`, index out of range) = the explicit outcome `Panic`.
* feature `format_overlay` is modelled as on (default feature set used by the facade).

## Plan per property

| id | model | proof |
|----|-------|-------|
| C01 | OCABox, generate_bundle, JSON of bundle | generation is a fold of upserts; characterise the result per overlay key, permute, sort by SAID |
| C02 | same | invariant over the fold: key -> content = declarative spec |
| C03 | validator SAID part | recomputation idempotent on signed objects |
| C04 | validator | accepted + same SAID => same JSON or explicit collision |
| C05 | From<OCABundle> for OCABox | load(generate box) is observationally the box |
| C06 | serde of bundle/overlays to json tree and back | structural, sorted maps |
| C07 | to_ast + from_ast | replay of generated commands reaches an equivalent box |
| C08 | set_condition / `${i}` substitution as scanners | induction on string |
| C09 | check_condition | from C08 |
| C10 | Attribute::merge | per-field lemmas; refutation for first-wins fields |
| C11 | apply_command, from_ast | induction over commands |
| C12 | from_ast | induction over commands |
| C13 | from_ast | induction over commands |
| C14 | remove_attribute + C02 | via C02 characterisation |
| C15 | oca-ast validator | induction over commands |
| C16 | apply_command | per-command frame lemma |
| C17 | OverlayType serde | scanner for the regex, case analysis + string induction |
| C18 | ObjectKind byte | case analysis |
| C19 | Command serde | induction over NestedValue |
| C20 | NestedAttrType/RefValue serde | induction |
| C21 | Relationship byte codec | induction over list |
| C22 | operation records + get_oca_bundle_steps | induction over steps, store invariant |
| C23 | facade build/get_oca_bundle | store invariant |
| C24 | get_oca_bundle with_dep | fuel recursion, reachability |
| C25 | replace_refn_with_refs | induction over commands |
| C26 | parse_and_check_base | case analysis + refutation of error reporting; for any base left by a history of builds (C26_any_base) from C47's replay of the history and C37's equality of boxes up to order |
| C27 | InMemoryDataStorage | refinement to a map of maps |
| C28 | SQL LIMIT/OFFSET | list lemma |
| C29 | cache repos | invariant |
| C30 | oca-dag build_core_db_model | invariant over steps |
| C31 | Graph | codec + invariant |
| C32 | build_oca | induction; refutation for the failing command |
| C33 | validate_meta/validate_translations | set reasoning |
| C34 | transformation grammar, parser, AST codecs, from_ast (TGrammar, TFile) | PEG evaluation lemmas transferred by PegMap; induction over lines and commands |
| C35 | dispatch grammar, parse_any, build_from_ocafile, facade bundles | induction over texts (what a '--' free text gives), induction over elements |
| C36 | oca_file_format + grammar fragment | induction on type |
| C37 | from_ast with base | C05-style equivalence is a congruence for apply_command |
| C38 | apply_command | case analysis |
| C39 | apply_command | induction |
| C40 | operation record bytes | codec lemma |
| C41 | grammar as PEG + parser + generator (OcaGrammar, OcaFile) | per rule "takes" lemmas, then per command, line, file; nested braces of ATTR_FRAMING by induction on the frames |
| C42 | parser over lines | induction on the lines; ATTR_FRAMING (OcaFraming, FramingLines) takes several lines and the end of its last one, so the induction carries what may follow |
| C43 | listings, object requests and search (Index); search engine as oracles | invariant over the history of builds relating every cache, index and relation entry to the builds |
| C44 | every write of the facade build as a list of writes, stopped anywhere (Crash) | prefix invariants over the writes, then idempotence of the run from any such state |
| C45 | the stored graph records (Facade.store_model over Dag) | the writes of a build as a list, last write wins; C30 gives their content |
| C46 | the whole build pipeline of the facade over histories (files_run) | every writing stage is shown total from the invariants of C21, C30, C43 and the lengths of SAIDs |
| C47 | export functions of the facade on top of the history, the AST conversion, the writer and the parser | invariant over runs: every stored operation is justified by a stored step (Replay_proofs); replaying tracks the stored boxes up to the data they carry (C37); text by C41 and C15; ATTR_FRAMING commands by the framing form of C41, and what a file says of them is already in the form that comes back (C48's forms: names without capitals) |
| C48 | parse_from_string on arbitrary text, then from_ast / validate_ocafile | tokens of any successful run of the PEG satisfy a static over-approximation of what each rule can emit (PegShape: which rules, at least one, with or without a backslash); case analysis of every unwrap over it; the forms feed C38's exact description of panics |
| C49 | transformation parser, dispatching parser, `build_from_ocafile` (free function and facade method) on arbitrary text, the facade after any history | the same over-approximation for the two small grammars; the invariant of histories: cached bundles are steps generated from boxes the commands can make, which load after the JSON round trip (C06, C05); names lead to SAIDs (C25); a validated build succeeds (C46) |
| C50 | the file store over a tree of directories and files, with `PathBuf::push`, absolute paths, `.`/`..`, trailing slashes, NUL bytes, long names, `create_dir_all`, `try_exists`, `read`, `write` (Files.v) | laws for a single insert by following the path walk; for a directory given by plain names an invariant (`usable`: nothing on the way is a file, no key is a directory) that inserts keep; keys of all facade writes are file names because SAIDs and hashes are (C13, C03) and the invariant is carried along the write lists of C44 for two directories on one disk |
| C51 | validation with its errors as reported (Entry.v) over the reader and the build; the specification checks the file line by line (`line_errors`, Spec_Entry.v) | C42 gives commands and recorded lines, C12 the errors of a build as a list; induction over the lines matches the two, names being resolved line by line; the base case shifts by one |
| C52 | the free `build_from_ocafile`, the method, validation with a table of the caller, the list of references | without FROM and names both reduce to one `from_ast`; storing has no error result; the table is carried through resolution by agreement on every name; C25 for the list |
| C53 | sequences of texts validated and built through the facade (C48's reader, C25/C26 resolution, C11 build, C23 stores) | what the reader yields, after resolution, keeps a box in a form whose bundles can be stored (invariant over commands and reloads from the store); with no collision and agreeing frames the history meets the conditions of C43 and C47, the reload case by equality of boxes up to order (C37) |
| C54 | the regex crate on a fragment (literals, `.`, classes, groups, alternatives, `* + ?`): reader of patterns and matcher (Regex.v), `config/standards.yml` verbatim and `Standard::new`/`validate` (Standard.v), reading of standard overlays (BundleCodec.v) | the matcher decides the language of a pattern (derivative-style automaton, induction on patterns and texts); the two compiled patterns are equal to trees built from keywords, numbers and words, whose languages are computed by induction; the rest of the iso pattern is a `shape` of Spec_Standard.v (its pieces named after what they are), equal to the compiled pattern up to groups and the association of sequences (Standard_full); lower-casing is idempotent |
| C55 | `Record::get_scope` (Scope.v) on top of Regex.v: removal of marks, cutting at ellipses, reading of the pattern, first match in the haystack; patterns outside the fragment of Regex.v stay an oracle | induction over snippets, patterns and the haystack; combined with C43's search |
| C56 | serde_json's compact writer and its reader with the nesting limit of 128 (JsonText.v, from knowledge of the dependency: escapes, surrogate pairs, blanks, numbers, depth), the text of a facade bundle and both `load_oca` (BundleText.v) against the JSON grammar as a relation between trees and texts (Spec_JsonText.v) | the reader is sound and complete for the grammar up to the limit, the grammar is unambiguous, the writer's text is in it; nesting of a bundle = 3 + the deepest attribute type |
| C57 | the reader and the writer of C41/C48 together: what the grammar gives for each kind of command (OcaTexts.v: texts between double quotes are always quotable, bare words, frames, the language of META first), and which commands cannot be written (Spec_Rewrite.v) | every command read and not on the list comes back (readable_says); the rewritten text is read, same commands up to the order of META properties, same build, can be rewritten again; a file without single quotes and backslashes only has the kinds to check; each exclusion but the single-quoted classification has a text that is lost (C57_lost_refuted) |
| C58 | the frames of recursive_attributes.rs and the stack machine of the crate recursion (Frames.v), used with the closures of attributes.rs, helpers.rs and ocafile/mod.rs | an evaluation relation (a seed leaves one value on the value stack after n rounds, whatever is below) shown for leaves and arrays, by structural induction on the input; compared with the recursive functions of C20, C36 and C48; the number of rounds for k arrays by induction on k |
| C59 | derived and hand-written PartialEq and Hash of the AST types as functions (Equality.v: IndexMap equality by length and lookup; hashing as the list of what is fed to the hasher), Serialize of OCAObject | equality = a permutation with equal values at every depth (Spec_Equality.v), by induction on values; each command's effect is characterised by lookups (C11, C16), so reordering leaves the box literally the same; induction over the build loop; concrete cases for the refutations |
| C60 | apply_command and from_ast (Build.v), with `touches`, `independent` and `rearranged` (Spec_Independent.v) stated with the `says` relation of C16 | an accepted command is a pointwise function on attributes, meta entries and the classification, and its verdict depends only on which named attributes exist; these functions commute when no thing is shared (slot by slot: setters of different slots, insertions at different keys); induction over exchanges, then over the permutation; C12 carries it to builds |
| C61 | the version string, derivation data and encode of bundles and transformations, and stores that hold such texts (Version.v over JsonText.v), with hexadecimal numbers, `states`, `self_addressing` and `collision` in Spec_Version.v | the text splits as opening, SAID, rest; the number of digits of the size decides both theorems; write_json is injective (C56), so equal derivation data mean equal trees; `text_ok` of the versioned store carries the facade theorems over |
| C62 | the same parser; what a person may write for a command is the relation `hand c t` of Spec_Hand.v (with `hfile` for files), stated without the grammar | every rule of the grammar takes every such text (OcaHand, HandLines, HandCommands: induction on gaps, pairs and lists) up to what may follow it; files by induction on the lines (HandLayout); unambiguity from determinism of the grammar; the generator's texts are hand texts (HandPrinted), so C41 and C15 carry over |
| C63 | the same `from_ast`, `apply_command` and `generate_bundle` as C02, C11 and C16; the meaning of a list of commands is stated on the list alone in Spec_Last.v (last word, first word, last scope, last type, last class), without boxes, merges or overlays | a one-command lemma over every slot (Last_proofs: wiped, said or untouched) under the invariant that boxes built from scratch carry no category labels and no mappings, then induction on the list, from the front for last words and from the back for first words (Last_runs); C02 turns the box into the bundle; equal words give equivalent boxes, and C01 equal bundles; Props_Last2: texts through C48 and C62, chains of FROM by induction on the chain with C37's reload and replay; Props_Last3: whatever the store holds, through C47 and C53 |

## Trusted base

* Coq 8.16.1's kernel (`vm_compute` is used, so its virtual machine too; `native_compute` is not).
* Axioms: **none**. Every theorem listed in MANIFEST.json is followed by `Print Assumptions` in its
  file, and each prints "Closed under the global context". (vcheck also lists the fields of the
  module type `Coq.ssr.ssrunder`, which std++ loads; no theorem here depends on them.)
* No `Admitted`, no own axioms, no functors or module types, no switched-off checks, no plugins.
* Library: Coq's standard library and std++ (definitions and proved lemmas only).
* Oracles are ordinary universally quantified arguments (Section variables), so a theorem holds for
  every digest, Lua interpreter, hash-map order, language table, SAID reader, JSON printer/reader, search
  engine. What a theorem needs of one is a hypothesis in its statement (`order_ok`, `text_ok`, `codes_ok`,
  `plain_digest`, `listing_ok`, ...), and an `Example ..._hypotheses_met` beside it shows an instance.
* That the Coq definitions say what the Rust code does is by reading: each carries the file and lines. Crates that are
  not in the repository (pest, serde, serde_json, regex, recursion) are modelled from knowledge of them.

## What is modelled

| /repo | model |
|-------|-------|
| semantics/oca-ast/src/ast/{mod,attributes,recursive_attributes}.rs | Ast, Codec (serde), OcaFile (type printing), Frames (recursion schemes), Equality (PartialEq, Hash) |
| semantics/oca-ast/src/validator.rs | AstValidator |
| semantics/oca-bundle/src/state/{attribute,encoding,entries,entry_codes}.rs, state/oca.rs, state/oca/*.rs, state/oca/overlay/*.rs | Bundle (generation), BundleCodec (serde), Condition, Build (load), ToAst |
| semantics/oca-bundle/src/state/validator.rs | Validator, Condition |
| semantics/oca-bundle/src/state/standard.rs | Standard.v and Regex.v (the urn crate an oracle); elsewhere as the oracle `standard_read`, of which nothing is assumed |
| semantics/oca-bundle/src/build.rs | Build |
| semantics/oca-dag/src/lib.rs, versioning/bundle.rs, versioning/mod.rs, data_storage.rs | Dag, Storage |
| semantics/oca-dag/src/versioning/ocafile.rs | VBuild |
| semantics/oca-file/src/ocafile.pest, ocafile/mod.rs, ocafile/instructions/*.rs | Peg, OcaGrammar, OcaFile |
| transformation/** | PegMap, TGrammar, TFile |
| oca-file/src/** (dispatch on the precompiler) | TFile |
| semantics/oca-bundle/src/controller.rs, oca/src/facade/bundle.rs `load_oca`, `encode` | BundleText on JsonText |
| oca/src/data_storage.rs, repositories/*_cache_repo.rs | Storage, Files |
| oca/src/repositories/oca_bundle_fts_repo.rs | Index, with matching, ranking and snippet as oracles; Scope (get_scope, for patterns in the fragment of Regex) |
| oca/src/facade/{mod,build,fetch,explore,bundle}.rs, local_references.rs | Facade, Relations, Index, TFile; Crash (the same build as a list of writes) |

## What is not modelled

* wasm and other bindings, feature-gated variants other than the facade's default set;
* SQLite, sled and their failures, symbolic links, permissions, full disks (the APIs of SQLite and sled are modelled as maps and tables; the file store as a map for C27 and over a directory tree for C50; C44 models
  a stop between any two writes, each write being atomic);
* SQLite FTS5 matching and ranking; regular expressions with escapes, counted repetitions, flags or nested
  classes; URN syntax (urn crate);
* Lua, Blake3, CESR text of SAIDs, ISO language tables (all oracles); JSON text is an oracle everywhere but in C56, where serde_json is modelled
  (natural numbers only, bytes not checked to be UTF-8);
* error texts are modelled where users can tell runs apart by them (build and AST validation errors), not
  pest's parse error messages;
* the `said` crate is not in /repo: the version field, the derivation data and `encode` (C61, Version.v) are modelled from what the crate does, with the
  version string of tests/build_from_ocafile.rs 59 as the only check against /repo; `make_me_sad` (facade Bundle::encode) is not modelled at byte level.

## Findings

Claims a user could expect and that the code does not keep are theorems named `..._refuted` (a concrete
counterexample for the model, each traced back to the cited lines): hash-map-order-dependent frame metadata
(C01), a condition error hiding SAID errors (C03), data dropped on load (C05) and in JSON (C06, C19), in
`to_ast` (C07), in merge (C10), a dangling dependency that panics the validator (C14), FROM's attributes
unknown to the AST validator (C15), re-adding a unit (C16), histories that cannot be read back (C22), names in
nested arrays (C25), unknown FROM base ignored (C26), listing with the file store (C27), page 0 (C28), version
graph parents and links (C30), failing commands in the versioned build (C32), transformation files (C34),
precompiler dispatch (C35), type printing (C36), ADD FLAGGED_ATTRIBUTES ignored (C39), OCAfile printing (C41; capitals inside
ATTR_FRAMING braces are lost) and reading (C42), requests for step-only objects (C43), crash windows (C44), exported OCAfiles
that are rejected or build another bundle (C47), files that are read and abort the build, or the reader (C48), transformations that are read and abort the build (C49), file names that leave the store's directory or overwrite other records, directories given with `..`, names too long for a file (C50), wrong line numbers after an unknown base or a continued line (C51), a free build function that rejects FROM and keeps names unresolved (C52), iso standards that run on into letters or have any character for a dot (C54), searches that abort on a stored
parenthesis (C55), attribute types nested so deep that the stored bundle cannot be read again, and a file that builds on it is
built without it (C56), commands that are read and cannot be written again (C57), equal ASTs with different SAIDs,
equal commands of which one panics, equal capture bases that hash differently (C59), commands for one slot that do not commute (C60),
bundles without a SAID that state a wrong size, bundles of 16 MiB whose SAID is not the digest of the published bytes (C61), units that run on over tabs, layouts of
commands that one command takes and another one rejects (C62).
