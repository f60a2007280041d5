# Formal model of rusty-source-map in Rocq (Coq 8.16.1)

## 1. Layout

`/verif/rocq/theories` (logical name `Verif`):

| files | content |
|---|---|
| `Base.v` | Rust results/panics, overflow modes, `i32`/`u32`/`usize` arithmetic, strings as lists of code points, `HashMap` |
| `M_*.v` | the model, one file per Rust module, executable Gallina, no proofs; every definition cites file and lines |
| `S_*.v` | small specifications that do not mention the model (VLQ decoding, v3 mappings decoding, ordering, path normalisation ...) |
| `F_*.v` | lemmas |
| `P_*.v` | the property theorems, each closed by `exact`, with `Print Assumptions` and a non-vacuity `Example` |
| `T_Repo.v` | every `#[test]` of the repository replayed on the model by computation, with the test's own inputs and expected outputs |

## 2. Modelling conventions

* **Panics** are data: `res A = Ok a | Panic p`; `p` records the kind (overflow, `unwrap` on `None`, index, `RefCell`, explicit message, poisoned lock).
  A `&mut self` method becomes a function returning the new state. State after a panic is not modelled.
* **Integers** are `Z`. Every `i32`/`u32` `+`,`-`,unary `-` that can overflow goes through `i32_add md` etc., where `md : mode` is
  `Debug` (overflow checks on: panic) or `Release` (wrap). Casts `as` and `<<`/`>>` are written with explicit wrap-around. `usize` is 64 bit.
* **Strings** are lists of Unicode code points (`N`). Rust orders `String`s by UTF-8 bytes, which is code-point order; `chars()` is the list itself.
* **`Vec::sort_by`** is a stable insertion sort with a comparator that may panic. For a total preorder every stable sort gives this result
  (proved: `stable_sort_unique`); for other comparators Rust promises nothing (since 1.81 `sort_by` may panic), and theorems exclude them or say so (C97).
* **`HashMap`** is an association list without duplicate keys; no code iterates over a `HashMap`.
* **Loops** become structural recursion or recursion on explicit fuel with a distinguished out-of-fuel outcome that theorems exclude.
* **`RefCell`** has an explicit borrow flag; guards are acquired and released where Rust's temporary-lifetime rules do.
* **rayon**: the order in which section closures take the mutex is an explicit schedule (a permutation), results are collected by index.

## 3. External crates (not in /repo)

* `source-map-mappings` 0.5.0: a record of operations `MapLib` (`M_MapLib.v`) together with a contract `MapLibOk` (`S_MapLib.v`);
  consumer theorems hold for *every* library meeting the contract. The contract says: well-formed text is read by the v3 rules;
  a text with a foreign character is refused; `by_generated_location` is sorted by generated place and only last columns ever change;
  `compute_column_spans` sets spans, before that (and in mappings found by source at any time) last columns are right or missing; `original_location_for`/`generated_location_for` return a nearest entry in the direction of the
  bias; `all_generated_locations_for` returns all entries at a place that has some; `by_original_location` is sorted by original place.
  `F_MapLibRef.v` defines an implementation `RefLib` and proves `RefLib_ok : MapLibOk RefLib`, so the contract is satisfiable,
  and all Examples are computed with it.
* `url` 2.2.2: a record of operations `UrlLib` (`M_Util.v`); decision-logic theorems hold for every `UrlLib`;
  path theorems hold for every library meeting `UrlContract` (`S_Url.v`), which only speaks of plain URLs: letters, digits,
  `-_~.@+=!$&()*,;` and escapes `%XX` other than of a dot in paths, query and fragment; http(s) scheme, optional login of letters, digits, `-_~.`, lower-case host, optional
  port in canonical decimal other than the scheme's default (`web_origin`); or `file` with a lower-case host other than `localhost` or none (`file_origin`; below a file URL `//localhost/a` has no host), or with a drive letter
  (`on_drive`, as root and source only; its root is not left by `..`); or a lower-case scheme other than http, https, ws, wss, ftp, file
  with a host of letters, digits, `-_~.` or none, like `webpack:///` (`plain_origin`; a path is required, and as map URL a directory); `//host` references without login and port. Space, quote, angle
  brackets and characters beyond ASCII are escaped when parsing (not for a space at either end). In references without scheme, query and fragment joined to http(s) URLs a backslash is a slash
  (`uc_join_slashes`, the rule of the URL standard for special schemes). Of the other schemes (in any case) it also
  speaks of `scheme:text`, text of visible ASCII characters other than `?#<>"` without `/` in front (kept, path is the text, `set_path` replaces it by another such text, joining the empty text to it fails), and of
  `scheme:/path` (dot segments removed); in both the scheme becomes lower case. `F_UrlRef.v` has `RefUrl` and `RefUrl_ok`.
* `regex`: the two fixed expressions `^[A-Za-z0-9\+\-\.]+:/` and `/?$` are written out as functions (`absolute_scheme_match`,
  `replace_trailing_slash`).
* `serde_json`/`serde` derive: JSON values, printer and parser are modelled directly, with the derive rules of the structs in
  `source_map.rs` (unknown fields ignored, duplicate fields refused, missing `Option` is `None`, structs also readable from arrays,
  recursion limit 128).
* `rayon`: see schedules above.

## 4. Plan per property

| id | what is modelled | how it is proved |
|---|---|---|
| C01-C05 | `base64::encode`, `to_vlq_signed`, `base64vlq_encode` bit-exactly, both overflow modes | induction on the digit loop against an independent VLQ decoder; range analysis for C03 |
| C06-C08 | `ArraySet` with vector and hash map | invariant over histories of `add`; refinement to first-occurrence list |
| C09-C12 | `recursive_search`, `search` with arbitrary comparison functions | interval invariant, fuel never runs out; for sorted inputs bracket invariant |
| C13-C15 | `strcmp`, `compare_by_generated_pos_inflated` | lexicographic order lemmas; witnesses by computation |
| C16-C18 | `MappingList` | invariant (flag => sorted by position; `last` is a maximum) over all add/to_array interleavings; stable sort lemmas |
| C19-C24, C27, C28 | `SourceMapGenerator::{new,add_mapping,serialize_mappings,as_json}` | loop invariant relating encoder registers to the spec decoder's registers |
| C25, C26 | `set_source_content`, `generate_sources_contents` | refinement to a map; list lemma on `flatten` |
| C29, C30 | `SourceMapJson`/`Section`/`Position` (de)serialisation, `create_consumer` | printer/parser inversion by induction |
| C31, C32 | `get_url_type`, `build_unique_segment`, `build_safe_base` | case analysis; pigeonhole for termination |
| C33-C37, C56 | URL helpers over `UrlLib` | segment-list algebra; contract on plain paths |
| C38-C48, C57, C58 | `BasicConsumer` over `MapLib`, `UrlLib` | invariants over query histories; nearest-element specification |
| C49-C55, C59 | `IndexedConsumer` with `RefCell` and schedules | fold over the schedule; search theorems; borrow-state computation |
| C60 | every function, both `mode`s | relation `same_unless_overflow`, one lemma per function |
| C61, C62 | `gen_set_source_content`, `generate_sources_contents`, any root | simulation with the contents erased; invariant on the keyed contents |
| C63 | `get_url_type` | case analysis; `scheme_tail` by induction |
| C64 | `validate_mapping` | case analysis |
| C65 | as C20, `expressible` mappings | C20's proof, with `read_back` for `written` |
| C66, C67, C68 | `bc_from_source_map`, `create_consumer` and the three queries | C41, C42, C44 carried along the correspondence of library mappings and added mappings (C45); `nearest_through` moves `nearest` from 0-based to 1-based lines |
| C69 | `bc_from_source_map`, `create_consumer`, `bc_source_content_for` | C26, C62 composed with C47 |
| C70 | `bc_compute_column_spans`, `bc_original_position_for`, `bc_generated_position_for`, `bc_all_generated_position_for`, `bc_each_mapping` | `spans` of the sorted library list read through the correspondence of C66; mappings at one place counted through C22 |
| C71 | `bc_new`, `create_consumer`, `bc_find_source_index` | as C57, with the source URL lemmas for whole map URLs (C36) and roots (C31) |
| C72 | `bc_from_source_map`, `bc_find_source_index` | the listed URLs are those of the generator's sources in order; first index of a URL |
| C73 | `ic_from_source_map_json`, `ic_original_position_for`, `ic_get_sources`, `ic_source_content_for` over `gen_as_json` | C51-C53 select the section; its consumer is one opened on the generator's text, so C66 and C69 apply |
| C74 | `bc_has_contents_of_all_sources`, `ic_has_contents_of_all_sources` over `gen_as_json` | C21/C62 give the contents array; its length equals that of the sources exactly if no text is missing |
| C75 | `smj_from_str`, `create_consumer` | relation between JSON values (`same_map`), congruence of the field readers; C29 for the texts |
| C76 | `url_join`, `compute_source_url`, `relative` | references of four kinds (`S_Refs.v`), one resolution function; a lemma per pair of kinds from the contract |
| C77 | `compute_source_url`, `relative`, `bc_find_source_index`, `bc_get_sources` | `escape` (`S_Url.v`) as a function on texts; it keeps the kind of a reference, the directory markers and the normal form of paths, so every helper gives the same on escaped texts |
| C78 | `ml_add`, `ml_to_array`, `ml_unsorted_for_each` | relation `held` (`S_Mapping.v`) between histories and lists; invariant of C16 plus `sorted` flag iff sorted; stable sorts are unique |
| C79 | `create_consumer`, `as_*`, `try_as_*`, `bc_consume`, `ic_consume` | C30 gives the kind; the two consumers differ only in the stored URL, which these queries do not read |
| C80 | `serialize_mappings`, `vlq_encode` | C24 gives fields in shortest form; a text that is read the same has at least the fields and separators of the generated one, each field at least as long (`shortest_field`) |
| C81 | `add_mapping`, `serialize_mappings`, `to_array` | `held` of the longer history is that of the shorter plus a rest (`appendable`, stable sorts of parts); indices of sources and names do not change; the loop only appends to its result; `_refuted` witness without the order condition |
| C82 | `gen_as_json`, `read_json` | what is read is sorted and collapsed, so it is held and written as it is; C80 for the text |
| C83 | `compute_source_url`, `url_join`, `relative`, consumers, `gen_set_source_content` | any `UrlLib`; every way to a value goes through a join of the refused text; for queries the lookup cache only has names that were found |
| C84 | `compute_source_url`, `relative` | contract on `scheme:text` URLs: path is the text, nothing joins to it; no common parts with the base, so all its directories become `..` |
| C85 | `compute_source_url`, `url_join` | contract on `scheme:/path` URLs; classified as absolute |
| C86 | `serialize_mappings`, `base64vlq_encode` | induction over the loop with a two-sided invariant (`F_FarLoop.v`): the rest is read as intended if all steps are near, and as something else if one is not; `steps_fit` is the hypothesis of C20 and of everything that builds on it, and holds for numbers below 2^30 |
| C87 | `search`, `recursive_search`, `first_equal` | the set of places looked at is built along the recursion; the interval halves, so k steps handle width 2^k |
| C88 | `create_consumer`, indexed and basic queries | the two states correspond exactly (one section at (1,1) holding the plain consumer); step by step |
| C89 | `create_consumer`, `BasicConsumer::new` | one source at a time (C33, C34, C76 and the panics of short names), then induction over the list; location given by `resolved`/`in_order` of the C76 spec |
| C90 | `each_mapping`, `get_sources`, generator | contract `mo_parse`/`mo_sorted` give a sorted permutation of the v3 reading; C22 for the generator on a sorted list |
| C91 | `compute_source_url`, `relative`, `bc_find_source_index` | `slashes` (`S_Url.v`) as a function on texts; kind, `..` count and fresh segment are those of the name with slashes; contract law `uc_join_slashes`; with a backslash in front the path from the root is taken relative to the base |
| C92 | `TRIM_FILENAME`, `build_safe_base`, `compute_relative_url`, `compute_source_url` | `map_directory` (`S_MapUrl.v`) from resolution seen from n internal directories; what is left of the base after `strip_common` with a single segment; right or wrong by comparing depths as in C36 |
| C93 | `compute_source_url`, `url_join` | `file_origin` among the plain origins, so C33, C34, C36, C56, C57, C71, C76, C89 hold for file URLs; handlers on drives from `uc_join_drive`, `uc_set_path_drive`; resolution in a drive from `uc_join_drive_rel` |
| C94 | `create_consumer`, `BasicConsumer::new`, `compute_source_url` | `directory_of` (`S_OpensAt.v`) joins C36 and C92; the source in its root (C89) is a plain reference when two characters are left, so `join` resolves it (C76); shorter texts panic |
| C95 | `create_consumer`, `IndexedConsumer::new`, `get_sources` | `piece` (`S_OpensIndexed.v`) describes a section as written; C49 for the schedule, C94 for each section, C53 for the listing |
| C96 | `relative`, `set_source_content`, `generate_sources_contents`, `as_json` | verdict of `relative` on all sixteen pairs of plain reference kinds (C37, C56 lemmas), names as the way between two directories given as a relation; then an exact condition on histories by induction from the end, using C62's keyed contents |
| C97 | add, to_array, generated_position_after, compare_by_generated_pos_inflated, add_mapping, from_source_map, apply_sourcemap | a comparison that returns under Debug compares generated positions correctly, so insertion keeps order; invariant: the remembered last mapping is the latest of (-1,-1) and the positions added; exact condition of overflow by cases; Release comparisons are total; witness that a wrapped difference leaves the list out of order (which pairs a sort compares is the model's choice, so of the sort only returned results are claimed; that it returns at all for wrapped differences holds of `sort_by` before Rust 1.81, which promises nothing there) |
| C98 | TRIM_FILENAME, create_safe_handler, compute_relative_url, compute_source_url, consumer constructors | the URL is opaque: its text is split at '/', its last part dropped, the rest (possibly nothing) put back with set_path and related to the internal base like in C84; the opening lemmas of C94 and C95 are generalised to any map URL whose trimmed form is the text of a plain reference |
| C99 | add_mapping, MappingList, serialize_mappings | the sort returns some order by generated position (C97); the loop writes the same text for a list in which mappings without source have a made-up name instead of their original position, and that list is in the form C19 and C86 handle; conversely a mapping is only skipped next to one of the same place, source and name |
| C100 | from_source_map, create_consumer, each_mapping, original_position_for, generated_position_for, all_generated_position_for | C66-C68 are proved for any map whose text says a list of valid mappings; by C99 the text says what is left of the added ones |
| C101 | original_position_for, generated_position_for | C41 and C42 composed: the exact place is the nearest, and its line is never the line after it |
| C102 | find_source_index, compute_source_url | `found` gives the answer for a reference of any kind from the listed sources alone: first without the root, then in it; `bc_find_source_index` after any history is shown equal to it by way of C94/C98 (`leads`), and written and listed names follow since a settled location is a fixed point of resolution |
| C103 | `find_source_index` and its cache, all queries by name | two consumers that follow the same opened one and agree on everything but the cache are related; every call preserves the relation when names that find the same are exchanged; spellings: `found` of C102 depends on acceptability and location only |
| C104 | `add_mapping`, `serialize_mappings`, `as_json`; `original_position_for`, `generated_position_for`, `each_mapping` | sorting commutes with moving lines, the first mapping writes k more semicolons and nothing else changes; decoding k empty lines first; the nearest place is unique where places are, and is preserved by an order isomorphism of places |
| C105 | `add_mapping`, `set_source_content`, `serialize_mappings`, `as_json`, `ArraySet` | renaming commutes with every step: an `ArraySet` and the contents map under an injective renaming, the sort under an order-preserving one (or not at all if the list is sorted) |
| C106 | all of `BasicConsumer` | the two consumers run in lockstep: the parsed mappings and the spans flag stay equal, the lists stay related by the renaming; no contract of either crate is used |
| C107 | all of `IndexedConsumer`, `search` | the two consumers run in lockstep: each call on the moved state gives the moved result; the search takes the same differences; no contract of either crate is used |
| C108 | all of `IndexedConsumer` | one section: each call is computed in terms of the section's consumer, which follows the calls passed on; no contract of either crate is used |
| C109 | BasicConsumer histories, IndexedConsumer histories | relation `near`: equal but for the look-up cache and for having read the mappings (`load`); every call maps near consumers to near consumers and equal answers; a quiet call ends near where it began; sections only receive `passed_on` calls, so their state is near that after at most one compute_column_spans |
| C110 | all calls on consumers, with the state a panic leaves (M_Unwind.v) | the state a call leaves, step by step, is the model's when the call passes; when it panics it differs from the state before only in the cache and in whether the mappings are read (the relation of C109), but for generated_position_for, whose library value still satisfies the invariant of C38–C58; the main theorems follow from that invariant; for indexed consumers the sections are marked with whether `computed_column_spans` reaches them |
| C111 | `add_mapping`, `set_source_content`, `as_json`, with the state a panic leaves (M_UnwindGen.v) | histories as a relation, because the order of a list whose sorting panicked is not specified; invariants over histories as in C19–C21: the lists of sources and names follow all adds, the list of mappings those that passed, and for mappings the format can express only `relative` panics; with a root the store of contents follows the calls that passed, by relative path (F_UnwindContents.v) |
| C112 | gen_add_mapping, gen_set_source_content, gen_as_json, ml_add, ml_to_array, ser_loop | two runs compared: the sorted list is the same (distinct positions), the array sets answer index_of alike, the content stores answer alike; then the loop gives one text; original_position_for by comparing C66 on the two maps (F_OrderQueries.v) |
| C113 | bc_original_position_for, bc_generated_position_for, bc_all_generated_position_for on two maps | C66–C68 on both maps; the nearest entry of a list is the nearest of any part of the list that contains it |
| C114 | every query of both consumers, on two maps | relation between consumers that differ in the map only; every function returns related results or the same panic |
| C115 | ic_original_position_for on two maps | the section a position lies in is unique; C109 (a fresh consumer of the section's map answers) and C114 |
| C116 | ic_from_source_map_json, ic_get_sources, ic_has_contents_of_all_sources, ic_source_content_for on joined maps | exact opening condition (C50) split over the two lists; the sections of the joined consumer are those of both; C52, C53, C59 |
| C117 | bc_original_position_for, bc_generated_position_for at two positions | C41 and C42; the nearest entry of a list is monotone in the place asked about |

Nothing is planned as not applicable.

"False expectations" are proved as what the code really does, plus theorems ending in `_refuted` exhibiting a concrete witness against
the natural reading (e.g. C40: `original_position_for` never answers under the default bias).

## 5. Trusted base

* The kernel of Coq 8.16.1 (with its `vm_compute` conversion, used in Examples and a few finite checks).
* `Print Assumptions` is run after every property theorem and prints **"Closed under the global context"** for every one of them:
  no axiom at all, not even of the standard library. There is no `Axiom`, `Parameter`, section-less `Variable`, `Admitted`, functor or
  module type. (`coqchk -o` may list primitive-type axioms of library files that are merely loaded, none is used.)
* The hypotheses `UrlContract U` and `MapLibOk L` where a theorem states them: they are universally quantified premises, not axioms.
  That the real crates meet them is not proved (their source is not available here); that some implementation does is.
* `UrlLib` and `MapLib` do not depend on `mode`: the external crates are taken to behave alike in both build profiles (matters to C60 only).
* The hand translation of the Rust text into the `M_*.v` files. It is supported by `T_Repo.v` (all unit tests of the repository), by the
  line references at each definition, and by the mutation log `/verif/seeded/LOG.jsonl`.

## 6. What is modelled, function by function

| Rust | model | remarks |
|---|---|---|
| `base64.rs` `encode` | `M_Base64.base64_encode` | exact |
| `base64_vlq.rs` `to_vlq_signed`, `base64vlq_encode` | `M_Base64Vlq` | exact, `do..while` loop on fuel 8 (proved sufficient) |
| `array_set.rs` all methods | `M_ArraySet` | exact; `usize` indices as `Z` |
| `binary_search.rs` `recursive_search`, `search` | `M_BinarySearch` | exact; comparison closures may panic |
| `mapping.rs`, `source_map.rs` structs | `M_Mapping`, `M_SourceMap` | exact; `Box` transparent |
| `mapping_list.rs` all functions | `M_Mapping` | `sort_by` as stable insertion sort; `unsorted_for_each` as the list of callback arguments |
| `util.rs` `strcmp`, `compare_by_generated_pos_inflated` | `M_Mapping` | exact |
| `util.rs` URL functions, all | `M_Util` | exact over `UrlLib`; the three `lazy_static` handlers are `safe_handler` with a callback |
| `generator.rs` `new`, `add_mapping`, `set_source_content`, `serialize_mappings`, `generate_sources_contents`, `as_json`, `as_string`, `validate_mapping` | `M_Generator`, `gen_as_string` in `M_Consumer` | exact; the `while` loop over lines has the fuel of the wrapped difference |
| `generator.rs` `from_source_map`, `apply_sourcemap` | `gen_from_source_map`, `gen_apply_sourcemap` | both are `unimplemented!()` |
| `source_map.rs` (de)serialisation | `M_Json` | see section 3; floats are kept only as "some float"; text and tree pass are separate |
| `consumer.rs` `BasicConsumer`, all methods | `M_Consumer` | callbacks of `each_mapping`/`consume` as the list of arguments / the value passed |
| `consumer.rs` `IndexedConsumer`, `Section`, all methods | `M_Indexed` | `RefCell` flags explicit; schedule explicit |
| the same, the state left by a call that panics | `M_Unwind` | basic and indexed consumers; the callback of `each_mapping` does not panic |
| `src/generator.rs`, the state left by a call that panics | `M_UnwindGen` | after a panic in `sort_by` the list is any permutation of what it was (std specifies no more) |
| `consumer.rs` `create_consumer`, `Consumer` accessors | `M_Indexed` | the `_mut` accessors are the same functions on an owned value |

Not modelled: memory use and allocation failure, stack overflow, running time, the values of objects other than consumers and generators after a caught panic, panic
*messages* (only their kind), non-UTF-8 issues (Rust strings are valid by type), `Clone`/`Debug` derives, `main.rs`, `bench/`,
`constants.rs` (test data; used in `T_Repo.v`), real thread timing (only the order of lock acquisition is in the model), callbacks that
re-enter the consumer or panic.

## 7. Mutation testing

`/verif/seeded/LOG.jsonl` has one line per wrong program tried. Fields:

* `definition`, `edit`: the model definition and the change made in a scratch copy.
* `predicted`: the claims named before the run as made false by the edit (empty for systematic edits).
* `claim_broken`: the predicted claims that did fail. Predicted claims that did not fail are removed by a script, and if none is left the
  claims that failed are listed instead, so a wrong prediction shows only by comparing with `predicted`. All such rows were compared with
  the English statements: in each the prediction was wrong, that is, the claim is about another function or stays true under the edit (for
  example C15, which says that certain inputs exist). Some predictions were corrected by hand in the same way before `predicted` was recorded.
* `first_failures`: lemmas, theorems and Examples whose own proof no longer checks when the others are assumed.
* `theorems_failed`: the theorems of the property files that fail or whose proof, as it is now, uses a failing lemma. This is computed from
  the dependencies of the present files, not observed. `examples_failed`: failing Examples.
* `theorems_tightened`: theorems added or strengthened because the edit survived, as far as the commit history shows it.
* `outcome`: `caught` if some proof or Example fails, `equivalent` if no caller can tell the edited program from the original.

A failing lemma does not by itself show that a claim is false: a proof can also break because the text of a definition changed. A failing
Example does show it, since Examples evaluate the definitions on concrete inputs.

Rows were measured at the commit current when the edit was tried, most of them not again since. Many runs rebuilt only the property files
the edit was aimed at. The failures listed are therefore a lower bound, and a lemma listed may since have been replaced by another. Rows
that this left without a failing theorem for their claim were run again: seven edits of the serialiser (C20), `create_consumer` (C30) and
`compute_source_url` (C36). Three rows (`gen_from_source_map`, `gen_apply_sourcemap` and one of `replace_trailing_slash`) were entered as
caught in earlier versions of the log without a run after the theorem was added; they have now been run and are caught.

The rows whose note says "systematic single-token edit" come from a mechanical campaign: operators, constants, constructors and accessors
are replaced by a near neighbour, adjacent arguments are swapped, string constants are cut, and whole updates are dropped. It takes the
1471 possible edits in random order and did not get through all of them. `M_MapLib.v` is left out, and after the first survivors so are
`adjust_each`, `adjust_all_generated` and `ic_generated_position_for`. Edits that do not type-check are not logged. A run stops at the
first failure other than an Example. For these rows nobody predicted a claim: `claim_broken` lists the properties with a failing theorem or
Example. Survivors were examined by hand; each equivalent one says why.
