# Formal model of tinne26/ggfnt in Rocq (Coq 8.16.1)

Sources are in `/repo` (Go, read only, never run). The model lives in
`rocq/theories`, logical name `Verif`. Properties are in `properties.jsonl`,
the claim table in `MANIFEST.json`, the mutation log in `seeded/LOG.jsonl`.
In that log `first_failures` are the proofs the build stopped in and `failed` the theorems that use
them, found through the cross references Coq writes (`.glob`). Early lines were counted by matching names in the text,
so they may miss theorems; those that listed too many have been corrected.

## Conventions

* Integers are `Z`. Wherever the Go code computes in a fixed width type and the
  width can matter, the wrap (`mod 2^8`, `2^16`, `2^32`, `2^64`) is written in the model.
* A byte slice is a `list Z`; well-formed data is `Forall byte`. Aliasing between slices
  is not modelled except where a function's observable effect depends on it
  (stated at the definition).
* Every function that can panic or fail returns `outcome A`:
  `Ok a | Err msg | Panic`. Index and slice accesses out of range are `Panic`,
  explicit `panic(...)` calls too. Nothing is totalised with a default.
* Pointers mutated in place become functions returning the new value.
* Loops are structural recursions, folds, or recursions on fuel. When fuel is used
  the out-of-fuel outcome is a distinct constructor or the theorems show it is not
  reached.
* The environment is an explicit argument: the chunks an `io.Reader` (after gzip)
  delivers, the order a Go map is iterated in, the permutation an unstable sort
  produces, the random numbers. Theorems quantify over it.
* Each area has `Model_*.v` (definitions with file/line citations, no proofs),
  `Spec_*.v` where a separate specification is needed, `Proofs_*.v` and
  `Properties_*.v`. Properties files contain only the theorems (closed by `exact`),
  the concrete examples beside them and `Print Assumptions`.
* When the code violates a property, the theorem is named `..._refuted` and exhibits
  a witness computed by the model; the strongest true restriction is named
  `..._partial`.

## Plan per property

| id | what is modelled | how it is proved |
|----|------------------|------------------|
| C01 | the LE encode/decode/append helpers with explicit masks and shifts | byte-wise arithmetic (div/mod), round-trip both ways |
| C02 | AppendShortString/AppendString, ReadShortStr/ReadString over the chunked reader | reader refinement lemma (C18) + codec lemmas |
| C03 | BoolList as size + byte list with bit operations | refinement to `list bool`, induction over operation lists |
| C04 | BadBinarySearch loop, insert loop, DeleteElementAt | loop invariants, sortedness by induction |
| C05 | AppendByteDigits | finite domain lifted to all bytes, against the decimal value |
| C06-C08 | CircularBufferU16 field by field with 16-bit wrap | abstraction to a list; step-wise refinement; refutation witnesses for the capacity defects; `cb_shape` and `next_place` say for every 16-bit capacity which place a push writes and when a shrunk empty buffer breaks |
| C09 | Retrieve/Release as atomic compare-and-swap steps of any number of threads | invariant over all step sequences |
| C10 | IsValid, isLeapYear, monthDays | case analysis against a Gregorian specification; refutation for month 0 |
| C11 | ValidateBasicName byte loop | induction over the string against a declarative specification; refutations |
| C12 | GetPredefinedWord table, GetWord | finite table, lifted |
| C13, C14 | both passes of Rasterize on byte lists | simulation between passes, drawn-set specification |
| C15, C16 | encoder: neighbour counting, line, rectangle, diagonal search, clearing, op emission | invariants: fragments disjoint and covering; decoding emission; any permutation |
| C17 | ComputeRect loops | invariants against bounding-box specification |
| C18-C21 | ParsingBuffer over a chunked reader, Parse field by field | refinement of chunked reads to reads on the flat payload; the results taken from the reader as a function of the content (`received`); refutation witnesses |
| C22-C24, C26, C27 | accessors over `Data` and offsets | encoded-section specification, offset arithmetic; `foreign_mask` for glyph indices of no glyph |
| C25 | FindIndexByName, bytesSmallerThanStr | refutation; exactly which names a bisection with this comparison finds (`probed`, `passes`) |
| C28 | EvaluateSwitch with 8-bit wrap | mixed radix specification |
| C29-C31 | Utf8, Utf8WithCache, Select, Size | binary search lemma, staircase walk; refutations for ranges and lists; where the code looks directly behind a misjudged case (`stride`), and behind any cases (`walk`) |
| C32 | SettingsCache with its BoolLists | invariant over histories |
| C33, C34 | MappingCache with linked entries and map | coherence invariant; refutation of recency |
| C35 | kerning Get/GetVert | binary search lemma on encoded tables |
| C36 | EvaluateCondition, evalConditionSubexpr, skipConditionSubexpr | encoding of condition trees; a relation on sequences of conditions equal to what the code computes (`evaluated`); general refutation |
| C37-C39 | EachOut, EachRange, EachList*, Get*Rule, Get*Set | encoded blocks; refutations; outputs of code point rules read across the bytes of several (`Spec_Outputs`) |
| C40-C44 | Build section by section, Parse | per-section round trip; refutations; option names and stored words for every map order; switched lookups for any groups (`stored_as`, `walk`) |
| C45 | AppendTo of rules, RuleScanner | induction over fragments |
| C46, C47 | builder operations | step invariants; refutations |
| C48-C50 | RuleScanner, State, DecisionTreeCompiler | refutations; trie invariant for rules over an alphabet of disjoint ranges (single elements, or sets that are one range); chains of states for rules with any sets that share no first member (`Spec_Fans`) |
| C51-C55 | Tester with its trees and accumulator | refinement to a reference rewriting, for rules over disjoint ranges and (`Spec_TesterFans`) with any sets that share no first member; refutation witnesses |
| C56 | Parse on the layouts of the specification | the parser's steps on stored sections, one lemma per section |
| C57 | EachDyeAlpha, EachPaletteColor of the builder | induction over the sections; refutations |
| C58, C59 | compileRewriteCondition, String of conditions | grammar of texts as an inductive predicate; case analysis of the compiler, induction over conditions |
| C60, C61 | ParseEditionData over a chunked reader | refinement to reads on the flat payload, stored sections; invariant for failures; outcomes as equivalences; refutations |
| C62-C64 | setters of the builder, New, AddGlyph | UTF-8 specification by encoding; case analysis; invariant over histories; refutations |
| C65, C66 | Validate, Export with an arbitrary writer, glyph ranges | the checks made while parsing survive later reads; induction over the calls of Write; refutations |
| C67-C71 | Build, then the accessors of the font (glyphs, header, metrics, colors, settings, switches, glyph sets) | the description of a built font (C46) joined with the accessor theorems; refutations |
| C73 | Parse against specification.md | demands as predicates on layouts; C56_exact; one witness per unchecked demand |
| C74 | builder mapping calls | acceptance as an equivalence; `maps`: one mapping changes, all other fields equal |
| C75 | builder kerning, set and rule calls | acceptance as an equivalence; `sets`, `is_rule`: one set or rule changes, all other fields equal |
| C76 | LazyEntropyUint64, Header.Validate, New | digits of an ID by division; the float comparison is over the rationals |
| C77 (and C48 exactly) | RuleScanner | simulation by a scanner over the bytes that are left, then fragments and blocks as equivalences; refutations |
| C78-C80 | all calls of the builder, Build | case analysis of every call: what it changes, what it depends on; induction over histories; refutations |
| C81 | Parse, accessors of Model_Font.v and Model_Rewrites.v | a weakest precondition for the parser on a complete buffer (Proofs_Flat.v) gives the frame of every section; the accessors are computed from the frames; refutation |
| C82 | ParsingBuffer and Parse over a reader that fails | every step of the parser either stays within what was sent, is decided by it, or meets the failure (`Proofs_Failing`); readers that go on failing are followed through the kernings, whose errors are dropped, to the last check (`Proofs_Sticky`); refutation |
| C83 | ParseEditionData over a reader that fails | the same for the steps that read and change the builder (`Proofs_EdFailing`); the end of the data is only taken from the reader |
| C72 | Builder, Build, rule accessors, scanner, decision tree and tester together | C45 and C51 joined, without sets, with sets of one range and (`Spec_Meant2`) with any sets; refutations |

## Trusted base

* Coq's kernel (8.16.1) including `vm_compute`. No axioms: see the list at the end. The gate
  lists the axioms that are merely present in loaded library files (ssreflect's `Under_rel`);
  no theorem uses them.
* The reading of the Go sources recorded in the comments of the `Model_*.v` files, that is: that
  each definition does what the cited lines do. Nothing connects the two but the citation.
* The `Spec_*.v` files, which say what the theorems mean. They do not use the model's helpers,
  except for the data types of the model where a statement is about them.

## What is modelled

| code | model | simplifications |
|------|-------|-----------------|
| internal/helpers.go | Model_Helpers.v | encode/decode/append, BoolList, BadBinarySearch, insertion and deletion, AppendByteDigits. Slices have no capacity; GrowSliceByN yields zeros. |
| internal/circular_buffer.go | Model_CircularBuffer.v | all methods, 16 bit wraps |
| internal/single_instance_pool.go | Model_Pool.v | atomic steps of any number of goroutines; sequentially consistent |
| date.go, name checks of the helpers, words.go | Model_Date.v, Model_Names.v, Model_Words.v | all |
| internal/parsing_buffer.go, parse.go | Model_Parse.v | gzip is not modelled: the reader after gzip is an arbitrary list of chunks ending in an error or EOF; that gzip.Reader keeps its first error is a hypothesis of some C82 theorems only. `unsafe.String` is a checked slice. Prefixes added by NewError are dropped. Allocations above 2^48 panic. |
| font.go, glyph.go, mapping | Model_Font.v | accessors of all sections; offsets are uint32 in Go and unbounded here (fonts are at most 32 MiB, below any wrap) |
| font.go, rewrites | Model_Rewrites.v | rules, sets, conditions. Callbacks are functions with a state. Recursion of conditions on fuel, running out is `Hang`; proved not to happen. |
| settings_cache.go, mapping_cache.go | Model_Caches.v | Go maps are association lists; a state is returned beside every outcome |
| mask/*.go | Model_Mask.v | int overflow is not modelled; of package image only Alpha, Rect and Point as used. The sort of the fragments is an arbitrary permutation. |
| builder/*.go | Model_Builder.v | maps as association lists, one iteration order (`order`) per range statement, quantified over; random UIDs as arguments; temporary buffers omitted (Build empties them before each use: font_builder.go:199, 288, 453, 606, 637, mask/encoder.go:12); aliasing of slices given by the caller not modelled; slices.Sort is insertion sort |
| internal/rerules/*/rule_scanner.go | Model_Scanner.v | one model for both packages (`kind`); after an error the scanner's state is dropped |
| internal/rerules/*/decision_tree*.go | Model_Tree.v | one model for both packages. States and transitions are lists addressed by index; a transition inserted into a state after `states` has grown in the same call of AppendRange (whose receiver may be an outdated copy) is the error `not modelled`, which no theorem lets pass for success. Contents of freed states are not kept. Not kept: the compiler's font, StateIndex (the flag `compiling` is in Model_Tester.v) |
| internal/rerules/*/tester.go, tester_tree_instance.go; rerules/*_tester.go | Model_Tester.v | one model for both packages. The callback is the list of elements reported. The font's sets and the values of conditions are arguments of each call. Of the compiler pool only the shared instance with its flag `compiling`. New trees start from the zero value. After a failed compilation the tree's old states are kept (the code may have overwritten some). The testers of package rerules forward every call and have no definitions of their own |
| builder/font_builder_rewrite_condition.go, trimSpaces and startsWith of builder/helpers.go | Model_Conditions.v | the regular expression is a function that matches it greedily. Recursion on fuel, running out is `Hang` (unbounded recursion of the code if it happens for every fuel). Error texts are shortened. |
| builder/font_builder.go: ParseEditionData, ClearEditionData | Model_Edition.v | the edition data beside the builder of Model_Builder.v in the record `wk`; reader and gzip as for Parse. Steps return the builder also when they fail. Error texts are shortened. |
| font.go: Export, Validate; glyph.go: GlyphRange; builder: New's font ID, Export | Model_Export.v | a writer is the list of results of its calls of Write; gzip.Writer is the list of chunks it passes on, keeping the first error |

Not modelled: builder NewFrom, ExportEditionData and ValidateEditionData (they panic
"unimplemented"), outline_builder.go (empty); everything
that exists in test files only.

Spec_Format.v, Spec_Layout.v and Spec_LayoutFont.v describe the file format after
specification.md (a `layout` is a font as data, `font_bytes` its bytes). Spec_Accept.v states the
limits of parse.go, Spec_Build.v those the builder has to respect to be parsed, Spec_Survive.v
and Spec_Rules.v what a history of builder calls should leave in the font, Spec_Scanner.v what
scanning should give, Spec_Tree.v what matching should give, Spec_Edition.v the layout of edition data and Spec_EditionBuilder.v
what it should do to a builder, Spec_Texts.v, Spec_Props.v and Spec_Export.v texts, the parts of a builder and written files,
Spec_Tester.v, Spec_Session.v, Spec_TesterRules.v and Spec_TesterSets.v what a tester should report in a session of calls. Sample.v and Sample_Builder.v are concrete fonts for the examples.

## Assumptions per theorem

<!-- assumptions -->
`Print Assumptions` answers "Closed under the global context" (no axioms at all) for every
one of these theorems:

* `Properties_Again.v`: C78_color_refuted, C78_again, C78_builder, C78_fonts_partial, C79_build_refuted, C79_partial, C80_part, C80_local, C80_exchange
* `Properties_AnyReader.v`: C20_any_reader_partial
* `Properties_Beyond.v`: C31_beyond_partial
* `Properties_Bisect.v`: C25_exact_partial, C25_one_length_partial
* `Properties_Broken.v`: C61_exact_partial, C61_signature_partial
* `Properties_Build.v`: C56_accepted, C56_exact, C40_refuted, C40_partial, C40_exact_partial
* `Properties_Builder.v`: C46_range_refuted, C46_set_refuted, C46_range_never_removed_refuted, C46_listed_never_removed_refuted, C46_rune_range_never_removed_refuted, C46_rune_listed_never_removed_refuted, C46_removed_never_builds_refuted, C46_add_range_partial, C46_add_listed_partial, C46_remove_set_partial, C47_add_dye, C47_add_palette, C47_add_setting, C47_add_switch, C47_limits, C47_sections_refuted, C47_sections_partial
* `Properties_Caches.v`: C30_lookup_with_cache, C32_no_stale_values, C32_unknown_keys, C33_transparent, C33_visible, C34_recency_refuted, C34_every_size_refuted, C34_unused_entry_refuted, C34_last_is_hit_partial, C34_bound_partial, C34_one_entry_partial, C34_exact_partial
* `Properties_Calls.v`: C74_map_partial, C74_group_partial, C74_singles_partial, C74_switch_partial, C74_unknown_refuted, C74_one_glyph_refuted, C75_kerning_partial, C75_create_set_partial, C75_range_partial, C75_listed_partial, C75_utf8_rule_partial, C75_glyph_rule_partial, C75_rune_sets_refuted, C75_kerning_unknown_refuted, C75_empty_rule_refuted
* `Properties_Choices.v`: C43_sorted_partial
* `Properties_CircularBuffer.v`: C06_circular_buffer_partial, C06_circular_buffer_refuted, C07_set_capacity_refuted, C07_set_capacity_partial, C06_reachable_rep, C08_any_capacity_refuted, C08_capacity_32768_partial
* `Properties_Colors.v`: C57_success_refuted, C57_index_refuted, C57_palette_refuted, C57_palette_index_refuted, C57_dyes_partial, C57_first_palette_partial, C57_palettes_partial, C57_unknown
* `Properties_Conditions.v`: C58_parentheses_refuted, C58_groups_refuted, C58_comparisons_refuted, C58_numbers_refuted, C58_quick_partial, C58_accepted, C58_meaning_partial, C58_rejected, C59_string, C59_others, C59_round_trip
* `Properties_Date.v`: C10_isvalid_refuted, C10_isvalid_no_month_refuted, C10_isvalid_partial, C10_isvalid_day_without_month_partial, C10_string_total, C10_complete, C10_complete_text
* `Properties_Demands.v`: C73_checked_partial, C73_unchecked_refuted, C73_version_refuted
* `Properties_EdFailing.v`: C83_reported, C83_decided, C83_refused
* `Properties_Edition.v`: C60_width_refuted, C60_width_no_pairs_refuted, C60_category_name_refuted, C60_sizes_refuted, C60_class_refuted, C60_read_partial, C60_only_partial, C60_signature, C61_index_refuted, C61_trailing_refuted, C61_leftover_refuted, C61_cleared_partial, C61_ends
* `Properties_Entropy.v`: C76_refuted, C76_exact_partial, C76_upper_refuted, C76_parse_partial, C76_new_partial
* `Properties_Evaluate.v`: C36_exact_partial, C36_small_tables_refuted
* `Properties_Export.v`: C65_strict_refuted, C65_built_refuted, C65_parsed_partial, C65_built_partial, C65_ranges, C66_written, C66_read_back_refuted, C66_read_back_partial, C66_built_partial, C66_failed_build
* `Properties_Failing.v`: C82_reported_partial, C82_prefix_partial, C82_accepted
* `Properties_Fans.v`: C49_fans_partial, C49_rune_fans_partial, C50_fans_partial, C50_rune_fans_partial, C50_empty_refuted
* `Properties_Font.v`: C12_distinct_refuted, C12_total, C12_invalid_panics, C12_distinct_partial, C12_own_words_first, C22_family_refuted, C22_strings_partial, C23_header_fields, C23_metrics_fields, C23_parsed_fonts_readable, C24_names_and_counts, C24_count_not_truncated, C24_colors_in_order, C24_go_palette, C25_stored_name_refuted, C25_found_is_right_partial, C25_stored_name_partial, C26_out_of_range_refuted, C26_advance, C26_placement, C26_mask_partial, C27_options, C27_names, C28_mixed_radix, C28_any_size, C28_injective, C29_switch_case_refuted, C29_not_found, C29_found_partial, C31_select_refuted, C31_flags_refuted, C31_size, C31_other_choices_panic, C31_select_partial, C31_list_steps_partial, C31_flags_partial, C31_direct, C35_horizontal, C35_vertical
* `Properties_Foreign.v`: C26_foreign_partial
* `Properties_Helpers.v`: C01_uint16_codec, C01_uint24_codec, C01_uint32_codec, C01_uint64_codec, C01_encode_in_place, C01_digits, C01_decode_date, C03_boollist_history, C04_search, C04_insert, C04_delete, C05_byte_digits
* `Properties_Kept.v`: C67_name_refuted, C67_name_partial, C67_glyph_partial, C67_count_partial, C68_family_refuted, C68_numbers, C68_strings_partial, C68_metrics, C69_empty_refuted, C69_nameless_refuted, C69_partial, C69_exact_partial, C70_no_options_refuted, C70_combinations_refuted, C70_settings_partial, C70_switch_partial, C71_sets
* `Properties_Mask.v`: C13_rasterize_refuted, C13_rasterize_partial, C13_rasterize_long_partial, C14_rasterize_image, C14_rasterize_nothing, C14_rasterize_accepts, C17_compute_rect, C15_encode_roundtrip, C16_encode_total
* `Properties_Meant.v`: C72_outputs_refuted, C72_unknown_refuted, C72_many_refuted, C72_glyphs_partial, C72_sets_partial, C72_runes_partial
* `Properties_Meant2.v`: C72_fans_partial
* `Properties_Names.v`: C11_basic_name_refuted, C11_basic_name_partial, C11_well_formed_accepted, C11_accepts_loose, C11_validation_total, C11_spaced_name
* `Properties_Options.v`: C42_lengths, C42_predefined_partial, C42_text
* `Properties_Outputs.v`: C29_behind_partial, C37_utf8_exact_partial
* `Properties_Oversize.v`: C19_oversize_refuted, C19_before_kernings
* `Properties_Oversize2.v`: C19_oversize_chunks_refuted
* `Properties_Parse.v`: C02_short_string_roundtrip, C02_long_string_roundtrip, C02_short_slice_skipped, C02_encoding_total, C18_reader_independence_refuted, C18_same_error_partial, C18_same_font_partial, C19_sections_in_order, C19_data_is_payload_partial, C19_data_is_prefix_partial, C19_data_is_payload_refuted, C20_never_panics_refuted, C20_panics_only_on_trailing_data_partial, C20_sections_never_panic, C20_terminates, C21_truncation_refuted, C21_padding_refuted, C21_truncation_partial
* `Properties_Parsed.v`: C81_accessors_refuted, C81_counts, C81_sizes, C81_blocks_partial, C81_enumerations_partial, C81_glyphs_partial, C81_find_partial, C81_missing, C81_kerning, C81_rising
* `Properties_Parsed2.v`: C81_switch_partial, C81_found, C81_mapping_partial, C81_direct
* `Properties_Parsed3.v`: C81_mask_partial, C81_mask_refuted
* `Properties_Pool.v`: C09_pool_safe, C09_pool_reuse
* `Properties_Props.v`: C62_texts, C63_add_glyph, C63_set_placement, C63_set_name, C64_raise_refuted, C64_date_refuted, C64_vertical_refuted, C64_raise_partial, C64_raise_changes, C64_set_version, C64_dates_partial, C64_metrics, C64_vert_layout, C64_vertical_partial, C64_new
* `Properties_RasterExact.v`: C13_panics_exactly_partial
* `Properties_Reader.v`: C18_exact_partial, C20_exact_partial, C21_padding_partial
* `Properties_Rewrites.v`: C36_condition_refuted, C36_first_condition_panics_refuted, C36_comparison_refuted, C36_subexpression_partial, C36_skip_partial, C36_terminates_partial, C37_each_out_refuted, C37_too_few_refuted, C37_glyph_outputs_partial, C37_utf8_outputs_partial, C37_fields, C37_equals, C38_utf8_ranges_refuted, C38_utf8_ranges_partial, C38_utf8_elements, C38_glyph_ranges, C38_glyph_elements, C39_glyph_rule, C39_utf8_rule, C39_glyph_set, C39_utf8_set, C39_later_sets_nonempty
* `Properties_Scan.v`: C48_exact_glyph_partial, C48_exact_utf8_partial, C77_cut_refuted, C77_first_control_refuted, C77_empty_blocks_refuted, C77_glyph_partial, C77_utf8_partial
* `Properties_Scanner.v`: C48_short_refuted, C48_zero_refuted, C48_longer_refuted, C48_glyph_partial, C48_utf8_partial, C45_no_output_refuted, C45_long_output_refuted, C45_two_outputs_refuted, C45_replacement_char_refuted, C45_glyph_partial, C45_utf8_partial
* `Properties_Steps.v`: C43_walk_partial
* `Properties_Sticky.v`: C82_misreported_refuted, C82_partial, C82_decided_partial, C82_refused
* `Properties_Stored.v`: C41_words_partial
* `Properties_Survive.v`: C41_refuted, C41_one_word_partial, C41_other_orders_partial, C42_refuted, C42_partial, C43_order_refuted, C43_gap_refuted, C43_not_found, C43_partial, C44_horizontal, C44_vertical, C44_vertical_refuted
* `Properties_Tail43.v`: C43_behind_partial
* `Properties_Tester.v`: C51_outputs_refuted, C51_tail_refuted, C51_peeks_refuted, C51_conditions_refuted, C51_glyphs_partial, C51_runes_partial, C51_room_partial, C51_runes_room_partial, C51_glyphs_longest_partial, C51_runes_longest_partial, C51_unique_partial, C51_replaces_partial, C52_leftover_refuted, C52_glyphs_partial, C52_runes_partial, C53_applied_refuted, C53_no_effect_refuted, C53_values_partial, C54_others_refuted, C54_same_refuted, C54_compiled_partial, C55_new_refuted, C55_removed_refuted, C55_swallowed_refuted, C55_glyphs_partial, C55_runes_partial
* `Properties_TesterFans.v`: C51_fans_partial, C51_runes_fans_partial, C51_fans_room_partial, C51_fans_longest_partial, C51_runes_fans_longest_partial, C52_fans_partial, C52_runes_fans_partial, C55_fans_partial, C55_runes_fans_partial
* `Properties_TesterSets.v`: C51_sets_partial, C51_runes_sets_partial, C51_sets_room_partial, C51_runes_sets_room_partial, C51_sets_longest_partial, C51_runes_sets_longest_partial, C51_sets_unique_partial, C52_sets_partial, C52_runes_sets_partial, C55_sets_partial, C55_runes_sets_partial
* `Properties_Tree.v`: C49_lost_refuted, C49_wrong_refuted, C49_later_refuted, C49_last_rune_refuted, C49_glyph_partial, C49_utf8_partial, C49_ranges_partial, C49_runes_partial, C50_middle_refuted, C50_overlap_refuted, C50_third_refuted, C50_glyph_partial, C50_utf8_partial, C50_ranges_partial, C50_runes_partial
* `Properties_Valid65.v`: C65_built_exact, C65_built_error
* `Properties_Walk.v`: C29_walk_partial
* `Properties_WideCap.v`: C07_exact_partial, C08_place_partial, C08_head_partial
* `Properties_WidePeek.v`: C06_look_partial, C06_confirm_partial, C06_pop_partial
* `Properties_Wrapped.v`: C22_wrapped, C22_about_refuted, C68_wrapped
* `Properties_Zero.v`: C34_zero_refuted, C34_zero_general_refuted
