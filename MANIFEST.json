{
 "claims": [
  {
   "property": "C01",
   "status": "proved",
   "theorems": [
    "C01_uint16_codec",
    "C01_uint24_codec",
    "C01_uint32_codec",
    "C01_uint64_codec",
    "C01_encode_in_place",
    "C01_digits",
    "C01_decode_date"
   ],
   "note": "All widths, any surrounding bytes; the 24-bit codec reduces modulo 2^24."
  },
  {
   "property": "C02",
   "status": "proved",
   "theorems": [
    "C02_short_string_roundtrip",
    "C02_long_string_roundtrip",
    "C02_short_slice_skipped",
    "C02_encoding_total"
   ],
   "note": "Strings written by AppendShortString/AppendString are read back exactly by ReadShortStr/ReadString from every position and every chunking (payloads up to 32 MiB); AdvanceShortSlice skips them; too long strings panic."
  },
  {
   "property": "C03",
   "status": "proved",
   "theorems": [
    "C03_boollist_history"
   ],
   "note": "Refinement to a plain list of booleans over every operation history; SetU8 is covered for every uint8 index, out-of-size writes are invisible."
  },
  {
   "property": "C04",
   "status": "proved",
   "theorems": [
    "C04_search",
    "C04_insert",
    "C04_delete"
   ],
   "note": "Any strict total order; spare capacity of the slice is modelled."
  },
  {
   "property": "C05",
   "status": "proved",
   "theorems": [
    "C05_byte_digits"
   ],
   "note": "Every byte and every prefix."
  },
  {
   "property": "C06",
   "status": "partial",
   "theorems": [
    "C06_circular_buffer_partial",
    "C06_circular_buffer_refuted",
    "C06_reachable_rep",
    "C06_look_partial",
    "C06_confirm_partial",
    "C06_pop_partial"
   ],
   "note": "False as stated: removing elements so that a pending look-ahead stands behind the last one breaks the cursor (C06_circular_buffer_refuted). Proved for all other histories with capacities up to 32768 that do not shrink an empty buffer. C06_look_partial, C06_confirm_partial, C06_pop_partial: looking ahead, confirming and removing the head use the right places at every 16-bit capacity."
  },
  {
   "property": "C07",
   "status": "partial",
   "theorems": [
    "C07_set_capacity_refuted",
    "C07_set_capacity_partial",
    "C07_exact_partial"
   ],
   "note": "False as stated (C07_set_capacity_refuted): shrinking an empty buffer to exactly its head position makes the next Head panic. C07_exact_partial: for every 16-bit old and new capacity, Head panics in exactly that case and returns the pushed element in every other."
  },
  {
   "property": "C08",
   "status": "partial",
   "theorems": [
    "C08_any_capacity_refuted",
    "C08_capacity_32768_partial",
    "C08_place_partial",
    "C08_head_partial"
   ],
   "note": "False for capacities above 32768 (C08_any_capacity_refuted): a push into a non-full buffer overwrites the head. Proved up to 32768. For every 16-bit capacity C08_place_partial says which place a push writes (one too far exactly when head position and fill level add up to 65536 or more) and that Tail returns it; C08_head_partial says exactly when the head is overwritten."
  },
  {
   "property": "C09",
   "status": "proved",
   "theorems": [
    "C09_pool_safe",
    "C09_pool_reuse"
   ],
   "note": "Every history of operations on the slice pool; a reused slice is never one still in use."
  },
  {
   "property": "C10",
   "status": "partial",
   "theorems": [
    "C10_isvalid_refuted",
    "C10_isvalid_no_month_refuted",
    "C10_isvalid_partial",
    "C10_isvalid_day_without_month_partial",
    "C10_string_total",
    "C10_complete",
    "C10_complete_text"
   ],
   "note": "False as stated (C10_isvalid_refuted, C10_isvalid_no_month_refuted). Proved for the dates with a month and for the dates without one separately."
  },
  {
   "property": "C11",
   "status": "partial",
   "theorems": [
    "C11_basic_name_refuted",
    "C11_basic_name_partial",
    "C11_well_formed_accepted",
    "C11_accepts_loose",
    "C11_validation_total",
    "C11_spaced_name"
   ],
   "note": "False as stated in two ways (C11_basic_name_refuted): double hyphens and a leading digit are accepted. Proved: agreement with the format outside those cases, the exact accepted language, every well-formed name is accepted, no panic; the spaced variant is exact."
  },
  {
   "property": "C12",
   "status": "partial",
   "theorems": [
    "C12_distinct_refuted",
    "C12_total",
    "C12_invalid_panics",
    "C12_distinct_partial",
    "C12_own_words_first"
   ],
   "note": "Distinctness is false: many indices share the word \"undefined\" (refuted with 0 and 1). Totality, the panic on invalid indices, precedence of own words and distinctness of every other word are proved."
  },
  {
   "property": "C13",
   "status": "partial",
   "theorems": [
    "C13_rasterize_refuted",
    "C13_rasterize_partial",
    "C13_rasterize_long_partial",
    "C13_panics_exactly_partial"
   ],
   "note": "False as stated (C13_rasterize_refuted): 393218 bytes can ask for a mask beyond the largest allocation. Proved for inputs up to 30000 bytes, and up to 2^50 bytes exactly when it panics (the allocation) and when it fails."
  },
  {
   "property": "C14",
   "status": "proved",
   "theorems": [
    "C14_rasterize_image",
    "C14_rasterize_nothing",
    "C14_rasterize_accepts"
   ],
   "note": "Coordinates are unbounded integers; inputs up to 2^50 bytes, below which int cannot overflow."
  },
  {
   "property": "C15",
   "status": "proved",
   "theorems": [
    "C15_encode_roundtrip"
   ],
   "note": "Any permutation for the unstable sort; any mask the encoder accepts whose rectangle's positions have bytes. int overflow is not modelled."
  },
  {
   "property": "C16",
   "status": "proved",
   "theorems": [
    "C16_encode_total"
   ],
   "note": "Any permutation for the unstable sort."
  },
  {
   "property": "C17",
   "status": "proved",
   "theorems": [
    "C17_compute_rect"
   ],
   "note": "Any stride and position, provided the rectangle's positions have bytes."
  },
  {
   "property": "C18",
   "status": "partial",
   "theorems": [
    "C18_reader_independence_refuted",
    "C18_same_error_partial",
    "C18_same_font_partial",
    "C18_exact_partial"
   ],
   "note": "Refuted: trailing bytes are accepted or panic depending on the chunks, and a signature arriving in pieces is refused. Proved: exactly how the result depends on the reader (the error never, the font only through bytes behind the content), for payloads up to 32 MiB."
  },
  {
   "property": "C19",
   "status": "partial",
   "theorems": [
    "C19_oversize_refuted",
    "C19_before_kernings",
    "C19_oversize_chunks_refuted",
    "C19_sections_in_order",
    "C19_data_is_payload_partial",
    "C19_data_is_prefix_partial",
    "C19_data_is_payload_refuted"
   ],
   "note": "Refuted for a reader returning trailing bytes together with io.EOF, and for payloads over 32 MiB, where Data can contain zeros that were never sent, also when every read returns at most 1024 bytes. Proved: section offsets ordered inside Data and everything before the kernings as it was sent, for every reader; Data = payload when io.EOF is reported alone or the content fills the payload."
  },
  {
   "property": "C20",
   "status": "partial",
   "theorems": [
    "C20_any_reader_partial",
    "C20_never_panics_refuted",
    "C20_panics_only_on_trailing_data_partial",
    "C20_sections_never_panic",
    "C20_terminates",
    "C20_exact_partial"
   ],
   "note": "Refuted: bytes behind the content make EnsureEOF panic. Proved: no panic before that check and termination for any reader; exactly which payloads and readers lead to that panic; and for any reader and amount of data that results which alone give a font come before it."
  },
  {
   "property": "C21",
   "status": "partial",
   "theorems": [
    "C21_truncation_refuted",
    "C21_padding_refuted",
    "C21_truncation_partial",
    "C21_padding_partial"
   ],
   "note": "Refuted: cuts inside the kerning counters are accepted, padding is accepted. Proved: exactly which cuts inside the content are accepted, and that all padding is when it comes with the end of the data."
  },
  {
   "property": "C22",
   "status": "partial",
   "theorems": [
    "C22_family_refuted",
    "C22_strings_partial",
    "C22_wrapped",
    "C22_about_refuted"
   ],
   "note": "False in general: the offsets of family, author and about are computed in uint8, so long strings wrap around (refuted with a 255-byte name). Proved for the name always, and for the others as long as what precedes them ends below 256; and exactly what each of them returns behind the first position that wraps, including that About panics behind 223, 224 or 479 bytes of texts. Not stated: texts behind one that is itself misread."
  },
  {
   "property": "C23",
   "status": "proved",
   "theorems": [
    "C23_header_fields",
    "C23_metrics_fields",
    "C23_parsed_fonts_readable"
   ],
   "note": ""
  },
  {
   "property": "C24",
   "status": "proved",
   "theorems": [
    "C24_names_and_counts",
    "C24_count_not_truncated",
    "C24_colors_in_order",
    "C24_go_palette"
   ],
   "note": ""
  },
  {
   "property": "C25",
   "status": "partial",
   "theorems": [
    "C25_exact_partial",
    "C25_one_length_partial",
    "C25_stored_name_refuted",
    "C25_found_is_right_partial",
    "C25_stored_name_partial"
   ],
   "note": "Refuted: a stored name can be missed, since names of one length never compare as smaller. What is returned is always the index of that name or GlyphMissing, and it is stated exactly which stored names are found (by the positions a bisection looks at); in fonts whose names are all of one length only the first one is."
  },
  {
   "property": "C26",
   "status": "partial",
   "theorems": [
    "C26_out_of_range_refuted",
    "C26_advance",
    "C26_placement",
    "C26_mask_partial",
    "C26_foreign_partial"
   ],
   "note": "RasterizeMask does not check the index and reads foreign bytes beyond the last glyph (refuted). Everything else, including the panics of Advance and Placement, is proved, and for every such index which bytes are read as its mask and when it panics."
  },
  {
   "property": "C27",
   "status": "proved",
   "theorems": [
    "C27_options",
    "C27_names"
   ],
   "note": ""
  },
  {
   "property": "C28",
   "status": "proved",
   "theorems": [
    "C28_mixed_radix",
    "C28_any_size",
    "C28_injective"
   ],
   "note": ""
  },
  {
   "property": "C29",
   "status": "partial",
   "theorems": [
    "C29_switch_case_refuted",
    "C29_not_found",
    "C29_found_partial",
    "C29_behind_partial",
    "C29_walk_partial"
   ],
   "note": "False for switches with ranges of 2 to 127 glyphs in cases before the selected one (refuted). Proved for all other tables; not-found is exact. Proved also what is found exactly when the case directly behind such a range, or behind a list of 128 glyphs, is selected (C29_behind_partial), and for any cases in terms of a walk over their bytes (C29_walk_partial)."
  },
  {
   "property": "C30",
   "status": "proved",
   "theorems": [
    "C30_lookup_with_cache"
   ],
   "note": "Every answer, including errors and panics, for every history from a new cache."
  },
  {
   "property": "C31",
   "status": "partial",
   "theorems": [
    "C31_beyond_partial",
    "C31_select_refuted",
    "C31_flags_refuted",
    "C31_size",
    "C31_other_choices_panic",
    "C31_select_partial",
    "C31_list_steps_partial",
    "C31_flags_partial",
    "C31_direct"
   ],
   "note": "Select steps lists by 4 bytes and AnimationFlags reads one byte too far (both refuted). Size, ranges, single glyphs, direct mappings, first glyphs of lists and the panics are proved, and what is returned instead is stated for every other choice (every second glyph, then bytes behind the list, C31_beyond_partial)."
  },
  {
   "property": "C32",
   "status": "proved",
   "theorems": [
    "C32_no_stale_values",
    "C32_unknown_keys"
   ],
   "note": "For any evaluation functions; setting an unknown key panics and leaves the cache as it was."
  },
  {
   "property": "C33",
   "status": "proved",
   "theorems": [
    "C33_transparent",
    "C33_visible"
   ],
   "note": "Everything accessible of a group is equal; the private switch number is not compared."
  },
  {
   "property": "C34",
   "status": "partial",
   "theorems": [
    "C34_recency_refuted",
    "C34_every_size_refuted",
    "C34_unused_entry_refuted",
    "C34_last_is_hit_partial",
    "C34_bound_partial",
    "C34_one_entry_partial",
    "C34_exact_partial",
    "C34_zero_refuted",
    "C34_zero_general_refuted"
   ],
   "note": "False for every size from two on (refuted in general): the entry list is linked once, and after the first round the most recent entry is replaced; the code point 0 is forgotten whenever an unused entry is taken (refuted). Proved: exactly which code points are kept, for every size and every sequence of lookups without code point 0; the most recent one is a hit, at most n hits, size one."
  },
  {
   "property": "C35",
   "status": "proved",
   "theorems": [
    "C35_horizontal",
    "C35_vertical"
   ],
   "note": ""
  },
  {
   "property": "C36",
   "status": "partial",
   "theorems": [
    "C36_exact_partial",
    "C36_small_tables_refuted",
    "C36_condition_refuted",
    "C36_first_condition_panics_refuted",
    "C36_comparison_refuted",
    "C36_subexpression_partial",
    "C36_skip_partial",
    "C36_terminates_partial"
   ],
   "note": "False: no even condition of a table of less than 256 bytes evaluates, and an odd one only when its evaluation leaves the table; longer comparisons use the number of the setting, and decided groups skip one term too many (refuted). Proved: exactly what the evaluator of expressions returns for every sequence of well-formed conditions, skipping, termination on every font."
  },
  {
   "property": "C37",
   "status": "partial",
   "theorems": [
    "C37_utf8_exact_partial",
    "C37_each_out_refuted",
    "C37_too_few_refuted",
    "C37_glyph_outputs_partial",
    "C37_utf8_outputs_partial",
    "C37_fields",
    "C37_equals"
   ],
   "note": "False from two outputs on (refuted, also for all such rules): the loop counts bytes. Proved: exactly what is yielded for glyph rules and for code point rules of any length, all other accessors and Equals."
  },
  {
   "property": "C38",
   "status": "partial",
   "theorems": [
    "C38_utf8_ranges_refuted",
    "C38_utf8_ranges_partial",
    "C38_utf8_elements",
    "C38_glyph_ranges",
    "C38_glyph_elements"
   ],
   "note": "False for ranges of code points, whose size is read from the wrong byte (refuted, with what is enumerated instead). The other three enumerations are proved, for any callback."
  },
  {
   "property": "C39",
   "status": "proved",
   "theorems": [
    "C39_glyph_rule",
    "C39_utf8_rule",
    "C39_glyph_set",
    "C39_utf8_set",
    "C39_later_sets_nonempty"
   ],
   "note": ""
  },
  {
   "property": "C40",
   "status": "partial",
   "theorems": [
    "C40_refuted",
    "C40_partial",
    "C40_exact_partial"
   ],
   "note": "False (refuted by eleven histories): the parser rejects fonts that the builder builds, e.g. with an empty name, an empty set, 254 switches or one long rule. Proved exactly for every history whose offsets hold its sizes (parsed back if and only if within the limits, an error otherwise), every map order and every way of reading the file when the limits listed in Spec_Build.v hold; that gzip returns what was compressed is assumed (delivers)."
  },
  {
   "property": "C41",
   "status": "partial",
   "theorems": [
    "C41_words_partial",
    "C41_refuted",
    "C41_one_word_partial",
    "C41_other_orders_partial"
   ],
   "note": "False with two own words (refuted): their lengths and texts are written in two map iterations. Proved for every builder: the orders of mappings and kernings never matter, and no order matters with at most one own word; whatever the orders, the number of stored words and the size of their section are the same."
  },
  {
   "property": "C42",
   "status": "partial",
   "theorems": [
    "C42_lengths",
    "C42_predefined_partial",
    "C42_text",
    "C42_refuted",
    "C42_partial"
   ],
   "note": "False when the words are visited in another order than that of their indices (refuted, the name is garbled). Proved for every history with at most one own word, or for orders that follow the indices. For all orders: the names read are exactly the pieces of the stored texts in one order cut at the lengths in another, predefined words with large indices and all lengths survive, other keys panic."
  },
  {
   "property": "C43",
   "status": "partial",
   "theorems": [
    "C43_sorted_partial",
    "C43_walk_partial",
    "C43_order_refuted",
    "C43_gap_refuted",
    "C43_not_found",
    "C43_partial",
    "C43_behind_partial"
   ],
   "note": "False for groups not mapped in index order and for groups with gaps (refuted). Proved for every history: unmapped code points are not found, sizes and panics of found groups, and the choices of all groups in the order of their indices (every second glyph, up to the end, of groups with gaps), also in switch cases after groups that are stepped over rightly (single glyphs, lists below 128, ranges of 128), and for any groups which bytes a switched lookup leads to and when it panics (C43_walk_partial). Also which bytes behind the group the other choices of groups with gaps are read from (C43_behind_partial)."
  },
  {
   "property": "C44",
   "status": "partial",
   "theorems": [
    "C44_horizontal",
    "C44_vertical",
    "C44_vertical_refuted"
   ],
   "note": "Horizontal kernings proved for every history. No call sets vertical pairs, and a built font has none; a builder that did have some (edition data) would lose their values (refuted)."
  },
  {
   "property": "C45",
   "status": "partial",
   "theorems": [
    "C45_no_output_refuted",
    "C45_long_output_refuted",
    "C45_two_outputs_refuted",
    "C45_replacement_char_refuted",
    "C45_glyph_partial",
    "C45_utf8_partial"
   ],
   "note": "False for rules without output or with more outputs than body elements (accepted and built, refused by the scanner), for the second half of several outputs and for U+FFFD (all refuted). Proved for every history: every added rule is found with its lengths, scanning gives exactly its sets and elements in order whenever it has 1 to body-length outputs, and is refused exactly otherwise; code point rules likewise."
  },
  {
   "property": "C46",
   "status": "partial",
   "theorems": [
    "C46_range_refuted",
    "C46_set_refuted",
    "C46_range_never_removed_refuted",
    "C46_listed_never_removed_refuted",
    "C46_rune_range_never_removed_refuted",
    "C46_rune_listed_never_removed_refuted",
    "C46_removed_never_builds_refuted",
    "C46_add_range_partial",
    "C46_add_listed_partial",
    "C46_remove_set_partial"
   ],
   "note": "False (refuted, also in general): the removals call slices.Delete with an empty range and never remove anything, and after RemoveGlyphSet the builder never builds again. Proved: the returned booleans, the additions, and that the other sets are kept."
  },
  {
   "property": "C47",
   "status": "partial",
   "theorems": [
    "C47_add_dye",
    "C47_add_palette",
    "C47_add_setting",
    "C47_add_switch",
    "C47_limits",
    "C47_sections_refuted",
    "C47_sections_partial"
   ],
   "note": "Proved: the exact effect or failure of each addition, unique names and the limits on colors, settings, options and switches for every history. The number of color sections is not limited (refuted with 256 empty dyes, on which Build panics); proved when no section is empty."
  },
  {
   "property": "C48",
   "status": "partial",
   "theorems": [
    "C48_exact_glyph_partial",
    "C48_exact_utf8_partial",
    "C48_short_refuted",
    "C48_zero_refuted",
    "C48_longer_refuted",
    "C48_glyph_partial",
    "C48_utf8_partial"
   ],
   "note": "False (three refutations): data ending before the first control byte, a zero first control byte, or bytes after a complete rule without tail make the scanner panic. Proved for every byte string: exactly when the scanner panics, exactly when it succeeds and with which elements; everything else is refused and it always terminates."
  },
  {
   "property": "C49",
   "status": "partial",
   "theorems": [
    "C49_fans_partial",
    "C49_rune_fans_partial",
    "C49_lost_refuted",
    "C49_wrong_refuted",
    "C49_later_refuted",
    "C49_last_rune_refuted",
    "C49_glyph_partial",
    "C49_utf8_partial",
    "C49_ranges_partial",
    "C49_runes_partial"
   ],
   "note": "False with sets (three refutations): a state copied for a new rule shares its targets without counting them, so they are freed while in use (rules lost or confused); overlapping ranges give glyphs to the later rule. Also false when the largest rune occurs twice. Proved for every list of rules without sets; for every list of rules with sets that are one range (glyphs; one rune for runes) which do not overlap unless they are the same; and for every list of rules with any sets whose members do not overlap unless they are the same and no two rules share a member of their first elements. Every input and any earlier sequence."
  },
  {
   "property": "C50",
   "status": "partial",
   "theorems": [
    "C50_fans_partial",
    "C50_rune_fans_partial",
    "C50_empty_refuted",
    "C50_middle_refuted",
    "C50_overlap_refuted",
    "C50_third_refuted",
    "C50_glyph_partial",
    "C50_utf8_partial",
    "C50_ranges_partial",
    "C50_runes_partial"
   ],
   "note": "False with ranges (two refutations): splitting a transition panics; with one set of two members used by three rules; and with an empty set followed by another element. Proved for every list of rules without sets, and with sets that are one range which do not overlap unless they are the same: compiling succeeds, or it reports a limit and the rules are too many or too long together (bounds stated, and met exactly in examples). Proved for rules with any sets that share no member of their first elements: compiled exactly if within the stated limits, otherwise the error is reported."
  },
  {
   "property": "C51",
   "status": "partial",
   "theorems": [
    "C51_outputs_refuted",
    "C51_tail_refuted",
    "C51_peeks_refuted",
    "C51_conditions_refuted",
    "C51_glyphs_partial",
    "C51_runes_partial",
    "C51_room_partial",
    "C51_runes_room_partial",
    "C51_glyphs_longest_partial",
    "C51_runes_longest_partial",
    "C51_unique_partial",
    "C51_replaces_partial",
    "C51_fans_partial",
    "C51_runes_fans_partial",
    "C51_fans_room_partial",
    "C51_fans_longest_partial",
    "C51_runes_fans_longest_partial",
    "C51_sets_partial",
    "C51_runes_sets_partial",
    "C51_sets_room_partial",
    "C51_runes_sets_room_partial",
    "C51_sets_longest_partial",
    "C51_runes_sets_longest_partial",
    "C51_sets_unique_partial"
   ],
   "note": "False (four refutations): only the first half of several outputs is reported, tails followed by heads or by earlier look-ahead garble the output, and rules with different conditions are chosen by number and not by length. Proved for every session of calls with rules with one output, either without tails or without heads and with tails of one element, whose elements are single elements or sets that are one range and overlap only if they are the same, or any sets whose members overlap only if they are the same when no two rules with one condition can start with the same element: every piece of every sequence is rewritten as specified, unless the compiler reports a limit, which it does only if the rules with one condition exceed stated bounds."
  },
  {
   "property": "C52",
   "status": "partial",
   "theorems": [
    "C52_leftover_refuted",
    "C52_glyphs_partial",
    "C52_runes_partial",
    "C52_fans_partial",
    "C52_runes_fans_partial",
    "C52_sets_partial",
    "C52_runes_sets_partial"
   ],
   "note": "False (refuted): the tail left behind by one sequence makes the next panic. Proved for every two sessions with the rules for which C51 is proved."
  },
  {
   "property": "C53",
   "status": "partial",
   "theorems": [
    "C53_applied_refuted",
    "C53_no_effect_refuted",
    "C53_values_partial"
   ],
   "note": "False (refuted, also in general): conditions are evaluated and never used, so they have no effect. Proved: the cached values are right."
  },
  {
   "property": "C54",
   "status": "partial",
   "theorems": [
    "C54_others_refuted",
    "C54_same_refuted",
    "C54_compiled_partial"
   ],
   "note": "False (refuted in general): the shared compiler stays marked as in use after an error, and every later compilation panics; the same tester cannot remove the rule either. Proved: testers that are already compiled are not affected."
  },
  {
   "property": "C55",
   "status": "partial",
   "theorems": [
    "C55_new_refuted",
    "C55_removed_refuted",
    "C55_swallowed_refuted",
    "C55_glyphs_partial",
    "C55_runes_partial",
    "C55_fans_partial",
    "C55_runes_fans_partial",
    "C55_sets_partial",
    "C55_runes_sets_partial"
   ],
   "note": "False (three refutations): a new tester, or one whose rules were removed one by one, panics at the first glyph, and a leftover tail swallows a glyph. Proved for every session with the rules for which C51 is proved, after RemoveAllRules."
  },
  {
   "property": "C56",
   "status": "proved",
   "theorems": [
    "C56_accepted",
    "C56_exact"
   ],
   "note": "Also exactly: Parse takes a font laid out as described if and only if it respects limits that are mostly on averages, and gives an error otherwise."
  },
  {
   "property": "C57",
   "status": "partial",
   "theorems": [
    "C57_success_refuted",
    "C57_index_refuted",
    "C57_palette_refuted",
    "C57_palette_index_refuted",
    "C57_dyes_partial",
    "C57_first_palette_partial",
    "C57_palettes_partial",
    "C57_unknown"
   ],
   "note": "False (four refutations, the first in general): the calls never succeed, the indices count down from 255, and looking for a palette after the first panics or counts wrongly. Proved for every history: the values called back for every dye and the first palette are right and in order, with 256 less the right index; for every later palette, exactly which calls are made and with which numbers, and that it panics when there are less dyes; unknown names give no calls."
  },
  {
   "property": "C58",
   "status": "partial",
   "theorems": [
    "C58_parentheses_refuted",
    "C58_groups_refuted",
    "C58_comparisons_refuted",
    "C58_numbers_refuted",
    "C58_quick_partial",
    "C58_accepted",
    "C58_meaning_partial",
    "C58_rejected"
   ],
   "note": "False (four refutations, all in general): parentheses recurse for ever, no group compiles, all comparisons but quick ones lose their second operand, numbers beyond int panic. Proved: quick comparisons compile rightly, whatever is accepted is one comparison, results that are conditions have the right value, other texts give errors."
  },
  {
   "property": "C59",
   "status": "proved",
   "theorems": [
    "C59_string",
    "C59_others",
    "C59_round_trip"
   ],
   "note": "For every well-formed condition, and panics on exactly the other byte strings; quick comparisons also survive printing and compiling."
  },
  {
   "property": "C60",
   "status": "partial",
   "theorems": [
    "C60_width_refuted",
    "C60_width_no_pairs_refuted",
    "C60_category_name_refuted",
    "C60_sizes_refuted",
    "C60_class_refuted",
    "C60_read_partial",
    "C60_only_partial",
    "C60_signature"
   ],
   "note": "False (five refutations): the numbers of pairs are read from four bytes instead of three, names of categories are limited to 32 characters instead of 60, sizes that don't add up and classes that don't exist are accepted, the latter making Build panic. Proved: the layout with four bytes is read for every builder and reader with exactly the effects specified, and nothing else is accepted (but bytes behind the end may be)."
  },
  {
   "property": "C61",
   "status": "partial",
   "theorems": [
    "C61_exact_partial",
    "C61_signature_partial",
    "C61_index_refuted",
    "C61_trailing_refuted",
    "C61_leftover_refuted",
    "C61_cleared_partial",
    "C61_ends"
   ],
   "note": "False (three refutations): glyph indices out of range and bytes behind the end panic, and pairs read before a failure stay in the builder and in the fonts it builds. Proved for every builder and reader: after a failure there is no edition data, pairs keep their values, the new pairs have no kerning, all else is unchanged; the function always ends; exactly which payloads succeed, panic and fail, for payloads within the limits of the format."
  },
  {
   "property": "C62",
   "status": "proved",
   "theorems": [
    "C62_texts"
   ],
   "note": "For every builder and byte string; UTF-8 is specified by encoding code points."
  },
  {
   "property": "C63",
   "status": "proved",
   "theorems": [
    "C63_add_glyph",
    "C63_set_placement",
    "C63_set_name"
   ],
   "note": "For every builder with metrics in range (all histories have them), mask and random numbers."
  },
  {
   "property": "C64",
   "status": "partial",
   "theorems": [
    "C64_raise_refuted",
    "C64_date_refuted",
    "C64_vertical_refuted",
    "C64_raise_partial",
    "C64_raise_changes",
    "C64_set_version",
    "C64_dates_partial",
    "C64_metrics",
    "C64_vert_layout",
    "C64_vertical_partial",
    "C64_new"
   ],
   "note": "False (three refutations): version 65535 wraps to 0, dates without month make the setters panic although valid, and switching the vertical layout off keeps the vertical line width and gap, so fonts against the specification are built, parsed and validated. Proved for all other cases, the last for every history that doesn't switch the layout off."
  },
  {
   "property": "C65",
   "status": "partial",
   "theorems": [
    "C65_strict_refuted",
    "C65_built_refuted",
    "C65_parsed_partial",
    "C65_built_partial",
    "C65_ranges",
    "C65_built_exact",
    "C65_built_error"
   ],
   "note": "False (two refutations): strict mode always panics as it isn't finished, and Build gives fonts without a name. Proved: every parsed font, and every built font within the parser's limits, is valid in default mode; a built font of any size is valid exactly with an identifier of enough entropy, a name, and no vertical spacing without vertical layout, otherwise Validate returns that error; ranges."
  },
  {
   "property": "C66",
   "status": "partial",
   "theorems": [
    "C66_written",
    "C66_read_back_refuted",
    "C66_read_back_partial",
    "C66_built_partial",
    "C66_failed_build"
   ],
   "note": "False (refuted) for parsed fonts that kept bytes behind the last section: they may panic when read again. Proved: what is written, for every writer; parsed fonts without such bytes, and built fonts within the parser's limits, are read back, the latter given that the gzip reader inverts the gzip writer."
  },
  {
   "property": "C67",
   "status": "partial",
   "theorems": [
    "C67_name_refuted",
    "C67_name_partial",
    "C67_glyph_partial",
    "C67_count_partial"
   ],
   "note": "Proved for every history of builder calls: the number of glyphs, and for each glyph its advance, its placement and its pixels, as long as the glyph data take less than 16 MiB. False for names: the binary search of C25 misses names of equal length; what it finds has the searched name."
  },
  {
   "property": "C68",
   "status": "partial",
   "theorems": [
    "C68_family_refuted",
    "C68_numbers",
    "C68_strings_partial",
    "C68_metrics",
    "C68_wrapped"
   ],
   "note": "Proved for all histories: format version, ID, versions, dates, the name and all metrics. False for the texts after a long name (C22); proved for them as long as the texts before them end within 255 bytes, and exactly what is returned instead behind the first position that wraps (as in C22)."
  },
  {
   "property": "C69",
   "status": "partial",
   "theorems": [
    "C69_empty_refuted",
    "C69_nameless_refuted",
    "C69_partial",
    "C69_exact_partial"
   ],
   "note": "False for dyes without colors (the accessors panic) and dyes without name. Proved for all histories in which every section has a name and a color: names, colors, order, color indices and the Go palette, also the dye added to a builder without colors. Proved for all histories: which accessors panic exactly (those of a section without colors; the enumeration of names if one is missing) and that the others are right."
  },
  {
   "property": "C70",
   "status": "partial",
   "theorems": [
    "C70_no_options_refuted",
    "C70_combinations_refuted",
    "C70_settings_partial",
    "C70_switch_partial"
   ],
   "note": "False for settings without options (GetNumOptions panics) and for switches with more than 256 combinations, which are accepted and evaluated modulo 256. Proved for all histories: names, order and numbers of options otherwise, and the position of the combination."
  },
  {
   "property": "C71",
   "status": "proved",
   "theorems": [
    "C71_sets"
   ],
   "note": "For every history of calls and every callback. The order of the sets is that of their creation."
  },
  {
   "property": "C72",
   "status": "partial",
   "theorems": [
    "C72_outputs_refuted",
    "C72_unknown_refuted",
    "C72_many_refuted",
    "C72_glyphs_partial",
    "C72_sets_partial",
    "C72_runes_partial",
    "C72_fans_partial"
   ],
   "note": "False (three refutations): of two outputs the tester reports the first, it refuses code point rules with U+FFFD, and it takes 254 rules only. Proved for every history of calls: if the glyph rules have no sets, no tails and one output, or for code point rules without U+FFFD and 2^31-1, the tester rewrites (by the first 254 rules) every input as given, or reports its limit and the rules exceed it; the same for glyph rules with sets of one range or one glyph, apart by index, with no tails or with no heads and tails of one element; and for glyph rules with any sets, their ranges apart by index or the same, no two rules starting with the same glyph, and the same condition on tails."
  },
  {
   "property": "C73",
   "status": "partial",
   "theorems": [
    "C73_checked_partial",
    "C73_unchecked_refuted",
    "C73_version_refuted"
   ],
   "note": "False (refuted for seventeen of the demands, each by a font that breaks it and is parsed, and for the version number: the specification describes version 1, Parse takes version 2 only). Proved for the five demands that Parse checks."
  },
  {
   "property": "C74",
   "status": "partial",
   "theorems": [
    "C74_map_partial",
    "C74_group_partial",
    "C74_singles_partial",
    "C74_switch_partial",
    "C74_unknown_refuted",
    "C74_one_glyph_refuted"
   ],
   "note": "False (two refutations): MapWithSwitchSingles takes glyphs that do not exist, after which Build panics, and MapWithSwitch panics at groups of one glyph. Proved: the full statement for Map and MapGroup, and for the other two exactly what is taken, what panics and what changes."
  },
  {
   "property": "C75",
   "status": "partial",
   "theorems": [
    "C75_kerning_partial",
    "C75_create_set_partial",
    "C75_range_partial",
    "C75_listed_partial",
    "C75_utf8_rule_partial",
    "C75_glyph_rule_partial",
    "C75_rune_sets_refuted",
    "C75_kerning_unknown_refuted",
    "C75_empty_rule_refuted"
   ],
   "note": "False (three refutations): no rune set can ever be created, kernings of glyphs that do not exist are taken and make Build panic, and rules without a body are taken. Proved: exactly what is taken and what changes for kernings, glyph sets and both kinds of rules."
  },
  {
   "property": "C76",
   "status": "partial",
   "theorems": [
    "C76_refuted",
    "C76_exact_partial",
    "C76_upper_refuted",
    "C76_parse_partial",
    "C76_new_partial"
   ],
   "note": "False (refuted, also in general): the digits that are counted overlap, so the upper 31 bits never count, a font with the ID 0x5555555555555555 is parsed, and one whose varied bits are all in the upper half is not. Proved: exactly which IDs are taken, by Parse and by New."
  },
  {
   "property": "C77",
   "status": "partial",
   "theorems": [
    "C77_cut_refuted",
    "C77_first_control_refuted",
    "C77_empty_blocks_refuted",
    "C77_glyph_partial",
    "C77_utf8_partial"
   ],
   "note": "False (three refutations): data cut behind any control byte is taken with elements missing, the first control byte is not checked then, the bytes of empty blocks are not looked at or may be missing. Proved for every byte string: there are never more elements than announced, and exactly the well-formed blocks give as many."
  },
  {
   "property": "C78",
   "status": "partial",
   "theorems": [
    "C78_color_refuted",
    "C78_again",
    "C78_builder",
    "C78_fonts_partial"
   ],
   "note": "Refuted: Build gives a builder without colors the dye main, which stays and takes name and color from later calls. Proved: a second Build gives the same and changes nothing; exactly what Build changes; earlier calls of Build do not matter unless colors are added after a Build without any."
  },
  {
   "property": "C79",
   "status": "partial",
   "theorems": [
    "C79_build_refuted",
    "C79_partial"
   ],
   "note": "Refuted for Build, which can fail after it has added the dye main. Proved for all other calls, and for Build of a builder with a color. Loading edition data is C61."
  },
  {
   "property": "C80",
   "status": "proved",
   "theorems": [
    "C80_part",
    "C80_local",
    "C80_exchange"
   ],
   "note": "For all calls; Build refers to everything, so it is never exchanged (C78 says what it does)."
  },
  {
   "property": "C81",
   "status": "partial",
   "theorems": [
    "C81_accessors_refuted",
    "C81_counts",
    "C81_sizes",
    "C81_blocks_partial",
    "C81_enumerations_partial",
    "C81_glyphs_partial",
    "C81_find_partial",
    "C81_missing",
    "C81_kerning",
    "C81_rising",
    "C81_switch_partial",
    "C81_found",
    "C81_mapping_partial",
    "C81_direct",
    "C81_mask_partial",
    "C81_mask_refuted"
   ],
   "note": "Refuted: a file in which end offsets before the last of each table are wrong is accepted, and nearly every accessor panics. Proved for every accepted file: all counts are given; exactly when the numbers of colors and options panic; what words, sets, rules, options, alphas, colors, placements and enumerations give when the offsets they use are in order, whatever the other offsets are; missing code points are reported as missing in any order of entries; kernings panic exactly when the file ends before their counter; a group that the mapping returns lies in an entry of its code point (no condition on the offsets); switches in order are evaluated, and mappings in order whose entries do not depend on settings answer for every code point. masks of glyphs in order are drawn from exactly their bytes. Not covered: conditions and entries with switches of accepted files."
  },
  {
   "property": "C82",
   "status": "partial",
   "theorems": [
    "C82_reported_partial",
    "C82_prefix_partial",
    "C82_accepted",
    "C82_misreported_refuted",
    "C82_partial",
    "C82_decided_partial",
    "C82_refused"
   ],
   "note": "Refuted: errors met at the last end offset of rewrite rules are taken for a wrong offset. Proved for readers that go on failing, as gzip.Reader does: no font is returned, and every failure is reported by its own error or one of three messages unless what had arrived was refused already. For all other readers: the same for failures before the kernings."
  },
  {
   "property": "C83",
   "status": "proved",
   "theorems": [
    "C83_reported",
    "C83_decided",
    "C83_refused"
   ],
   "note": "For every builder and every reader that has sent at most 32 MiB, the limit of the parsing buffer, when it fails."
  }
 ]
}