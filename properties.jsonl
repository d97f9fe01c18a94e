{"id": "C01", "title": "Little-endian integer codecs are exact inverses", "statement": "For widths 16, 24, 32 and 64, decoding what was encoded gives back exactly the value (24-bit: for values below 2^24; larger ones are truncated to 24 bits), encoding what was decoded gives back exactly the bytes, decoding looks only at the first bytes of the slice, and appending never changes the bytes already in the buffer. Decoding a slice that is too short panics instead of returning a value.", "quantifier": "every value of each width, every byte slice and every prefix/suffix around it", "why_tests_cant": "2^64 values and every surrounding buffer; a wrong shift or mask on one byte only shows on values using that byte", "anchors": ["internal/helpers.go: DecodeUint16LE, DecodeUint24LE, DecodeUint32LE, DecodeUint64LE, DecodeDate, AppendUint16LE, AppendUint24LE, AppendUint32LE, AppendUint64LE, EncodeUint16LE, EncodeUint24LE, EncodeUint32LE"]}
{"id": "C02", "title": "Length-prefixed strings round-trip through the font reader", "statement": "A string appended with the short (one length byte) or long (two length bytes) encoding is read back byte for byte by the parser's string readers and leaves the reader positioned exactly after it; strings longer than 255 / 65535 bytes are refused by a panic and never silently cut.", "quantifier": "every byte string, every buffer before and after it, every way the underlying reader splits the data", "why_tests_cant": "string length boundary and reader chunking combine into unboundedly many cases", "anchors": ["internal/helpers.go: AppendShortString, AppendString", "internal/parsing_buffer.go: ReadShortStr, ReadString, AdvanceShortSlice"]}
{"id": "C03", "title": "BoolList behaves like a plain array of booleans", "statement": "After any sequence of Push, Set, SetAllTrue, SetAllFalse, the value returned by Get(i) is the last value written to position i (false initially); no operation changes any other position; Get and Set outside 0..size-1 panic and change nothing. The uint8 accessors agree with Get and Set for every index below the size.", "quantifier": "every operation history and every index", "why_tests_cant": "bit packing makes aliasing between positions history dependent", "anchors": ["internal/helpers.go: BoolList, NewBoolList, Push, Get, Set, GetU8, SetU8, SetAllTrue, SetAllFalse, RawGetU8, GetWordAndBitMaskU8"]}
{"id": "C04", "title": "Sorted-slice helpers: lower-bound search, ordered insert, delete", "statement": "On a sorted slice the search returns the number of elements smaller than the target and reports found exactly when the target is present; the ordered insert keeps a strictly increasing slice strictly increasing and its elements become exactly the old ones plus the new one; deleting index i removes exactly that element and keeps the order of the rest.", "quantifier": "every slice, target and index", "why_tests_cant": "unbounded slice lengths and insertion positions", "anchors": ["internal/helpers.go: BadBinarySearch, BasicOrderedNonRepeatInsert, DeleteElementAt"]}
{"id": "C05", "title": "Decimal digits of a byte", "statement": "The decimal printer for bytes appends exactly the decimal representation of the value, without leading zeros, to the given text and nothing else.", "quantifier": "every byte value and every text before it", "why_tests_cant": "small, but the claim is about every value and untouched prefixes", "anchors": ["internal/helpers.go: AppendByteDigits"]}
{"id": "C06", "title": "Circular buffer is a bounded queue with look-ahead", "statement": "Any history of Push, PopHead, PopTail, Head, Tail, PeekAhead, DiscardPeeks, ConfirmPeeks, Clear, SetCapacity and SetMinCapacity on a circular buffer is indistinguishable from the same history on a plain list with a look-ahead cursor: same values, same found flags, panics exactly on reading an empty buffer or pushing to a full one; changing the capacity never loses or reorders elements.", "quantifier": "every operation history, element type and 16-bit capacity", "why_tests_cant": "wrap-around position, capacity changes and look-ahead cursor interact over unbounded histories", "anchors": ["internal/circular_buffer.go: CircularBufferU16"]}
{"id": "C07", "title": "Changing the capacity of an empty circular buffer keeps it usable", "statement": "After a successful SetCapacity the buffer can be pushed to and read from again: pushing one element into an empty buffer of non-zero capacity and reading the head returns that element, whatever was pushed and popped before the capacity change.", "quantifier": "every history of pushes and pops before the capacity change and every new capacity", "why_tests_cant": "needs a particular residue of the head position left by the earlier history", "anchors": ["internal/circular_buffer.go: SetCapacity, Push, Head"]}
{"id": "C08", "title": "Circular buffers of any 16-bit capacity keep elements apart", "statement": "For every capacity up to 65535 consecutive pushes write to distinct positions and the tail read returns the element pushed last.", "quantifier": "every capacity, head position and fill level", "why_tests_cant": "only shows for capacities above 32768 with the head past the middle", "anchors": ["internal/circular_buffer.go: unsafeLastElemIndex, Push, Tail"]}
{"id": "C09", "title": "Single-instance pool: the shared instance has at most one holder", "statement": "Under every interleaving of goroutines calling Retrieve and Release, as long as each instance is released at most once per retrieval, at most one goroutine holds the shared instance at a time, Retrieve always returns an instance nobody else holds, and Release never panics. After all holders have released, the next Retrieve returns the shared instance again.", "quantifier": "every number of goroutines and every interleaving of their atomic steps", "why_tests_cant": "schedules cannot be enumerated by tests", "anchors": ["internal/single_instance_pool.go: SingleInstancePool.Retrieve, SingleInstancePool.Release"]}
{"id": "C10", "title": "Date validity", "statement": "IsValid answers true exactly for: the undefined date (all fields zero), a year alone, a year with a month 1..12, and a year with month and a day that exists in that month of that year in the Gregorian calendar. It never panics.", "quantifier": "every year, month and day value", "why_tests_cant": "2^32 field combinations, leap year rules and optional fields", "anchors": ["date.go: Date.IsValid, isLeapYear, monthDays"]}
{"id": "C11", "title": "Name validation accepts exactly well-formed names", "statement": "A basic name is accepted exactly when it has 1 to 32 characters, all ASCII letters, digits or hyphens, starts with a letter, does not end with a hyphen and contains no two consecutive hyphens, as the format specification says.", "quantifier": "every byte string", "why_tests_cant": "infinitely many strings; interactions of hyphen positions", "anchors": ["internal/parsing_buffer.go: ValidateBasicName", "specification.md"]}
{"id": "C12", "title": "Word lookup is total on valid indices and stable", "statement": "Every predefined word index yields a fixed non-empty word, distinct indices yield distinct words, and invalid indices panic; a font's own words take precedence for indices below the number of words it defines.", "quantifier": "every uint8 index and every word table", "why_tests_cant": "table boundaries and precedence for every index", "anchors": ["words.go: GetPredefinedWord", "font.go: FontSettings.GetWord"]}
{"id": "C13", "title": "Rasterizing arbitrary raster operations never panics and is decided by the bounds pass", "statement": "For every byte string Rasterize either returns an error, returns no mask (nothing drawn) or returns a mask; it never reads outside the input nor writes outside the mask, and it returns an error exactly when the bounds computation does (the drawing pass can not fail after the bounds pass succeeded).", "quantifier": "every byte string", "why_tests_cant": "arbitrary malformed input; two hand-written decoders must agree on every prefix", "anchors": ["mask/rasterize.go: Rasterize, computeRasterOpsRect, nzint8AsInt"]}
{"id": "C14", "title": "A rasterized mask's bounds are exactly the drawn area", "statement": "When Rasterize returns a mask, its rectangle is the smallest rectangle containing every position the operations draw to, and each pixel holds the value of the last operation drawing it (zero when none does).", "quantifier": "every valid raster operation sequence", "why_tests_cant": "unbounded op sequences with relative movement", "anchors": ["mask/rasterize.go: Rasterize, computeRasterOpsRect", "specification.md: raster operations"]}
{"id": "C15", "title": "Mask encoding round-trips", "statement": "Encoding a mask to raster operations and rasterizing the result gives back the same image: same value at every position, zero outside. This holds whatever order the encoder's unstable sort leaves equal fragments in.", "quantifier": "every mask (every size, position and pixel content) the encoder accepts, and every outcome of the unstable sort", "why_tests_cant": "the space of images is unbounded and the greedy fragment search depends on the whole picture", "anchors": ["mask/encoder.go: Encoder.AppendRasterOps, computeMaskFragments", "mask/encoder_helper_funcs.go: countNeighbours, findLine, findRect, findDiagonal", "mask/raster_fragment.go: ClearFrom, GetDistsFrom, GetDrawSizes", "mask/rasterize.go: Rasterize"]}
{"id": "C16", "title": "Mask encoding accepts every glyph-sized mask", "statement": "For every mask that lies within coordinates -64..64 on both axes with stride equal to its width, AppendRasterOps terminates without panicking and only appends to the given buffer.", "quantifier": "every mask in that window and every buffer", "why_tests_cant": "distances depend on the order fragments come out of the search and the sort", "anchors": ["mask/encoder.go: Encoder.AppendRasterOps, computeMaskFragments"]}
{"id": "C17", "title": "ComputeRect is the tight bounding box", "statement": "ComputeRect returns the smallest rectangle containing all non-zero pixels of the mask and an empty rectangle when there are none.", "quantifier": "every mask", "why_tests_cant": "every position and shape of the content relative to the borders", "anchors": ["mask/compute_rect.go: ComputeRect"]}
{"id": "C18", "title": "The parse result does not depend on how the reader delivers the data", "statement": "Parsing yields the same font or the same error for every way an io.Reader may split the file into Read results, including short reads.", "quantifier": "every font file and every sequence of chunk sizes and (bounded) empty reads", "why_tests_cant": "chunkings of a file are exponentially many", "anchors": ["parse.go: Parse", "internal/parsing_buffer.go: readMore, readUpTo, EnsureEOF"]}
{"id": "C19", "title": "A parsed font keeps exactly the file's payload, with sections in order inside it", "statement": "When Parse succeeds, the font's data is exactly the decompressed payload that was read, and the section offsets are increasing and lie inside the data.", "quantifier": "every input on which Parse succeeds", "why_tests_cant": "offsets depend on sixteen length fields of the input", "anchors": ["parse.go: Parse", "internal/font.go: Font"]}
{"id": "C20", "title": "Parse rejects instead of panicking", "statement": "For every byte stream Parse returns a font or an error; it never panics.", "quantifier": "every byte stream and every reader behaviour", "why_tests_cant": "arbitrary malformed input", "anchors": ["parse.go: Parse", "internal/parsing_buffer.go: EnsureEOF"]}
{"id": "C21", "title": "Truncated and padded files are rejected", "statement": "If Parse accepts a payload, then it rejects every proper prefix of that payload and every extension of it by extra bytes.", "quantifier": "every accepted payload, every truncation point, every suffix", "why_tests_cant": "every truncation point of every font", "anchors": ["parse.go: Parse", "internal/parsing_buffer.go: EnsureEOF, ReadUint24"]}
{"id": "C22", "title": "Header strings read back as stored", "statement": "On a font whose header stores name, family, author and about strings, the four accessors return exactly those strings.", "quantifier": "every four strings that fit the format (up to 255 bytes each for the first three, up to 65535 for about)", "why_tests_cant": "only long combinations overflow the one-byte position arithmetic", "anchors": ["font.go: FontHeader.Name, Family, Author, About"]}
{"id": "C23", "title": "Header and metrics fields read back as stored", "statement": "Format version, ID, version numbers, dates and every metrics field returned by the accessors equal the stored fields, and the accessors never read outside the data of a parsed font.", "quantifier": "every parsed font", "why_tests_cant": "all field values at once", "anchors": ["font.go: FontHeader, FontMetrics"]}
{"id": "C24", "title": "Color indices: dyes and palettes partition the color range", "statement": "The dye alphas and palette colors enumerated by the accessors are exactly the stored ones in order, the number enumerated for each dye or palette is its count, and the counts add up to the total color count; the Go palette lists transparent first and then all of them in order.", "quantifier": "every well-formed color section", "why_tests_cant": "all numbers and sizes of dyes and palettes", "anchors": ["font.go: FontColor.NumDyes, NumDyeIndices, NumDyeAlphas, EachDye, EachDyeAlpha, NumPaletteIndices, EachPalette, EachPaletteColor, Count, GoColorPalette"]}
{"id": "C25", "title": "Glyphs can be found by name", "statement": "FindIndexByName returns the glyph index stored for a name when the font has that name, and GlyphMissing otherwise.", "quantifier": "every sorted table of names and every query", "why_tests_cant": "the comparison used by the search must be right for every pair of names", "anchors": ["font.go: FontGlyphs.FindIndexByName, bytesSmallerThanStr, bytesEqStr"]}
{"id": "C26", "title": "Glyph placement, advance and mask data are located correctly", "statement": "Advance, Placement and RasterizeMask of glyph i read exactly the bytes stored for glyph i, for fonts with and without vertical layout; indices outside the font panic.", "quantifier": "every number of glyphs, every sizes of their data, every index", "why_tests_cant": "offset tables of any length", "anchors": ["font.go: FontGlyphs.Advance, Placement, RasterizeMask, getGlyphDataOffsets, getGlyphDataStartOffset"]}
{"id": "C27", "title": "Settings, options and words read back as stored", "statement": "The number of options of a setting, the name of each option and the names of the settings returned by the accessors are exactly those stored, for any mix of custom and predefined words; out-of-range keys give zero options and out-of-range options panic.", "quantifier": "every well-formed settings section, key and option", "why_tests_cant": "nested offset tables of any size", "anchors": ["font.go: FontSettings.Count, GetNumOptions, GetOptionName, GetWord, Each"]}
{"id": "C28", "title": "Switch evaluation is the mixed-radix number of the settings", "statement": "Evaluating a mapping switch over settings gives the position of the current combination of setting values in lexicographic order (last setting fastest). Different combinations give different cases, and the result is below the product of option counts, for products up to 256.", "quantifier": "every switch, option counts and setting values", "why_tests_cant": "products of option counts and 8-bit wrap-around", "anchors": ["font.go: FontMapping.EvaluateSwitch", "builder/font_builder.go: computeNumSwitchCases"]}
{"id": "C29", "title": "Code point lookup finds exactly the mapped code points", "statement": "Mapping lookup succeeds exactly for the code points in the font's mapping table and yields the group stored for that code point and the currently selected switch case; other code points are reported as not found.", "quantifier": "every well-formed mapping table, code point and settings", "why_tests_cant": "tables of any length, variable-size entries", "anchors": ["font.go: FontMapping.Utf8, GlyphMappingGroup"]}
{"id": "C30", "title": "Lookup with a settings cache equals lookup without", "statement": "For every sequence of setting changes and lookups, looking a code point up through the settings cache gives the same group as looking it up directly with the current settings.", "quantifier": "every history of setting changes and lookups", "why_tests_cant": "stale cached switch values only show after particular histories", "anchors": ["font.go: FontMapping.Utf8WithCache, FontMapping.Utf8", "settings_cache.go: SettingsCache"]}
{"id": "C31", "title": "Selecting a glyph from a mapping group", "statement": "For a group storing glyphs g0..gk, as a range or as a list, Size is k+1, Select(i) is gi for each i and panics for other choices; animation flags are those stored (zero for single glyphs).", "quantifier": "every group of 1 to 128 glyphs in each of the storage forms", "why_tests_cant": "all group sizes, forms and choices", "anchors": ["font.go: GlyphMappingGroup.Size, Select, AnimationFlags"]}
{"id": "C32", "title": "Settings cache never serves stale values", "statement": "After any history of Set, CacheMappingCase and CacheRewriteCondition, where every cached value was the correct evaluation for the settings at that moment, every value the cache reports as cached equals the evaluation for the current settings; Get returns the last value Set (0 initially); unknown keys read as 0 and can not be set.", "quantifier": "every history of operations", "why_tests_cant": "staleness depends on the interleaving of sets and caching", "anchors": ["settings_cache.go: SettingsCache"]}
{"id": "C33", "title": "Mapping cache is transparent", "statement": "For every history of Get, Drop and setting changes in which Drop follows each setting change (before the next Get), a Get on the mapping cache returns the same group and found flag as an uncached lookup with the current settings, for every cache size.", "quantifier": "every cache size and every history (below 2^32 drops)", "why_tests_cant": "evictions and re-insertions over unbounded histories", "anchors": ["mapping_cache.go: MappingCache.Get, Drop, Reset, updateMRU"]}
{"id": "C34", "title": "Mapping cache evicts the least recently used entry", "statement": "A mapping cache of size n keeps the n most recently used distinct mapped code points: looking up one of the last n distinct code points is always a hit.", "quantifier": "every cache size and access sequence", "why_tests_cant": "recency order over unbounded access sequences", "anchors": ["mapping_cache.go: NewMappingCache, Get, updateMRU, initEntriesLinking"]}
{"id": "C35", "title": "Kerning lookup returns the stored value", "statement": "On a kerning table sorted by pair, Get (GetVert) returns the stored value for each stored pair and 0 for every other pair, without reading outside the table.", "quantifier": "every sorted table and every pair of glyph indices", "why_tests_cant": "tables of any size up to 2^24", "anchors": ["font.go: FontKerning.Get, GetVert, NumPairs, NumVertPairs"]}
{"id": "C36", "title": "Rewrite conditions evaluate to their meaning", "statement": "For every well-formed encoded condition (nested AND/OR groups and comparisons of settings) EvaluateCondition returns its truth value under the given settings.", "quantifier": "every condition expression, encoding position and settings", "why_tests_cant": "expressions nest without bound and short-circuit skipping depends on values", "anchors": ["font.go: FontRewrites.EvaluateCondition, evalConditionSubexpr, skipConditionSubexpr"]}
{"id": "C37", "title": "Rewrite rule outputs are enumerated completely", "statement": "For every rewrite rule, EachOut enumerates exactly the rule's OutLen output elements in order.", "quantifier": "every rule and output length", "why_tests_cant": "all output lengths", "anchors": ["font.go: GlyphRewriteRule.EachOut, Utf8RewriteRule.EachOut"]}
{"id": "C38", "title": "Rewrite sets enumerate exactly their ranges and elements", "statement": "EachRange and EachListGlyph / EachListRune enumerate exactly the stored ranges and single elements in order; an error from the callback stops the enumeration and is returned.", "quantifier": "every encoded set", "why_tests_cant": "all set sizes", "anchors": ["font.go: GlyphRewriteSet.EachRange, EachListGlyph, Utf8RewriteSet.EachRange, EachListRune"]}
{"id": "C39", "title": "Rules and sets are located correctly in the font", "statement": "The i-th glyph rule, utf8 rule, glyph set and utf8 set returned by a font are exactly the i-th stored byte blocks; out-of-range indices panic.", "quantifier": "every table of blocks and every index", "why_tests_cant": "offset tables of any length", "anchors": ["font.go: FontRewrites.GetGlyphRule, GetUtf8Rule, GetGlyphSet, GetUtf8Set"]}
{"id": "C40", "title": "Built fonts parse back", "statement": "Whenever Build succeeds, exporting the font and parsing the file succeeds and gives a font with the same data and the same section offsets, so every accessor agrees.", "quantifier": "every builder state on which Build succeeds", "why_tests_cant": "Build and Parse are two independent 500-line implementations of the format that must agree on every configuration", "anchors": ["builder/font_builder.go: Font.Build, Font.Export", "font.go: Font.Export", "parse.go: Parse"]}
{"id": "C41", "title": "Build is independent of map iteration order", "statement": "Building the same builder twice gives the same font bytes, whatever order the runtime iterates over the builder's maps.", "quantifier": "every builder state and every map iteration order", "why_tests_cant": "iteration order is random at run time; some orders may never be hit by a test", "anchors": ["builder/font_builder.go: Build (words, names, kerning)", "builder/font_builder_settings.go: organizeWords"]}
{"id": "C42", "title": "Option names survive building", "statement": "After building, the name of each setting option in the font is the name given to AddSetting.", "quantifier": "every list of settings with any custom and predefined words, and every map iteration order", "why_tests_cant": "word table order depends on map iteration", "anchors": ["builder/font_builder.go: Build (words)", "builder/font_builder_settings.go: AppendWords, organizeWords, AppendTo, AddSetting"]}
{"id": "C43", "title": "Mapped code points survive building", "statement": "After mapping code points to glyphs or groups in the builder and building, looking each one up in the font and selecting choice i gives the i-th glyph that was mapped, and no other code point is found.", "quantifier": "every set of mappings", "why_tests_cant": "any number of mappings, groups and switch cases", "anchors": ["builder/font_builder_mapping.go: Map, MapGroup, MapWithSwitch, MapWithSwitchSingles, mappingEntry.AppendTo, mappingGroup.AppendTo", "builder/font_builder.go: Build"]}
{"id": "C44", "title": "Kerning pairs survive building", "statement": "After setting horizontal and vertical kerning pairs and building, the font's kerning accessors return exactly the values set.", "quantifier": "every set of pairs and values", "why_tests_cant": "sorting, class lookup and two tables", "anchors": ["builder/font_builder.go: Build (kerning)", "builder/font_builder_props.go: SetKerningPair"]}
{"id": "C45", "title": "Glyph rewrite rules survive building", "statement": "A rewrite rule added to the builder is encoded so that reading it element by element yields exactly its head, body and tail elements and its outputs, for all block lengths.", "quantifier": "every rule with up to 255 elements per block", "why_tests_cant": "fragmentation into groups of 15 for every mix of sets and elements", "anchors": ["builder/font_builder_rewrite_rules.go: glyphRewriteRule.AppendTo, utf8RewriteRule.AppendTo", "internal/rerules/glyphrule/rule_scanner.go: RuleScanner"]}
{"id": "C46", "title": "Removing from a rewrite set removes", "statement": "After RemoveGlyphSetRange, RemoveGlyphSetListGlyph and the rune variants return true, the set no longer contains the removed element and still contains the others; the set can be removed and the font still builds.", "quantifier": "every set content and removal", "why_tests_cant": "every position and content", "anchors": ["builder/font_builder_rewrite_sets.go: RemoveGlyphSetRange, RemoveGlyphSetListGlyph, RemoveRuneSetRange, RemoveRuneSetListRune, RemoveGlyphSet"]}
{"id": "C47", "title": "Builder limits and duplicate checks for colors, settings and switches", "statement": "AddDye, AddPalette, AddSetting and AddSwitch either fail and leave the builder unchanged or add exactly the requested item; after any history names stay unique and total counts stay within the format's limits.", "quantifier": "every history of additions", "why_tests_cant": "limits are cumulative over histories", "anchors": ["builder/font_builder_color.go: AddDye, AddPalette, checkColorSectionNameCollision, getColorIndexCount", "builder/font_builder_settings.go: AddSetting", "builder/font_builder_mapping.go: AddSwitch"]}
{"id": "C48", "title": "Rule scanning never panics", "statement": "For every byte string offered as a rewrite rule, scanning it yields its elements or an error; it never panics.", "quantifier": "every byte string", "why_tests_cant": "arbitrary malformed rules from a font file", "anchors": ["internal/rerules/glyphrule/rule_scanner.go: Start, Next, parseFragmentControl", "internal/rerules/utf8rule/rule_scanner.go"]}
{"id": "C49", "title": "The decision tree finds the longest match, earliest rule on ties", "statement": "For every set of rules, feeding a glyph sequence to the compiled tester matches the rule with the longest input pattern that is a prefix of the sequence; among rules with patterns of that length the one added first wins.", "quantifier": "every rule set the compiler accepts and every input", "why_tests_cant": "state sharing, copying and reuse in the compiler across unbounded rule sets", "anchors": ["internal/rerules/glyphrule/decision_tree_compiler.go", "internal/rerules/glyphrule/decision_tree_state.go", "internal/rerules/glyphrule/decision_tree.go: Match, Feed"]}
{"id": "C50", "title": "Compiling rules with overlapping ranges works", "statement": "Rules whose first elements are overlapping sets or glyphs can be combined: compilation succeeds and does not panic.", "quantifier": "every rule set built from valid glyph sets", "why_tests_cant": "all overlap configurations of ranges", "anchors": ["internal/rerules/glyphrule/decision_tree_state.go: AppendRange, confrontRanges, splitTransitionAt, splitTransitionBy"]}
{"id": "C51", "title": "The rewrite tester's output is the rewriting of its input", "statement": "Feeding a glyph sequence and finishing reports exactly the sequence obtained by scanning left to right and replacing each match (longest match, earliest rule) by its output; every input glyph that is not replaced is reported exactly once, in order.", "quantifier": "every rule set, every input sequence", "why_tests_cant": "streaming look-ahead, re-detection and accumulator bookkeeping over unbounded inputs", "anchors": ["internal/rerules/glyphrule/tester.go: Feed, Break, FinishSequence, rewrite, rerunDetection", "rerules/glyph_tester.go: GlyphTester"]}
{"id": "C52", "title": "Sequences are independent", "statement": "The output of a tester for a sequence does not depend on the sequences processed before with the same tester: after FinishSequence nothing of the old sequence remains.", "quantifier": "every history of sequences", "why_tests_cant": "needs particular residues of earlier sequences", "anchors": ["internal/rerules/glyphrule/tester.go: BeginSequence, FinishSequence, Break, unflushedTail, RemoveAllRules"]}
{"id": "C53", "title": "Rewrite conditions gate rules", "statement": "A rule whose condition is false under the current settings is never applied.", "quantifier": "every rule set, condition values and input", "why_tests_cant": "every condition valuation", "anchors": ["internal/rerules/glyphrule/tester.go: RefreshConditions, recompile, treesFeedUnrestrictedGlyph"]}
{"id": "C54", "title": "A failed compilation does not affect later ones", "statement": "After a tester reports a compilation error (for example an invalid rule), other testers and the same tester with the rule removed still work.", "quantifier": "every history of testers and failures", "why_tests_cant": "global state shared between unrelated testers", "anchors": ["internal/rerules/glyphrule/tester.go: recompile", "internal/rerules/glyphrule/decision_tree_compiler.go: Begin, CommonDecisionTreeCompiler"]}
{"id": "C55", "title": "A tester without rules passes glyphs through", "statement": "A tester with no rules (new, or after removing all rules) reports every glyph fed to it unchanged.", "quantifier": "every input sequence and every history leading to an empty rule set", "why_tests_cant": "all histories", "anchors": ["internal/rerules/glyphrule/tester.go: Feed, RemoveAllRules", "internal/circular_buffer.go: Push"]}
{"id": "C56", "title": "Parse accepts every font within the limits", "statement": "Every file whose payload is laid out as the specification describes, with counts and sizes within the limits that parse.go states, is parsed successfully, whatever the sizes of the reads that deliver it, and the resulting section offsets are the true positions of the sections.", "quantifier": "every layout within the limits, every way of splitting the payload into reads", "why_tests_cant": "the space of layouts is unbounded in 17 dimensions; a false rejection needs one particular count", "anchors": ["parse.go: Parse", "specification.md"]}
{"id": "C57", "title": "Enumerating the colors of a builder", "statement": "EachDyeAlpha and EachPaletteColor of the builder call back with exactly the values of the named section, in order, each with the color index that it has in the font (0 is transparent, then come the dyes and then the palettes), and succeed; for an unknown name they fail without calling back.", "quantifier": "every history of builder calls and every name", "why_tests_cant": "needs several sections of different sizes; the result depends on all sections before the named one", "anchors": ["builder/font_builder_color.go: EachDyeAlpha, EachPaletteColor", "specification.md"]}
{"id": "C58", "title": "Compiling rewrite conditions", "statement": "compileRewriteCondition turns every text of an expression by its grammar, within the limits, into the bytes of a condition with the same value under all settings, and gives an error for every other text.", "quantifier": "every text", "why_tests_cant": "the texts are unbounded in length and nesting", "anchors": ["builder/font_builder_rewrite_condition.go: compileRewriteCondition, appendNextExpr, appendNextTerm", "builder/helpers.go: trimSpaces, startsWith"]}
{"id": "C59", "title": "Printing rewrite conditions", "statement": "String of a compiled condition gives a text that by the grammar of conditions is an expression with the same value under all settings, for every well-formed condition, and panics on bytes that are no condition.", "quantifier": "every condition and every byte string", "why_tests_cant": "conditions are nested without bound", "anchors": ["builder/font_builder_rewrite_condition.go: String, appendSubTerm", "internal/helpers.go: AppendByteDigits"]}
{"id": "C60", "title": "Reading edition data", "statement": "ParseEditionData reads every file of edition data that is laid out as the specification describes and valid for the font, and afterwards the builder has its categories, kerning classes and condition names, the listed pairs have their classes, and nothing else is changed; other data is refused.", "quantifier": "every builder, every edition data, every way of splitting the file into reads", "why_tests_cant": "the space of builders and of edition data is unbounded; wrong widths show only on particular counts", "anchors": ["builder/font_builder.go: ParseEditionData", "internal/parsing_buffer.go", "specification.md"]}
{"id": "C61", "title": "Edition data that can't be read", "statement": "When ParseEditionData doesn't succeed it returns an error, without panicking or looping, and the builder is as before except that it has no edition data.", "quantifier": "every builder and every reader, also failing ones", "why_tests_cant": "the failure can happen at every byte of every file", "anchors": ["builder/font_builder.go: ParseEditionData, ClearEditionData", "internal/parsing_buffer.go: EnsureEOF"]}
{"id": "C62", "title": "The texts of a builder", "statement": "SetName, SetFamily, SetAuthor and SetAbout take exactly the texts that are UTF-8, have no control characters below U+0020 and fit into the limit of the text. Then the text is the given one and nothing else is changed; a refused text gives an error and changes nothing.", "quantifier": "every builder and every byte string", "why_tests_cant": "the byte strings are unbounded; a false acceptance needs one particular malformed sequence", "anchors": ["builder/font_builder_props.go: SetName, SetFamily, SetAuthor, SetAbout, checkStringValidity"]}
{"id": "C63", "title": "Adding and editing glyphs", "statement": "AddGlyph takes a mask exactly if there are less glyphs than the limit, its non-transparent part lies within ascent and descent with their extra parts and, in a monospaced font, within the width, and a free random number comes up within four; the glyph is then the last one, unnamed, placed by its mask, and no other glyph and no other part of the builder is changed. SetGlyphPlacement and SetGlyphName change just the named part of an existing glyph, for names that ValidateGlyphName takes. Every refusal changes nothing.", "quantifier": "every builder, mask, sequence of random numbers and name", "why_tests_cant": "masks, builders and random numbers form an unbounded space", "anchors": ["builder/font_builder_props.go: AddGlyph, SetGlyphPlacement, SetGlyphName", "mask/compute_rect.go"]}
{"id": "C64", "title": "Versions, dates, metrics and the font ID", "statement": "Raising a version gives a newer one, with the dates of now and the other dates kept. The dates taken are exactly the valid ones. A metric is taken exactly within its range; without vertical layout the width and gap of vertical lines are 0 at all times. A new builder has a font ID with enough entropy. Every call changes just the named part, and refusals change nothing.", "quantifier": "every builder, every history of builder calls, every version, date and value", "why_tests_cant": "the invariant must hold after every sequence of calls; wrap-around happens after 65535 versions", "anchors": ["builder/font_builder_props.go: RaiseMajorVersion, RaiseMinorVersion, SetVersion, SetFirstVerDate, SetMajorVerDate, SetMinorVerDate", "builder/font_builder_props.go: the setters of the metrics", "builder/font_builder.go: New", "specification.md"]}
{"id": "C65", "title": "Fonts from Parse and Build are valid", "statement": "Validate accepts every font that Parse or Build gives, in both modes. GlyphRange.Validate accepts exactly the non-empty ranges below the number of glyphs, NewRange panics exactly for reversed bounds, and Contains is membership.", "quantifier": "every reader, every history of builder calls, every range", "why_tests_cant": "fonts form an unbounded space", "anchors": ["font.go: Validate and the Validate method of every section", "glyph.go: GlyphRange", "parse.go: Parse", "builder/font_builder.go: Build"]}
{"id": "C66", "title": "Exported fonts are read back", "statement": "Export writes the signature and the compressed data if no call of Write fails, else it returns an error and has written a beginning of that file. Parsing the file gives the exported font again, whatever the sizes of the reads; this holds for fonts from Parse and for fonts exported by a builder.", "quantifier": "every font, every writer that keeps to the contract of io.Writer, every way of splitting the file into reads", "why_tests_cant": "a write can fail at every call, reads can be split everywhere", "anchors": ["font.go: Export", "builder/font_builder.go: Export", "parse.go: Parse"]}
{"id": "C67", "title": "Glyphs survive building", "statement": "A built font has the glyphs of the builder in their order: under each index the accessors give the advance, the placement (just the advance without vertical layout) and the pixels of the glyph, other indices panic, and a glyph with a name is found by that name.", "quantifier": "every history of builder calls, every order of map iteration", "why_tests_cant": "builders and masks form an unbounded space; encoding and decoding must agree for every mask", "anchors": ["builder/font_builder.go: Build", "font.go: Glyphs", "mask/encoder.go", "mask/rasterize.go"]}
{"id": "C68", "title": "Header and metrics survive building", "statement": "Format version, ID, versions, dates, texts and metrics read from a built font are those of the builder.", "quantifier": "every history of builder calls, every order of map iteration", "why_tests_cant": "needs all combinations of text lengths; the offsets of later fields depend on all earlier texts", "anchors": ["builder/font_builder.go: Build", "font.go: Header, Metrics"]}
{"id": "C69", "title": "Colors survive building", "statement": "The dyes and palettes read from a built font, their names, colors, order and color indices, are those of the builder; a builder without any gives the dye main with one opaque alpha.", "quantifier": "every history of builder calls, every order of map iteration", "why_tests_cant": "the numbers and sizes of sections are independent of each other", "anchors": ["builder/font_builder.go: Build", "font.go: Color"]}
{"id": "C70", "title": "Settings and switches survive building", "statement": "The settings read from a built font, their names, order and numbers of options, are those of the builder, and a switch evaluates to the position of the combination of the current options of its settings, different for different combinations.", "quantifier": "every history of builder calls, every order of map iteration, all current settings", "why_tests_cant": "the combinations grow exponentially with the settings of a switch", "anchors": ["builder/font_builder.go: Build", "font.go: Settings, Mapping.EvaluateSwitch"]}
{"id": "C71", "title": "Glyph sets survive building", "statement": "The glyph sets read from a built font are those of the builder in their order; iterating over the ranges and the listed glyphs of a set gives the indices of its glyphs in order; other indices panic.", "quantifier": "every history of builder calls, every order of map iteration, every callback", "why_tests_cant": "sets, ranges and callbacks form an unbounded space", "anchors": ["builder/font_builder.go: Build", "font.go: Rewrites.GetGlyphSet", "font.go: GlyphRewriteSet"]}
{"id": "C72", "title": "Rules given to a builder do what they say", "statement": "If all rules of a built font are read from it and added to a new tester, every input is rewritten as the rules given to the builder say, preferring the longest match.", "quantifier": "every history of builder calls, every order of map iteration, every input in any pieces", "why_tests_cant": "joins builder, font data, rule scanner, decision tree and tester; rules and inputs form an unbounded space", "anchors": ["builder/font_builder_rewrite_rules.go", "builder/font_builder.go: Build", "font.go: Rewrites", "internal/rerules/glyphrule/tester.go", "internal/rerules/glyphrule/decision_tree_compiler.go", "internal/rerules/utf8rule/tester.go"]}
{"id": "C73", "title": "Parse enforces the demands of the specification", "statement": "A font that Parse accepts meets everything that specification.md demands with must, can't or max: name, ascent, extra ascent, vertical metrics and kernings without vertical layout, numbers of glyphs, colors and switches, dates, names, words, options, ordered mappings and kernings, condition groups, rule blocks and sizes; and a font that meets all of it is accepted.", "quantifier": "every font laid out as the specification describes, every way to deliver it", "why_tests_cant": "each demand is a predicate over all fonts; tests only try fonts made by the builder", "anchors": ["parse.go", "font.go: Header.Validate, Metrics.Validate", "internal/constants.go", "specification.md"]}
{"id": "C74", "title": "Mapping calls take what they should and nothing else", "statement": "Map, MapGroup, MapWithSwitchSingles and MapWithSwitch take a mapping exactly if the code point is no control code, the glyphs exist and there is one non-empty group for every case of the switch; then the mapping of this code point, and nothing else in the builder, changes; otherwise they give an error, do not panic, and change nothing.", "quantifier": "every history of builder calls, all code points, switches, groups and flags", "why_tests_cant": "the number of cases is a product over the settings of a switch; acceptance is an equivalence over an unbounded space of arguments", "anchors": ["builder/font_builder_mapping.go", "builder/font_builder_props.go"]}
{"id": "C75", "title": "Kerning, set and rule calls take what they should and nothing else", "statement": "SetKerningPair, CreateGlyphSet, CreateRuneSet, the calls that add to sets, AddSimpleUtf8RewriteRule and AddGlyphRewriteRule take their arguments exactly if what they refer to exists, a rule has a body, and the numbers fit the format; then the kerning, set or rule is as given and nothing else in the builder changes; otherwise they give an error and change nothing.", "quantifier": "every history of builder calls, all arguments", "why_tests_cant": "acceptance is an equivalence over an unbounded space of builders and arguments; the lengths of rules are added in bytes and can wrap", "anchors": ["builder/font_builder_rewrite_sets.go", "builder/font_builder_rewrite_rules.go", "builder/font_builder_props.go"]}
{"id": "C76", "title": "Font IDs with too little variation are refused", "statement": "A font ID is taken by Parse and chosen by New exactly if the 32 two-bit digits of the ID are spread evenly enough (1 - sum of |count - 8| / 48 at least 0.26); all 64 bits count.", "quantifier": "every 64-bit ID, every font laid out as the specification describes, every sequence of random numbers", "why_tests_cant": "2^64 IDs; the threshold depends on the counts of all digits", "anchors": ["internal/helpers.go: LazyEntropyUint64", "internal/constants.go", "font.go: Header.Validate", "builder/font_builder.go: New"]}
{"id": "C77", "title": "The rule scanner takes exactly the rules of the format", "statement": "A byte string is scanned without error exactly if its lengths and blocks are laid out as the specification says (fragments of at most 15 sets and 15 elements, as many elements as the lengths announce, one zero byte for an empty block), and then the elements are those of the blocks in order.", "quantifier": "every byte string, both kinds of rules", "why_tests_cant": "the language of well-formed rules is infinite; tests only scan rules made by the builder or a few broken ones", "anchors": ["internal/rerules/glyphrule/rule_scanner.go", "internal/rerules/utf8rule/rule_scanner.go", "specification.md"]}
{"id": "C78", "title": "Building again", "statement": "Calls of Build leave no trace: Build directly after Build gives the same font or error and changes nothing, and a font built after any calls is the one built after the same calls without the earlier calls of Build.", "quantifier": "every builder, every history of builder calls with calls of Build anywhere in it, every order of map iteration", "why_tests_cant": "histories form an unbounded space; the difference shows only when Build comes before certain other calls", "anchors": ["builder/font_builder.go: Build", "builder/font_builder_color.go: AddDye"]}
{"id": "C79", "title": "Refused calls change nothing", "statement": "A call of the builder that gives an error, panics, or finds nothing to remove leaves the builder as it was.", "quantifier": "every builder state, every call with any arguments", "why_tests_cant": "every way to fail of every call in every state", "anchors": ["builder/font_builder.go: Build", "builder/font_builder_color.go", "builder/font_builder_settings.go", "builder/font_builder_mapping.go", "builder/font_builder_props.go", "builder/font_builder_rewrite_sets.go", "builder/font_builder_rewrite_rules.go"]}
{"id": "C80", "title": "Calls about different things can be exchanged", "statement": "A call of the builder changes only the part it is about, what it does and whether it is refused depend only on this part and on those it refers to (settings for switches, switches and glyphs for mappings, glyphs and sets for rules), and so two neighbouring calls about different parts that do not refer to each other give the same builder in either order.", "quantifier": "every builder state, every pair of calls with any arguments, every history around them", "why_tests_cant": "pairs of calls in all states; tests use one order", "anchors": ["builder/font_builder_color.go", "builder/font_builder_settings.go", "builder/font_builder_mapping.go", "builder/font_builder_props.go", "builder/font_builder_rewrite_sets.go", "builder/font_builder_rewrite_rules.go"]}
{"id": "C81", "title": "Accessors of accepted fonts", "statement": "The accessors of a font returned by Parse do not panic for keys below the counts, and code points that are in no entry of the mapping are reported as missing.", "quantifier": "every payload that Parse accepts from a reader that delivers it, every key, code point and pair of glyphs", "why_tests_cant": "Parse checks only the last end offset of each table; the accessors rely on all of them, and files made by the builder always have them in order", "anchors": ["parse.go: Parse", "font.go: FontColor", "font.go: FontGlyphs", "font.go: FontSettings", "font.go: FontMapping", "font.go: FontRewrites", "font.go: FontKerning"]}
{"id": "C82", "title": "Errors of the reader are reported", "statement": "When the reader of a font file fails before the font is complete, Parse returns the error of the reader.", "quantifier": "every font, every way the reader delivers a beginning of it, every point of failure and every error", "why_tests_cant": "failing readers are not tested, and the point of failure decides which of the many checks of the parser meets the error", "anchors": ["parse.go: Parse", "internal/parsing_buffer.go: readMore, readUpTo"]}
{"id": "C83", "title": "Errors of the reader of edition data are reported", "statement": "When the reader of edition data fails before it has said that the data is complete, and has sent at most 32 MiB, ParseEditionData returns the error of the reader unless what had arrived was refused already, and the builder has no edition data afterwards.", "quantifier": "every builder, every beginning of edition data, every way the reader delivers it, every point of failure and every error", "why_tests_cant": "failing readers are not tested, and the point of failure decides which of the many reading steps meets the error", "anchors": ["builder/font_builder.go: FontBuilder.ParseEditionData", "internal/parsing_buffer.go: readMore, readUpTo, EnsureEOF"]}
