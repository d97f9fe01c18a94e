(** What the parser demands of a font and the builder does not check. *)
From Verif Require Import Base Spec_Helpers Spec_Format Spec_Accept Model_Font Model_Builder Spec_Builder.

(** [f] is the font built from [b]. Sizes of sections are given by the offsets of [f]: a section
    has a counter, a fixed number of bytes for each element and the bytes of the elements. *)
Record parser_limits (b : builder) (f : Font) : Prop := {
  (* parse.go: a font name *)
  pl_name : bh_name (b_header b) <> [];
  (* no vertical interspacing without vertical layout *)
  pl_spacing : bm_vert (b_metrics b) = false -> bm_vertSpacing (b_metrics b) = 0;
  (* as many color indices as colors, names that are not empty on average and of less than 64 KiB *)
  pl_colors : colors_sized (b_dyes b) /\ colors_sized (b_palettes b);
  (* masks of at most 255 bytes on average *)
  pl_masks : OffsetToWords f - OffsetToGlyphMasks f <=
    zlen (b_order b) * (3 + (if bm_vert (b_metrics b) then 4 else 1) + 255);
  (* one option per setting on average *)
  pl_options : zlen (b_settings b) <= zlen (concat (map snd (b_settings b)));
  (* one switch less than the builder allows *)
  pl_switches : zlen (b_switches b) <= 253;
  (* mapping entries of less than 16 MiB *)
  pl_mapping : OffsetToRewriteConditions f - OffsetToMapping f < 2 + 7 * zlen (b_mapping b) + 16777216;
  (* no empty sets *)
  pl_sets : Forall (fun x => bs_ranges (snd x) <> [] \/ bs_list (snd x) <> []) (b_glyphSets b);
  (* rules of at most 1026 or 514 bytes on average *)
  pl_utf8_rules : OffsetToGlyphRewrites f - OffsetToUtf8Rewrites f <= 2 + (3 + 1026) * zlen (b_utf8Rules b);
  pl_glyph_rules : OffsetToHorzKernings f - OffsetToGlyphRewrites f <= 2 + (3 + 514) * zlen (b_glyphRules b) }.

(** ** Exactly what is needed *)

(** What the offsets of the format can hold and the builder does not check: names of dyes and
    palettes of less than 64 KiB together, glyph data and mapping entries of less than 16 MiB. *)
Record offsets_fit (b : builder) (f : Font) : Prop := {
  of_names : total (map fst (b_dyes b)) < 65536 /\ total (map fst (b_palettes b)) < 65536;
  of_masks : OffsetToWords f - OffsetToGlyphMasks f < 3 * zlen (b_order b) + 16777216;
  of_mapping : OffsetToRewriteConditions f - OffsetToMapping f < 2 + 7 * zlen (b_mapping b) + 16777216 }.
(** As [parser_limits]; only the total size of the sets matters. *)
Record exact_limits (b : builder) (f : Font) : Prop := {
  xl_name : bh_name (b_header b) <> [];
  xl_spacing : bm_vert (b_metrics b) = false -> bm_vertSpacing (b_metrics b) = 0;
  xl_dyes : zlen (b_dyes b) <= total (map snd (b_dyes b)) /\ zlen (b_dyes b) <= total (map fst (b_dyes b));
  xl_palettes : zlen (b_palettes b) <= total (map snd (b_palettes b)) /\ zlen (b_palettes b) <= total (map fst (b_palettes b));
  xl_masks : OffsetToWords f - OffsetToGlyphMasks f <=
    zlen (b_order b) * (3 + (if bm_vert (b_metrics b) then 4 else 1) + 255);
  xl_options : zlen (b_settings b) <= zlen (concat (map snd (b_settings b)));
  xl_switches : zlen (b_switches b) <= 253;
  xl_sets : b_setsOrder b = [] \/ 2 + 5 * zlen (b_setsOrder b) <= OffsetToUtf8Rewrites f - OffsetToRewriteGlyphSets f;
  xl_utf8_rules : OffsetToGlyphRewrites f - OffsetToUtf8Rewrites f <= 2 + (3 + 1026) * zlen (b_utf8Rules b);
  xl_glyph_rules : OffsetToHorzKernings f - OffsetToGlyphRewrites f <= 2 + (3 + 514) * zlen (b_glyphRules b) }.
