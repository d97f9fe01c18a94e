(** Theorems C12, C22-C29, C31 and C35 (the accessors of font.go).

    [stored d off block] (Spec_Format.v) says that [block] is what the data contains from
    position [off] on; the blocks are the byte layouts of /repo/specification.md. [sample]
    (Sample.v) is a font with something in every section; the examples use it. *)
From Verif Require Import Base BaseFacts Spec_Helpers Model_Helpers Model_Words Model_Date Model_Mask Model_Font Model_Parse
  Spec_Parse Properties_Parse Spec_Format Spec_Layout Spec_LayoutFont Sample
  Proofs_Format Proofs_Font Proofs_Font2 Proofs_Font3 Proofs_Font4 Proofs_Layout.

Ltac splits := repeat match goal with |- _ /\ _ => split end.

(** ** C12 *)

(** Full statement: distinct indices give distinct words. False: many indices give "undefined". *)
Theorem C12_distinct_refuted : exists i j w, i <> j /\ byte i /\ byte j /\
  GetPredefinedWord i = Ok w /\ GetPredefinedWord j = Ok w.
Proof. exists 0, 1. eexists. split; [discriminate|]. split; [unfold byte; lia|]. split; [unfold byte; lia|]. split; vm_compute; reflexivity. Qed.
Print Assumptions C12_distinct_refuted.

Theorem C12_total : forall i, byte i -> exists w, GetPredefinedWord i = Ok w /\ w <> [].
Proof. exact predefined_total. Qed.
Print Assumptions C12_total.

Theorem C12_invalid_panics : forall i, ~ byte i -> GetPredefinedWord i = Panic.
Proof. exact predefined_panic. Qed.
Print Assumptions C12_invalid_panics.

Theorem C12_distinct_partial : forall i j w, GetPredefinedWord i = Ok w -> GetPredefinedWord j = Ok w ->
  w <> undefined_word -> i = j.
Proof. exact predefined_distinct. Qed.
Print Assumptions C12_distinct_partial.

Theorem C12_own_words_first : forall f ws i, stored (Data f) (OffsetToWords f) (words_bytes ws) ->
  Forall (fun w => w <> []) ws -> zlen (concat ws) < 65536 -> 0 <= i ->
  settings_GetWord f i = if i <? zlen ws then zget ws i else GetPredefinedWord i.
Proof. exact get_word. Qed.
Print Assumptions C12_own_words_first.

Example C12_example : let f := font_of sample in
  stored (Data f) (OffsetToWords f) (words_bytes (l_words sample)) /\
  settings_GetWord f 1 = Ok [98; 97; 114] /\ settings_GetWord f 255 = GetPredefinedWord 255 /\
  GetPredefinedWord 255 <> Ok undefined_word.
Proof. split; [apply st_words|]. vm_compute. split; [reflexivity|]. split; [reflexivity|discriminate]. Qed.

(** ** C22 *)

(** Full statement: the four accessors return the four stored strings. False: the offset of
    the family name is computed modulo 256. *)
Theorem C22_family_refuted : exists h post,
  header_in_range h /\ bytes (header_bytes h ++ post) /\
  header_Family (header_bytes h ++ post) <> Ok (h_family h).
Proof.
  exists (mkHeader 2 17 1 0 (2024, 1, 1) (2024, 1, 1) (0, 0, 0) (repeat 97 255) [98] [] []), [1].
  split; [vm_compute; repeat split; discriminate || reflexivity|].
  split; [apply bytes_check; vm_compute; reflexivity|]. vm_compute. discriminate.
Qed.
Print Assumptions C22_family_refuted.

(** The name is always right; the others as long as what precedes them ends below 256. *)
Theorem C22_strings_partial : forall d h post, d = header_bytes h ++ post -> header_in_range h -> post <> [] ->
  header_Name d = Ok (h_name h) /\
  (30 + zlen (h_name h) <= 255 -> header_Family d = Ok (h_family h)) /\
  (31 + zlen (h_name h) + zlen (h_family h) <= 255 -> header_Author d = Ok (h_author h)) /\
  (33 + zlen (h_name h) + zlen (h_family h) + zlen (h_author h) <= 255 -> header_About d = Ok (h_about h)).
Proof. exact header_strings. Qed.
Print Assumptions C22_strings_partial.

Example C22_example : header_in_range (l_header sample) /\
  header_About (font_bytes sample) = Ok [97; 98; 111; 117; 116] /\
  33 + zlen (h_name (l_header sample)) + zlen (h_family (l_header sample)) + zlen (h_author (l_header sample)) <= 255.
Proof. split; [vm_compute; repeat split; discriminate || reflexivity|]. split; vm_compute; [reflexivity|discriminate]. Qed.

(** ** C23 *)

Theorem C23_header_fields : forall d h post, d = header_bytes h ++ post -> header_in_range h ->
  header_FormatVersion d = Ok (h_format h) /\ header_ID d = Ok (h_id h) /\
  header_VersionMajor d = Ok (h_major h) /\ header_VersionMinor d = Ok (h_minor h) /\
  header_FirstVersionDate d = Ok (let '(y, m, dd) := h_first_date h in mkDate y m dd) /\
  header_MajorVersionDate d = Ok (let '(y, m, dd) := h_major_date h in mkDate y m dd) /\
  header_MinorVersionDate d = Ok (let '(y, m, dd) := h_minor_date h in mkDate y m dd).
Proof. exact header_fixed. Qed.
Print Assumptions C23_header_fields.

Theorem C23_metrics_fields : forall d om m, stored d om (metrics_bytes m) -> metrics_in_range m ->
  metrics_NumGlyphs d om = Ok (m_glyphs m) /\ metrics_HasVertLayout d om = Ok (m_vert m) /\
  metrics_MonoWidth d om = Ok (m_mono m) /\ metrics_Monospaced d om = Ok (negb (m_mono m =? 0)) /\
  metrics_Ascent d om = Ok (m_ascent m) /\ metrics_ExtraAscent d om = Ok (m_extra_ascent m) /\
  metrics_Descent d om = Ok (m_descent m) /\ metrics_ExtraDescent d om = Ok (m_extra_descent m) /\
  metrics_UppercaseAscent d om = Ok (m_uppercase m) /\ metrics_MidlineAscent d om = Ok (m_midline m) /\
  metrics_HorzInterspacing d om = Ok (m_horz_spacing m) /\ metrics_VertInterspacing d om = Ok (m_vert_spacing m) /\
  metrics_LineGap d om = Ok (m_line_gap m) /\ metrics_VertLineWidth d om = Ok (m_vert_width m) /\
  metrics_VertLineGap d om = Ok (m_vert_gap m) /\
  metrics_LineHeight d om = Ok (m_ascent m + m_descent m + m_line_gap m) /\
  metrics_VertLineFullWidth d om = Ok (m_vert_width m + m_vert_gap m).
Proof. exact metrics_stored. Qed.
Print Assumptions C23_metrics_fields.

(** On a parsed font none of these accessors reads outside the data. *)
Theorem C23_parsed_fonts_readable : forall first g i f, stream_bytes i -> Parse first g i = Ok f ->
  let d := Data f in let om := OffsetToMetrics f in
  reads (header_FormatVersion d) /\ reads (header_ID d) /\ reads (header_VersionMajor d) /\ reads (header_VersionMinor d) /\
  reads (header_FirstVersionDate d) /\ reads (header_MajorVersionDate d) /\ reads (header_MinorVersionDate d) /\
  reads (metrics_NumGlyphs d om) /\ reads (metrics_HasVertLayout d om) /\ reads (metrics_MonoWidth d om) /\
  reads (metrics_Monospaced d om) /\ reads (metrics_Ascent d om) /\ reads (metrics_ExtraAscent d om) /\
  reads (metrics_Descent d om) /\ reads (metrics_ExtraDescent d om) /\ reads (metrics_UppercaseAscent d om) /\
  reads (metrics_MidlineAscent d om) /\ reads (metrics_HorzInterspacing d om) /\ reads (metrics_VertInterspacing d om) /\
  reads (metrics_LineGap d om) /\ reads (metrics_VertLineWidth d om) /\ reads (metrics_VertLineGap d om) /\
  reads (metrics_LineHeight d om) /\ reads (metrics_VertLineFullWidth d om).
Proof. exact parsed_reads. Qed.
Print Assumptions C23_parsed_fonts_readable.

Example C23_example : let f := font_of sample in
  stream_bytes [(font_bytes sample, NoErr)] /\
  parse_payload [(font_bytes sample, NoErr)] = Ok f /\ metrics_in_range (l_metrics sample) /\
  stored (Data f) (OffsetToMetrics f) (metrics_bytes (l_metrics sample)) /\
  metrics_UppercaseAscent (Data f) (OffsetToMetrics f) = Ok 6 /\ header_MinorVersionDate (Data f) = Ok (mkDate 2024 2 29).
Proof.
  split; [repeat (apply Forall_cons; [apply bytes_check; vm_compute; reflexivity|]); apply Forall_nil|].
  split; [exact sample_parses|]. split; [split; [vm_compute; split; [discriminate|reflexivity]|apply bytes_check; vm_compute; reflexivity]|].
  split; [apply st_metrics|]. vm_compute. auto.
Qed.

(** ** C24 *)

Theorem C24_names_and_counts : forall f ds ps,
  stored (Data f) (OffsetToDyes f) (dyes_bytes ds) -> stored (Data f) (OffsetToPalettes f) (palettes_bytes ps) ->
  colors_in_range ds ps ->
  color_NumDyes f = Ok (zlen ds) /\ color_NumPalettes f = Ok (zlen ps) /\
  color_EachDye f = Ok (numbered 0 (map fst ds)) /\ color_EachPalette f = Ok (numbered 0 (map fst ps)) /\
  color_NumDyeIndices f = Ok (zlen (concat (map snd ds))) /\
  color_NumPaletteIndices f = Ok (zlen (concat (map snd ps))) /\
  color_Count f = Ok (zlen (concat (map snd ds)) + zlen (concat (map snd ps))).
Proof.
  intros f ds ps HD HP HR. splits; [eapply num_dyes; eassumption|eapply num_palettes; eassumption
    |eapply each_dye; eassumption|eapply each_palette; eassumption|eapply dye_indices; eassumption
    |eapply palette_indices; eassumption|eapply colors_count; eassumption].
Qed.
Print Assumptions C24_names_and_counts.

(** The sum is not truncated: where it does not fit a byte there is no answer. *)
Theorem C24_count_not_truncated : forall f a b, color_NumDyeIndices f = Ok a -> color_NumPaletteIndices f = Ok b ->
  0 <= a <= 255 -> 0 <= b <= 255 -> color_Count f = if a + b <=? 255 then Ok (a + b) else Panic.
Proof. exact count_not_truncated. Qed.
Print Assumptions C24_count_not_truncated.

(** The colors of each dye and palette are the stored ones in order; other keys panic. *)
Theorem C24_colors_in_order : forall f ds ps key,
  stored (Data f) (OffsetToDyes f) (dyes_bytes ds) -> stored (Data f) (OffsetToPalettes f) (palettes_bytes ps) ->
  colors_in_range ds ps -> 0 <= key ->
  color_EachDyeAlpha f key = zget (map snd ds) key /\
  color_NumDyeAlphas f key = (do a <- zget (map snd ds) key; Ok (zlen a)) /\
  color_EachPaletteColor f key = zget (map snd ps) key /\
  color_NumPaletteColors f key = (do a <- zget (map snd ps) key; Ok (zlen a)).
Proof.
  intros f ds ps key HD HP HR Hk. splits; [eapply each_dye_alpha; eassumption|eapply num_dye_alphas; eassumption
    |eapply each_palette_color; eassumption|eapply num_palette_colors; eassumption].
Qed.
Print Assumptions C24_colors_in_order.

Theorem C24_go_palette : forall f ds ps,
  stored (Data f) (OffsetToDyes f) (dyes_bytes ds) -> stored (Data f) (OffsetToPalettes f) (palettes_bytes ps) ->
  colors_in_range ds ps ->
  color_GoColorPalette f =
    Ok ((0, 0, 0, 0) :: map (fun a => (a, a, a, a)) (concat (map snd ds)) ++ concat (map snd ps)).
Proof. intros. eapply go_palette; eassumption. Qed.
Print Assumptions C24_go_palette.

Example C24_example : let f := font_of sample in
  stored (Data f) (OffsetToDyes f) (dyes_bytes (l_dyes sample)) /\
  stored (Data f) (OffsetToPalettes f) (palettes_bytes (l_palettes sample)) /\
  colors_in_range (l_dyes sample) (l_palettes sample) /\
  color_Count f = Ok 5 /\ color_EachDyeAlpha f 1 = Ok [64] /\
  color_EachPaletteColor f 0 = Ok [(1, 2, 3, 255); (9, 8, 7, 200)].
Proof.
  split; [apply st_dyes|]. split; [apply st_palettes|]. split; [|vm_compute; auto].
  split; [|split]; [| |vm_compute; discriminate]; (split; [|vm_compute; reflexivity]);
    repeat (apply Forall_cons; [split; discriminate|]); apply Forall_nil.
Qed.

(** ** C25 *)

(** Full statement: a stored name is found. False: names of the same length never compare as
    smaller, so the binary search stops too early. *)
Theorem C25_stored_name_refuted : exists f l q i,
  stored (Data f) (OffsetToGlyphNames f) (glyph_names_bytes l) /\ ordered lex_lt (map fst l) /\
  In (q, i) l /\ glyphs_FindIndexByName f q = Ok GlyphMissing.
Proof.
  exists (mkFont (glyph_names_bytes [([97], 0); ([98], 1)]) 0 0 0 0 0 0 0 0 0 0 0 0 0 0 0 0 0), [([97], 0); ([98], 1)], [98], 1.
  split; [exists [], []; split; vm_compute; reflexivity|]. split; [|split; [cbn; auto|vm_compute; reflexivity]].
  cbn. repeat split; intros; repeat (destruct H as [<-|H]); cbn; auto; try contradiction; lia.
Qed.
Print Assumptions C25_stored_name_refuted.

(** What is found is right, whatever the order of the names: a wrong index is never returned. *)
Theorem C25_found_is_right_partial : forall f l q,
  stored (Data f) (OffsetToGlyphNames f) (glyph_names_bytes l) ->
  zlen (concat (map fst l)) < 16777216 -> zlen l < 65536 -> Forall (fun x => 0 <= snd x < 65536) l ->
  exists r, glyphs_FindIndexByName f q = Ok r /\ (r = GlyphMissing \/ In (q, r) l).
Proof. intros. eapply find_sound; eassumption. Qed.
Print Assumptions C25_found_is_right_partial.

(** A stored name is found if the names before it, and only those, are of another length and
    bytewise at most the query. *)
Theorem C25_stored_name_partial : forall f l q k i,
  stored (Data f) (OffsetToGlyphNames f) (glyph_names_bytes l) ->
  zlen (concat (map fst l)) < 16777216 -> zlen l < 65536 -> Forall (fun x => 0 <= snd x < 65536) l ->
  zget l k = Ok (q, i) ->
  (forall j n, zget (map fst l) j = Ok n -> (reads_smaller n q <-> j < k)) ->
  glyphs_FindIndexByName f q = Ok i.
Proof.
  intros f l q k i H1 H2 H3 H4 E H. apply (find_complete f l H1 H2 H3 H4 q k (q, i) E eq_refl).
  intros j n Hj. rewrite smaller_spec. now apply H.
Qed.
Print Assumptions C25_stored_name_partial.

Example C25_example : let f := font_of sample in let l := l_names sample in
  stored (Data f) (OffsetToGlyphNames f) (glyph_names_bytes l) /\ zget l 1 = Ok ([98; 98], 3) /\
  (forall j n, zget (map fst l) j = Ok n -> (reads_smaller n [98; 98] <-> j < 1)) /\
  glyphs_FindIndexByName f [98; 98] = Ok 3 /\ glyphs_FindIndexByName f [99] = Ok GlyphMissing.
Proof.
  split; [apply st_names|]. split; [reflexivity|]. split; [|vm_compute; auto].
  intros j n E. pose proof (zget_ok_range _ _ _ E) as R. change (zlen (map fst (l_names sample))) with 2 in R.
  rewrite <- smaller_spec. assert (Hj : j = 0 \/ j = 1) by lia. destruct Hj as [-> | ->]; cbn in E; injection E as <-; vm_compute; intuition discriminate.
Qed.

(** ** C26 *)

(** Full statement: indices outside the font panic. False for RasterizeMask, which does not
    compare the index with the number of glyphs: it then reads the bytes after the offsets. *)
Theorem C26_out_of_range_refuted : exists f m (l : list glyph) i r,
  stored (Data f) (OffsetToMetrics f) (metrics_bytes m) /\ metrics_in_range m /\ m_glyphs m = zlen l /\
  stored (Data f) (OffsetToGlyphMasks f) (glyph_masks_bytes (m_vert m) l) /\ zlen l <= i /\
  glyphs_RasterizeMask f i = Ok r.
Proof.
  set (m := mkMetrics 1 false 0 5 0 3 0 3 2 1 0 1 0 0). set (l := [(mkPl 3 0 0 0, [])] : list glyph).
  exists (mkFont (metrics_bytes m ++ glyph_masks_bytes false l ++ repeat 0 8) 0 0 0 0 15 0 0 0 0 0 0 0 0 0 0 0 0), m, l, 1.
  eexists. split; [eexists [], _; split; reflexivity|]. split; [split; [vm_compute; split; [discriminate|reflexivity]|apply bytes_check; reflexivity]|].
  split; [reflexivity|]. split; [exists (metrics_bytes m), (repeat 0 8); split; reflexivity|].
  split; [vm_compute; discriminate|]. vm_compute. reflexivity.
Qed.
Print Assumptions C26_out_of_range_refuted.

Theorem C26_advance : forall f m (l : list glyph) i,
  stored (Data f) (OffsetToMetrics f) (metrics_bytes m) -> metrics_in_range m -> m_glyphs m = zlen l ->
  stored (Data f) (OffsetToGlyphMasks f) (glyph_masks_bytes (m_vert m) l) ->
  zlen (concat (map (glyph_bytes (m_vert m)) l)) < 16777216 -> 0 <= i ->
  glyphs_Advance f i = do g <- zget l i; Ok (pl_advance (fst g)).
Proof. intros. eapply advance_of; eassumption. Qed.
Print Assumptions C26_advance.

Theorem C26_placement : forall f m (l : list glyph) i,
  stored (Data f) (OffsetToMetrics f) (metrics_bytes m) -> metrics_in_range m -> m_glyphs m = zlen l ->
  stored (Data f) (OffsetToGlyphMasks f) (glyph_masks_bytes (m_vert m) l) ->
  zlen (concat (map (glyph_bytes (m_vert m)) l)) < 16777216 -> 0 <= i ->
  glyphs_Placement f i = do g <- zget l i;
    Ok (if m_vert m then mkPlacement (pl_advance (fst g)) (pl_top (fst g)) (pl_bottom (fst g)) (pl_center (fst g))
        else mkPlacement (pl_advance (fst g)) 0 0 0).
Proof. intros. eapply placement_of; eassumption. Qed.
Print Assumptions C26_placement.

(** the mask is rasterized from exactly the stored operations *)
Theorem C26_mask_partial : forall f m (l : list glyph) i g,
  stored (Data f) (OffsetToMetrics f) (metrics_bytes m) -> metrics_in_range m -> m_glyphs m = zlen l ->
  stored (Data f) (OffsetToGlyphMasks f) (glyph_masks_bytes (m_vert m) l) ->
  zlen (concat (map (glyph_bytes (m_vert m)) l)) < 16777216 -> zget l i = Ok g ->
  glyphs_mask_ops f i = Ok (snd g) /\
  glyphs_RasterizeMask f i = match Rasterize (snd g) with Err _ => Panic | r => r end.
Proof. intros f m l i g H1 H2 H3 H4 H5 E. split; [now apply (mask_ops f m l H1 H2 H3 H4 H5)|now apply (rasterize_glyph f m l H1 H2 H3 H4 H5)]. Qed.
Print Assumptions C26_mask_partial.

Example C26_example : let f := font_of sample in let m := l_metrics sample in let l := l_glyphs sample in
  stored (Data f) (OffsetToMetrics f) (metrics_bytes m) /\ metrics_in_range m /\ m_glyphs m = zlen l /\
  stored (Data f) (OffsetToGlyphMasks f) (glyph_masks_bytes (m_vert m) l) /\
  glyphs_Advance f 3 = Ok 6 /\ glyphs_Advance f 4 = Panic /\ glyphs_mask_ops f 1 = Ok [1; 1; 3; 3].
Proof.
  split; [apply st_metrics|]. split; [split; [vm_compute; split; [discriminate|reflexivity]|apply bytes_check; vm_compute; reflexivity]|].
  split; [reflexivity|]. split; [apply st_masks|]. vm_compute. auto.
Qed.

(** ** C27 *)

Theorem C27_options : forall f ws (l : list setting) key option,
  stored (Data f) (OffsetToSettingNames f) (setting_names_bytes l) ->
  stored (Data f) (OffsetToSettingDefinitions f) (setting_defs_bytes l) ->
  zlen (concat (map snd l)) < 65536 -> Forall (fun s => zlen (snd s) <= 255) l ->
  stored (Data f) (OffsetToWords f) (words_bytes ws) -> Forall (fun w => w <> []) ws -> zlen (concat ws) < 65536 ->
  Forall (fun s => bytes (snd s)) l -> 0 <= key -> 0 <= option ->
  settings_Count f = Ok (zlen l) /\
  settings_GetNumOptions f key = match zget l key with Ok s => if zlen (snd s) =? 0 then Panic else Ok (zlen (snd s)) | _ => Ok 0 end /\
  settings_GetOptionName f key option =
    do s <- zget l key; do w <- zget (snd s) option; if w <? zlen ws then zget ws w else GetPredefinedWord w.
Proof.
  intros f ws l key option HN HD HT HO HW H1 H2 HB Hk Ho. splits.
  - exact (setting_count f l HN).
  - exact (num_options f l HN HD HT HO key Hk).
  - exact (option_name f ws l HN HD HT HO key option HW H1 H2 HB Hk Ho).
Qed.
Print Assumptions C27_options.

Theorem C27_names : forall f (l : list setting), stored (Data f) (OffsetToSettingNames f) (setting_names_bytes l) ->
  Forall (fun s => fst s <> []) l -> zlen (concat (map fst l)) < 65536 ->
  settings_Each f = Ok (numbered 0 (map fst l)).
Proof. exact settings_each. Qed.
Print Assumptions C27_names.

Example C27_example : let f := font_of sample in
  settings_GetNumOptions f 0 = Ok 3 /\ settings_GetNumOptions f 2 = Ok 0 /\
  settings_GetOptionName f 0 1 = Ok [98; 97; 114] /\ settings_GetOptionName f 0 2 = GetPredefinedWord 200 /\
  settings_GetOptionName f 0 3 = Panic /\ settings_Each f = Ok [(0, [115; 116]); (1, [122])].
Proof. vm_compute. repeat split. Qed.

(** ** C28 *)

(** [ks] are the settings of the switch, [vs] their current values, [os] their option counts. *)
Theorem C28_mixed_radix : forall f settings sws key ks vs os,
  stored (Data f) (OffsetToMappingSwitches f) (switches_bytes sws) -> zlen (concat sws) < 65536 ->
  zget sws key = Ok ks -> ks <> [] ->
  Forall2 (fun k v => zget settings k = Ok v) ks vs -> Forall2 (fun k o => settings_GetNumOptions f k = Ok o) ks os ->
  combination vs os -> product os <= 256 ->
  mapping_EvaluateSwitch f key settings = Ok (position vs os) /\ 0 <= position vs os < product os.
Proof.
  intros f settings sws key ks vs os H1 H2 H3 H4 H5 H6 H7 H8. pose proof (position_range _ _ H7) as R. split; [|exact R].
  rewrite (evaluate_switch f settings sws key ks vs os H1 H2 H3 H4 H5 H6). f_equal. apply Z.mod_small. lia.
Qed.
Print Assumptions C28_mixed_radix.

(** In general the result is the position modulo 256. *)
Theorem C28_any_size : forall f settings sws key ks vs os,
  stored (Data f) (OffsetToMappingSwitches f) (switches_bytes sws) -> zlen (concat sws) < 65536 ->
  zget sws key = Ok ks -> ks <> [] ->
  Forall2 (fun k v => zget settings k = Ok v) ks vs -> Forall2 (fun k o => settings_GetNumOptions f k = Ok o) ks os ->
  mapping_EvaluateSwitch f key settings = Ok (position vs os mod 256).
Proof. exact evaluate_switch. Qed.
Print Assumptions C28_any_size.

Theorem C28_injective : forall vs ws os, combination vs os -> combination ws os -> position vs os = position ws os -> vs = ws.
Proof. exact position_injective. Qed.
Print Assumptions C28_injective.

Example C28_example : let f := font_of sample in
  stored (Data f) (OffsetToMappingSwitches f) (switches_bytes (l_switches sample)) /\
  zget (l_switches sample) 0 = Ok [0; 1] /\
  Forall2 (fun k v => zget [2; 1] k = Ok v) [0; 1] [2; 1] /\
  Forall2 (fun k o => settings_GetNumOptions f k = Ok o) [0; 1] [3; 2] /\ combination [2; 1] [3; 2] /\
  mapping_EvaluateSwitch f 0 [2; 1] = Ok 5 /\ mapping_EvaluateSwitch f 0 [0; 1] = Ok 1 /\ mapping_EvaluateSwitch f 0 [1; 0] = Ok 2.
Proof.
  split; [apply st_switches|]. split; [reflexivity|]. split; [repeat constructor|].
  split; [repeat (apply Forall2_cons; [vm_compute; reflexivity|]); apply Forall2_nil|]. split; [repeat constructor; lia|].
  vm_compute. auto.
Qed.

(** ** C29 *)

(** Full statement: the group of the selected case is found. False: a range of 2 to 127 glyphs
    in an earlier case is skipped as if it were a list. *)
Theorem C29_switch_case_refuted : exists f l sws k cases case g settings,
  stored (Data f) (OffsetToMapping f) (mapping_bytes l) /\ stored (Data f) (OffsetToMappingSwitches f) (switches_bytes sws) /\
  In (120, ESwitch k cases) l /\ ordered Z.lt (map fst l) /\ Forall group_in_range cases /\
  mapping_EvaluateSwitch f k settings = Ok case /\ zget cases case = Ok g /\
  (forall gg, mapping_Utf8 f 120 settings = Ok (Some gg) -> ~ group_found f gg g) /\
  exists gg i, mapping_Utf8 f 120 settings = Ok (Some gg) /\ group_Select f gg 0 = Ok i /\ zget (group_glyphs g) 0 <> Ok i.
Proof.
  set (cases := [GRange 0 1 2; GList 0 [3]; GList 0 [255]]). set (l := [(120, ESwitch 0 cases)]).
  exists (font_of {| l_header := l_header sample; l_metrics := l_metrics sample; l_dyes := l_dyes sample; l_palettes := l_palettes sample;
    l_names := []; l_glyphs := l_glyphs sample; l_words := []; l_settings := [([115], [0; 1; 2])]; l_switches := [[0]]; l_mapping := l;
    l_conditions := []; l_utf8_sets := []; l_glyph_sets := []; l_utf8_rules := []; l_glyph_rules := []; l_horz := []; l_vert := [] |}),
    l, [[0]], 0, cases, 1, (GList 0 [3]), [1].
  split; [exact (st_mapping _)|]. split; [exact (st_switches _)|]. split; [left; reflexivity|].
  split; [split; [intros y []|exact I]|].
  split. { repeat (apply Forall_cons; [unfold group_in_range, byte; cbn; split; [vm_compute; split; discriminate|]; split; [vm_compute; split; [discriminate|reflexivity]|repeat (apply Forall_cons; [lia|]); apply Forall_nil]|]); apply Forall_nil. }
  split; [vm_compute; reflexivity|]. split; [reflexivity|]. split.
  - intros gg E [_ HF]. vm_compute in E. injection E as <-.
    apply stored_cons in HF. destruct HF as [_ HF]. apply stored_cons in HF. destruct HF as [HF _]. vm_compute in HF. discriminate.
  - eexists. eexists. split; [vm_compute; reflexivity|]. split; [vm_compute; reflexivity|]. vm_compute. discriminate.
Qed.
Print Assumptions C29_switch_case_refuted.

Theorem C29_not_found : forall f l cp settings,
  stored (Data f) (OffsetToMapping f) (mapping_bytes l) -> ordered Z.lt (map fst l) ->
  Forall (fun x => 0 <= fst x < 2147483648) l -> zlen l < 65536 ->
  zlen (concat (map (fun x => entry_bytes (snd x)) l)) < 16777216 ->
  -2147483648 <= cp < 2147483648 -> (forall e, ~ In (cp, e) l) ->
  mapping_Utf8 f cp settings = Ok None.
Proof. intros. eapply lookup_missing; eassumption. Qed.
Print Assumptions C29_not_found.

Theorem C29_found_partial : forall f l cp e settings,
  stored (Data f) (OffsetToMapping f) (mapping_bytes l) -> ordered Z.lt (map fst l) ->
  Forall (fun x => 0 <= fst x < 2147483648) l -> zlen l < 65536 ->
  zlen (concat (map (fun x => entry_bytes (snd x)) l)) < 16777216 -> In (cp, e) l ->
  match e with
  | EGlyph i => exists gg, mapping_Utf8 f cp settings = Ok (Some gg) /\
      gg_directMapping gg = true /\ stored (Data f) (gg_offset gg) (le_digits 2 i) /\ gg_switchType gg = 255 /\ gg_caseBranch gg = 0
  | EGroup g => exists gg, mapping_Utf8 f cp settings = Ok (Some gg) /\
      group_found f gg g /\ gg_switchType gg = 254 /\ gg_caseBranch gg = 0
  | ESwitch k cases => forall case g, 0 <= k < 254 ->
      mapping_EvaluateSwitch f k settings = Ok case -> zget cases case = Ok g -> Forall group_in_range cases ->
      (* what is missing: earlier cases with ranges of 2 to 127 glyphs or lists of 128 *)
      Forall skippable (firstn (Z.to_nat case) cases) ->
      exists gg, mapping_Utf8 f cp settings = Ok (Some gg) /\ group_found f gg g /\ gg_switchType gg = k /\ gg_caseBranch gg = case
  end.
Proof.
  intros f l cp e settings H1 H2 H3 H4 H5 Hin. destruct e as [i|g|k cases].
  - exact (lookup_glyph f l H1 H2 H3 H4 H5 cp i settings Hin).
  - exact (lookup_group f l H1 H2 H3 H4 H5 cp g settings Hin).
  - intros case g. exact (lookup_switch f l H1 H2 H3 H4 H5 cp k cases settings case g Hin).
Qed.
Print Assumptions C29_found_partial.

Example C29_example : let f := font_of sample in let l := l_mapping sample in
  stored (Data f) (OffsetToMapping f) (mapping_bytes l) /\ ordered Z.lt (map fst l) /\
  zlen (concat (map (fun x => entry_bytes (snd x)) l)) < 16777216 /\
  mapping_Utf8 f 70 [0; 0] = Ok None /\ mapping_EvaluateSwitch f 0 [1; 1] = Ok 3 /\
  Forall skippable [GList 0 [0]; GList 0 [1]; GList 2 [2; 3]] /\
  exists gg, mapping_Utf8 f 120 [1; 1] = Ok (Some gg) /\ group_Select f gg 0 = Ok 3.
Proof.
  split; [apply st_mapping|]. split. { cbn. repeat split; intros y Hy; repeat (destruct Hy as [<-|Hy]); try contradiction; lia. }
  split; [vm_compute; reflexivity|]. split; [vm_compute; reflexivity|]. split; [vm_compute; reflexivity|].
  split; [repeat constructor|]. eexists. split; [vm_compute; reflexivity|]. vm_compute. reflexivity.
Qed.

(** ** C31 *)

(** Full statement: Select(i) is the i-th glyph. False for lists, which are stepped through by
    four bytes instead of two. *)
Theorem C31_select_refuted : exists f gg g, group_found f gg g /\ group_in_range g /\
  exists choice i, zget (group_glyphs g) choice = Ok i /\ group_Select f gg choice <> Ok i.
Proof.
  set (g := GList 0 [5; 6; 7]).
  exists (mkFont (group_bytes g) 0 0 0 0 0 0 0 0 0 0 0 0 0 0 0 0 0), {| gg_offset := 0; gg_switchType := 254; gg_caseBranch := 0; gg_directMapping := false |}, g.
  split; [split; [reflexivity|exists [], []; split; reflexivity]|].
  split. { split; [vm_compute; split; discriminate|]. split; [vm_compute; split; [discriminate|reflexivity]|]. repeat (apply Forall_cons; [lia|]); apply Forall_nil. }
  exists 1, 6. split; [reflexivity|]. vm_compute. discriminate.
Qed.
Print Assumptions C31_select_refuted.

(** The flags of groups with more than one glyph are read one byte too far. *)
Theorem C31_flags_refuted : exists f gg g, group_found f gg g /\ group_in_range g /\
  group_AnimationFlags f gg <> Ok (group_flags g).
Proof.
  set (g := GRange 1 5 2).
  exists (mkFont (group_bytes g) 0 0 0 0 0 0 0 0 0 0 0 0 0 0 0 0 0), {| gg_offset := 0; gg_switchType := 254; gg_caseBranch := 0; gg_directMapping := false |}, g.
  split; [split; [reflexivity|exists [], []; split; reflexivity]|].
  split. { split; [vm_compute; split; discriminate|]. split; [vm_compute; split; [discriminate|reflexivity]|]. repeat (apply Forall_cons; [lia|]); apply Forall_nil. }
  vm_compute. discriminate.
Qed.
Print Assumptions C31_flags_refuted.

Theorem C31_size : forall f gg g, group_found f gg g -> group_in_range g ->
  group_Size f gg = Ok (zlen (group_glyphs g)).
Proof. exact group_size. Qed.
Print Assumptions C31_size.

Theorem C31_other_choices_panic : forall f gg g choice, group_found f gg g -> group_in_range g ->
  zlen (group_glyphs g) <= choice -> group_Select f gg choice = Panic.
Proof. intros f gg g choice H1 H2. exact (select_out f gg g H1 H2 choice). Qed.
Print Assumptions C31_other_choices_panic.

(** Ranges and the first glyph of a list are selected correctly. *)
Theorem C31_select_partial : forall f gg g choice i, group_found f gg g -> group_in_range g ->
  0 <= choice -> zget (group_glyphs g) choice = Ok i ->
  match g with GList _ _ => choice = 0 | GRange _ _ _ => True end ->
  group_Select f gg choice = Ok i.
Proof.
  intros f gg g choice i H1 H2 Hc E H. apply (select_in f gg g H1 H2 choice i); [|exact Hc].
  destruct g; [|exact E]. subst choice. exact E.
Qed.
Print Assumptions C31_select_partial.

(** What is selected from lists instead: every second glyph. *)
Theorem C31_list_steps_partial : forall f gg fl l choice i, group_found f gg (GList fl l) -> group_in_range (GList fl l) ->
  0 <= choice -> zget l (2 * choice) = Ok i -> group_Select f gg choice = Ok i.
Proof. intros f gg fl l choice i H1 H2 Hc E. exact (select_in f gg (GList fl l) H1 H2 choice i E Hc). Qed.
Print Assumptions C31_list_steps_partial.

Theorem C31_flags_partial : forall f gg g, group_found f gg g -> group_in_range g ->
  (zlen (group_glyphs g) = 1 -> group_AnimationFlags f gg = Ok (group_flags g)) /\
  (1 < zlen (group_glyphs g) -> exists i, zget (group_glyphs g) 0 = Ok i /\ group_AnimationFlags f gg = Ok (i mod 256)).
Proof. intros f gg g H1 H2. split; [exact (group_flags_single f gg g H1 H2)|exact (group_flags_low f gg g H1 H2)]. Qed.
Print Assumptions C31_flags_partial.

(** Groups found for directly mapped code points have the one glyph. *)
Theorem C31_direct : forall f gg i choice, gg_directMapping gg = true -> stored (Data f) (gg_offset gg) (le_digits 2 i) -> 0 <= i < 65536 ->
  group_Size f gg = Ok 1 /\ group_AnimationFlags f gg = Ok 0 /\ group_Select f gg choice = if choice =? 0 then Ok i else Panic.
Proof.
  intros f gg i choice H S Hi. destruct (direct_size f gg H) as [A B]. splits; auto. now apply direct_select.
Qed.
Print Assumptions C31_direct.

Example C31_example : let g := GRange 3 700 100 in
  let f := mkFont (group_bytes g) 0 0 0 0 0 0 0 0 0 0 0 0 0 0 0 0 0 in
  let gg := {| gg_offset := 0; gg_switchType := 254; gg_caseBranch := 0; gg_directMapping := false |} in
  group_found f gg g /\ zget (group_glyphs g) 99 = Ok 799 /\ group_Size f gg = Ok 100 /\
  group_Select f gg 99 = Ok 799 /\ group_Select f gg 100 = Panic.
Proof. split; [split; [reflexivity|exists [], []; split; reflexivity]|]. vm_compute. auto. Qed.

(** ** C35 *)

Theorem C35_horizontal : forall f l prev curr, stored (Data f) (OffsetToHorzKernings f) (kernings_bytes l) ->
  ordered (fun p q => pair_key p < pair_key q) l -> Forall pair_in_range l -> zlen l < 16777216 ->
  0 <= prev < 65536 -> 0 <= curr < 65536 ->
  kerning_NumPairs f = Ok (zlen l) /\
  (forall v, In (prev, curr, v) l -> kerning_Get f prev curr = Ok v) /\
  ((forall v, ~ In (prev, curr, v) l) -> kerning_Get f prev curr = Ok 0).
Proof. intros f l prev curr H1 H2 H3 H4 H5 H6. split; [now apply kerning_count|now apply kerning_found]. Qed.
Print Assumptions C35_horizontal.

Theorem C35_vertical : forall f l prev curr, stored (Data f) (OffsetToVertKernings f) (kernings_bytes l) ->
  ordered (fun p q => pair_key p < pair_key q) l -> Forall pair_in_range l -> zlen l < 16777216 ->
  0 <= prev < 65536 -> 0 <= curr < 65536 ->
  kerning_NumVertPairs f = Ok (zlen l) /\
  (forall v, In (prev, curr, v) l -> kerning_GetVert f prev curr = Ok v) /\
  ((forall v, ~ In (prev, curr, v) l) -> kerning_GetVert f prev curr = Ok 0).
Proof. intros f l prev curr H1 H2 H3 H4 H5 H6. split; [now apply kerning_count|now apply kerning_found]. Qed.
Print Assumptions C35_vertical.

Example C35_example : let f := font_of sample in let l := l_horz sample in
  stored (Data f) (OffsetToHorzKernings f) (kernings_bytes l) /\
  ordered (fun p q => pair_key p < pair_key q) l /\ Forall pair_in_range l /\
  kerning_Get f 0 1 = Ok (-3) /\ kerning_Get f 2 0 = Ok 5 /\ kerning_Get f 1 0 = Ok 0 /\ kerning_Get f 65535 65535 = Ok 0.
Proof.
  split; [apply st_horz|]. split. { cbn. repeat split; intros y Hy; repeat (destruct Hy as [<-|Hy]); try contradiction; cbn; lia. }
  split; [repeat (apply Forall_cons; [cbn; lia|]); apply Forall_nil|]. vm_compute. auto.
Qed.
