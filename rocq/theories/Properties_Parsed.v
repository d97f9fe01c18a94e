(** C81: what the accessors of fonts returned by Parse do. *)
From Verif Require Import Base BaseFacts Spec_Helpers Spec_Format Spec_Layout Spec_LayoutFont Model_Words Model_Font Model_Rewrites Model_Parse Spec_Parse Spec_Parsed.
From Verif Require Import Sample Proofs_Typed Proofs_Parsed Proofs_Parsed2 Proofs_Parsed3.

(** A font file in which only end offsets before the last of a table are wrong *)
Definition broken_at : list (Z * Z) := let f := font_of sample in
  [ (OffsetToDyes f + 1, 200); (OffsetToDyes f + 7, 250);
    (OffsetToGlyphNames f + 2 + 4 + 1, 250); (OffsetToGlyphMasks f + 2, 250);
    (OffsetToWords f + 2, 250); (OffsetToSettingNames f + 2, 250); (OffsetToSettingDefinitions f + 1, 250);
    (OffsetToMappingSwitches f + 2, 250); (OffsetToMapping f + 2 + 16 + 2, 250);
    (OffsetToRewriteConditions f + 2, 250); (OffsetToRewriteGlyphSets f + 2, 250); (OffsetToGlyphRewrites f + 4, 250) ].
Definition broken : list Z := fold_left (fun d x => upd d (Z.to_nat (fst x)) (snd x)) broken_at (font_bytes sample).

Definition broken_font : Font := match parse_payload [(broken, EOF)] with Ok f => f | _ => font_of sample end.

(** The claim that accessors do not panic for keys below the count is false: *)
Theorem C81_accessors_refuted : exists i P f, within_bounds P /\ delivers i P /\ parse_payload i = Ok f /\
  color_EachDye f = Panic /\
  1 < dye_count f /\ color_NumDyeAlphas f 1 = Panic /\ color_EachDyeAlpha f 1 = Panic /\ color_GoColorPalette f = Panic /\
  glyphs_FindIndexByName f [97] = Panic /\
  1 < glyph_count f /\ glyphs_Advance f 1 = Panic /\ glyphs_Placement f 1 = Panic /\ glyphs_RasterizeMask f 1 = Panic /\
  1 < word_count f /\ settings_GetWord f 0 = Panic /\ settings_GetWord f 1 = Panic /\
  1 < setting_count f /\ settings_GetNumOptions f 1 = Panic /\ settings_GetOptionName f 1 0 = Panic /\ settings_Each f = Panic /\
  mapping_NumSwitchTypes f = Ok 2 /\ mapping_EvaluateSwitch f 1 [0; 0] = Panic /\ mapping_Utf8 f 66 [0; 0] = Panic /\
  rewrites_NumConditions f = Ok 2 /\ rewrites_EvaluateCondition f 1 [0; 0] = Panic /\
  rewrites_NumGlyphSets f = Ok 2 /\ rewrites_GetGlyphSet f 1 = Panic /\
  rewrites_NumGlyphRules f = Ok 2 /\ rewrites_GetGlyphRule f 1 = Panic.
Proof.
  exists [(broken, EOF)], broken, broken_font.
  split. { split; [apply bytesb_true; vm_compute; reflexivity|vm_compute; discriminate]. }
  split. { split; [exact I|reflexivity]. }
  repeat match goal with |- _ /\ _ => split end; vm_compute; reflexivity.
Qed.
Print Assumptions C81_accessors_refuted.

(** The numbers of things are always given, whatever the tables say *)
Theorem C81_counts : forall f, parsed f -> let d := Data f in
  color_NumDyes f = Ok (dye_count f) /\ color_NumPalettes f = Ok (palette_count f) /\
  color_NumDyeIndices f = Ok (num 1 d (OffsetToDyes f + dye_count f)) /\
  color_NumPaletteIndices f = Ok (num 1 d (OffsetToPalettes f + palette_count f)) /\
  color_Count f = Ok (num 1 d (OffsetToDyes f + dye_count f) + num 1 d (OffsetToPalettes f + palette_count f)) /\
  glyphs_Count f = Ok (glyph_count f) /\ glyphs_NamedCount f = Ok (name_count f) /\
  settings_NumWords f = Ok (word_count f) /\ settings_Count f = Ok (setting_count f) /\
  mapping_NumSwitchTypes f = Ok (num 1 d (OffsetToMappingSwitches f)) /\ mapping_NumEntries f = Ok (entry_count f) /\
  rewrites_NumConditions f = Ok (num 1 d (OffsetToRewriteConditions f)) /\
  rewrites_NumUTF8Sets f = Ok (num 1 d (OffsetToRewriteUtf8Sets f)) /\ rewrites_NumGlyphSets f = Ok (num 1 d (OffsetToRewriteGlyphSets f)) /\
  rewrites_NumUTF8Rules f = Ok (num 2 d (OffsetToUtf8Rewrites f)) /\ rewrites_NumGlyphRules f = Ok (num 2 d (OffsetToGlyphRewrites f)).
Proof. exact numbers. Qed.
Print Assumptions C81_counts.

(** Numbers of colors and options: exactly when they panic *)
Theorem C81_sizes : forall f k, parsed f -> let d := Data f in
  (0 <= k < dye_count f -> color_NumDyeAlphas f k =
    let n := end_of 1 d (dye_table f) k - start_of 1 d (dye_table f) k in if 0 <? n then Ok n else Panic) /\
  (0 <= k < palette_count f -> color_NumPaletteColors f k =
    let n := end_of 1 d (palette_table f) k - start_of 1 d (palette_table f) k in if 0 <? n then Ok n else Panic) /\
  (0 <= k < setting_count f -> settings_GetNumOptions f k =
    let n := end_of 2 d (setting_table f) k - start_of 2 d (setting_table f) k in if (0 <? n) && (n <=? 255) then Ok n else Panic).
Proof. intros f k H d. split; [|split]; intros Hk; [now apply dye_alphas|now apply palette_colors|now apply options]. Qed.
Print Assumptions C81_sizes.

(** Blocks that lie in order are returned, whatever the other entries of their table say *)
Theorem C81_blocks_partial : forall f k, parsed f -> let d := Data f in
  (in_order 2 d (word_table f) (word_count f) k -> settings_GetWord f k = Ok (block 2 d (word_table f) (word_count f) k)) /\
  (let t := OffsetToRewriteGlyphSets f + 1 in let n := num 1 d (OffsetToRewriteGlyphSets f) in
    in_order 2 d t n k -> rewrites_GetGlyphSet f k = Ok (block 2 d t n k)) /\
  (let t := OffsetToRewriteUtf8Sets f + 1 in let n := num 1 d (OffsetToRewriteUtf8Sets f) in
    in_order 2 d t n k -> rewrites_GetUtf8Set f k = Ok (block 2 d t n k)) /\
  (let t := OffsetToGlyphRewrites f + 2 in let n := num 2 d (OffsetToGlyphRewrites f) in
    in_order 3 d t n k -> rewrites_GetGlyphRule f k = Ok (block 3 d t n k)) /\
  (let t := OffsetToUtf8Rewrites f + 2 in let n := num 2 d (OffsetToUtf8Rewrites f) in
    in_order 3 d t n k -> rewrites_GetUtf8Rule f k = Ok (block 3 d t n k)) /\
  (forall o, in_order 2 d (setting_table f) (setting_count f) k ->
    0 <= o < end_of 2 d (setting_table f) k - start_of 2 d (setting_table f) k ->
    end_of 2 d (setting_table f) k - start_of 2 d (setting_table f) k <= 255 ->
    settings_GetOptionName f k o = settings_GetWord f (num 1 d (setting_table f + 2 * setting_count f + start_of 2 d (setting_table f) k + o))) /\
  (in_order 1 d (dye_table f) (dye_count f) k -> exists r, color_EachDyeAlpha f k = Ok r /\
    zlen r = end_of 1 d (dye_table f) k - start_of 1 d (dye_table f) k) /\
  (in_order 1 d (palette_table f) (palette_count f) k -> exists r, color_EachPaletteColor f k = Ok r /\
    zlen r = end_of 1 d (palette_table f) k - start_of 1 d (palette_table f) k).
Proof.
  intros f k H d. repeat match goal with |- _ /\ _ => split end.
  - now apply word.
  - now apply glyph_set.
  - now apply utf8_set.
  - now apply glyph_rule.
  - now apply utf8_rule.
  - intros o. now apply option_name.
  - now apply each_alpha.
  - now apply each_color.
Qed.
Print Assumptions C81_blocks_partial.

(** The enumerations go through tables that rise from entry to entry *)
Theorem C81_enumerations_partial : forall f, parsed f -> let d := Data f in
  (rising 2 d (dye_names f) (dye_count f) ->
    color_EachDye f = Ok (map (fun k => (k, block 2 d (dye_names f) (dye_count f) k)) (zseq (dye_count f)))) /\
  (rising 2 d (palette_names f) (palette_count f) ->
    color_EachPalette f = Ok (map (fun k => (k, block 2 d (palette_names f) (palette_count f) k)) (zseq (palette_count f)))) /\
  (rising 2 d (setting_names f) (setting_count f) ->
    settings_Each f = Ok (map (fun k => (k, block 2 d (setting_names f) (setting_count f) k)) (zseq (setting_count f)))) /\
  (rising 1 d (dye_table f) (dye_count f) -> rising 1 d (palette_table f) (palette_count f) ->
    exists r, color_GoColorPalette f = Ok r).
Proof.
  intros f H d. repeat match goal with |- _ /\ _ => split end; [now apply each_dye|now apply each_palette|now apply each_setting|now apply go_palette].
Qed.
Print Assumptions C81_enumerations_partial.

(** Glyphs: what start offset is enough for Advance and Placement, and looking up names *)
Theorem C81_glyphs_partial : forall f k, parsed f -> let d := Data f in let t := mask_table f in let n := glyph_count f in
  0 <= k < n ->
  (start_of 3 d t k < end_of 3 d t (n - 1) -> glyphs_Advance f k = Ok (num 1 d (t + 3 * n + start_of 3 d t k))) /\
  (exists v : bool, glyphs_hasVertLayout f = Ok v /\ (start_of 3 d t k + (if v then 4 else 1) <= end_of 3 d t (n - 1) ->
    exists p, glyphs_Placement f k = Ok p /\ gp_Advance p = num 1 d (t + 3 * n + start_of 3 d t k))).
Proof.
  intros f k H d t n Hk. split; [now apply advance|]. destruct (vert_layout f H) as (v & V). exists v. split; [exact V|]. intros. now apply (placement f H k v).
Qed.
Print Assumptions C81_glyphs_partial.

Theorem C81_find_partial : forall f name, parsed f -> let d := Data f in let t := name_table f in let n := name_count f in
  (forall k, 0 <= k < n -> start_of 3 d t k <= end_of 3 d t k <= end_of 3 d t (n - 1)) ->
  exists g, glyphs_FindIndexByName f name = Ok g.
Proof. intros f name H d t n. now apply find_name. Qed.
Print Assumptions C81_find_partial.

(** Code points that are in no entry of the mapping are reported as missing, in whatever order
    the entries lie *)
Theorem C81_missing : forall f cp settings, parsed f ->
  (forall k, 0 <= k < entry_count f -> num 4 (Data f) (OffsetToMapping f + 2 + 4 * k) <> u32 cp) ->
  mapping_Utf8 f cp settings = Ok None.
Proof. intros f cp s H. now apply absent. Qed.
Print Assumptions C81_missing.

(** Kernings: they panic exactly when the file ends before the counter does *)
Theorem C81_kerning : forall f a b, parsed f -> let n := zlen (Data f) in
  (n < OffsetToHorzKernings f + 3 -> kerning_Get f a b = Panic) /\
  (OffsetToHorzKernings f + 3 <= n -> exists k, kerning_Get f a b = Ok k /\ -128 <= k < 128) /\
  (n < OffsetToVertKernings f + 3 -> kerning_GetVert f a b = Panic) /\
  (OffsetToVertKernings f + 3 <= n -> exists k, kerning_GetVert f a b = Ok k /\ -128 <= k < 128).
Proof.
  intros f a b H n. destruct (parsed_frames f H) as [HD FR]. destruct (fr_horz _ _ FR) as [A1 A2]. destruct (fr_vert _ _ FR) as [B1 B2].
  destruct (kern f H _ a b A1 A2) as [K1 K2]. destruct (kern f H _ a b B1 B2) as [K3 K4]. auto.
Qed.
Print Assumptions C81_kerning.

(** tables that rise have all their blocks in order *)
Theorem C81_rising : forall w d t n, rising w d t n -> forall k, 0 <= k < n -> in_order w d t n k.
Proof. exact rising_in_order. Qed.
Print Assumptions C81_rising.

(** the font of Sample.v is parsed, all its tables rise, and a lookup is answered *)
Definition rises (w : nat) (d : list Z) (t n : Z) : bool := forallb (fun k => start_of w d t k <? end_of w d t k) (zseq n).
Example C81_example : let f := font_of sample in let d := Data f in
  parse_payload [(font_bytes sample, EOF)] = Ok f /\
  rises 1 d (dye_table f) (dye_count f) = true /\ rises 2 d (dye_names f) (dye_count f) = true /\
  rises 2 d (palette_names f) (palette_count f) = true /\ rises 3 d (mask_table f) (glyph_count f) = true /\
  rises 3 d (name_table f) (name_count f) = true /\ rises 2 d (word_table f) (word_count f) = true /\
  rises 2 d (setting_names f) (setting_count f) = true /\ rises 2 d (setting_table f) (setting_count f) = true /\
  (dye_count f, glyph_count f, word_count f, setting_count f) = (2, 4, 2, 2) /\
  settings_GetWord f 1 = Ok (block 2 d (word_table f) 2 1) /\ mapping_Utf8 f 9999 [0; 0] = Ok None /\
  kerning_Get broken_font 0 1 = Ok (-3).
Proof. cbv zeta. repeat match goal with |- _ /\ _ => split end; vm_compute; reflexivity. Qed.
