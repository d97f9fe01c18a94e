(** The sections of a laid out font are stored at the offsets of the font. *)
From Verif Require Import Base BaseFacts Spec_Helpers Spec_Format Proofs_Format Proofs_Font Model_Font Spec_Layout Spec_LayoutFont.

Lemma section_stored l k s : nth_error (sections l) k = Some s -> stored (font_bytes l) (section_start l k) s.
Proof.
  intros H. apply nth_error_split in H. destruct H as (l1 & l2 & E & <-). unfold font_bytes, section_start. rewrite E.
  rewrite firstn_app, Nat.sub_diag, firstn_all. cbn [firstn]. rewrite app_nil_r.
  exists (concat l1), (concat l2). split; [|reflexivity]. rewrite concat_app. reflexivity.
Qed.

Section Font.
  Variable l : layout.
  Let f := font_of l.
  Lemma st_header : stored (Data f) 0 (header_bytes (l_header l)).
  Proof. exact (section_stored l 0 _ eq_refl). Qed.
  Lemma st_metrics : stored (Data f) (OffsetToMetrics f) (metrics_bytes (l_metrics l)).
  Proof. exact (section_stored l 1 _ eq_refl). Qed.
  Lemma st_dyes : stored (Data f) (OffsetToDyes f) (dyes_bytes (l_dyes l)).
  Proof. exact (section_stored l 2 _ eq_refl). Qed.
  Lemma st_palettes : stored (Data f) (OffsetToPalettes f) (palettes_bytes (l_palettes l)).
  Proof. exact (section_stored l 3 _ eq_refl). Qed.
  Lemma st_names : stored (Data f) (OffsetToGlyphNames f) (glyph_names_bytes (l_names l)).
  Proof. exact (section_stored l 4 _ eq_refl). Qed.
  Lemma st_masks : stored (Data f) (OffsetToGlyphMasks f) (glyph_masks_bytes (m_vert (l_metrics l)) (l_glyphs l)).
  Proof. exact (section_stored l 5 _ eq_refl). Qed.
  Lemma st_words : stored (Data f) (OffsetToWords f) (words_bytes (l_words l)).
  Proof. exact (section_stored l 6 _ eq_refl). Qed.
  Lemma st_setting_names : stored (Data f) (OffsetToSettingNames f) (setting_names_bytes (l_settings l)).
  Proof. exact (section_stored l 7 _ eq_refl). Qed.
  Lemma st_setting_defs : stored (Data f) (OffsetToSettingDefinitions f) (setting_defs_bytes (l_settings l)).
  Proof. exact (section_stored l 8 _ eq_refl). Qed.
  Lemma st_switches : stored (Data f) (OffsetToMappingSwitches f) (switches_bytes (l_switches l)).
  Proof. exact (section_stored l 9 _ eq_refl). Qed.
  Lemma st_mapping : stored (Data f) (OffsetToMapping f) (mapping_bytes (l_mapping l)).
  Proof. exact (section_stored l 10 _ eq_refl). Qed.
  Lemma st_conditions : stored (Data f) (OffsetToRewriteConditions f) (conditions_bytes (l_conditions l)).
  Proof. exact (section_stored l 11 _ eq_refl). Qed.
  Lemma st_utf8_sets : stored (Data f) (OffsetToRewriteUtf8Sets f) (sets_bytes 4 (l_utf8_sets l)).
  Proof. exact (section_stored l 12 _ eq_refl). Qed.
  Lemma st_glyph_sets : stored (Data f) (OffsetToRewriteGlyphSets f) (sets_bytes 2 (l_glyph_sets l)).
  Proof. exact (section_stored l 13 _ eq_refl). Qed.
  Lemma st_utf8_rules : stored (Data f) (OffsetToUtf8Rewrites f) (rules_bytes 4 (l_utf8_rules l)).
  Proof. exact (section_stored l 14 _ eq_refl). Qed.
  Lemma st_glyph_rules : stored (Data f) (OffsetToGlyphRewrites f) (rules_bytes 2 (l_glyph_rules l)).
  Proof. exact (section_stored l 15 _ eq_refl). Qed.
  Lemma st_horz : stored (Data f) (OffsetToHorzKernings f) (kernings_bytes (l_horz l)).
  Proof. exact (section_stored l 16 _ eq_refl). Qed.
  Lemma st_vert : stored (Data f) (OffsetToVertKernings f) (kernings_bytes (l_vert l)).
  Proof. exact (section_stored l 17 _ eq_refl). Qed.
  Lemma payload_header : exists post, font_bytes l = header_bytes (l_header l) ++ post /\ post <> [].
  Proof.
    eexists. split; [reflexivity|]. cbn [sections concat]. unfold metrics_bytes. cbn [le_digits app]. discriminate.
  Qed.
End Font.
