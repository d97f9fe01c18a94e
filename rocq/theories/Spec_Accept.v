(** The limits that a laid out font has to respect to be accepted by the parser. The sizes of
    the sections are those of the encodings of Spec_Format and Spec_Layout; the limits are the
    ones that parse.go checks. *)
From Verif Require Import Base Spec_Helpers Spec_Format Spec_Layout.

(** the total length of the elements that an EndOffset array indexes *)
Definition total {A} (l : list (list A)) : Z := zlen (concat l).
(** elements of [lo] to [hi] bytes on average, together less than [limit] *)
Definition sized {A} (lo hi limit : Z) (l : list (list A)) : Prop :=
  lo * zlen l <= total l <= hi * zlen l /\ total l < limit.

(** as many color indices as colors, names that are not empty on average *)
Definition colors_sized {A} (l : list (list Z * list A)) : Prop :=
  zlen l <= total (map snd l) /\ zlen l <= total (map fst l) < 65536.

Record accepted (entropy_ok : Z -> Prop) (l : layout) : Prop := {
  ac_bytes : bytes (font_bytes l);
  ac_size : zlen (font_bytes l) <= 33554432;
  ac_header : header_in_range (l_header l) /\ h_format (l_header l) = 2 /\
    entropy_ok (h_id (l_header l)) /\ h_name (l_header l) <> [];
  ac_glyph_count : m_glyphs (l_metrics l) = zlen (l_glyphs l) /\ 0 < zlen (l_glyphs l) <= 56789;
  ac_metrics : m_ascent (l_metrics l) <> 0 /\ m_extra_ascent (l_metrics l) <= m_ascent (l_metrics l) /\
    (m_vert (l_metrics l) = false -> m_vert_spacing (l_metrics l) = 0);
  ac_colors : colors_sized (l_dyes l) /\ colors_sized (l_palettes l) /\
    total (map snd (l_dyes l)) + total (map snd (l_palettes l)) <= 255;
  ac_names : zlen (l_names l) <= zlen (l_glyphs l) /\ sized 0 32 16777216 (map fst (l_names l));
  ac_masks : total (map snd (l_glyphs l)) <= 255 * zlen (l_glyphs l);
  ac_words : zlen (l_words l) <= 255 /\ sized 1 32 65536 (l_words l);
  ac_settings : zlen (l_settings l) <= 255 /\ sized 1 32 65536 (map fst (l_settings l)) /\
    sized 1 65536 65536 (map snd (l_settings l));
  ac_switches : zlen (l_switches l) <= 253 /\ sized 1 (zlen (l_settings l)) 65536 (l_switches l);
  ac_mapping : zlen (l_mapping l) < 65536 /\ sized 3 16777216 16777216 (map (fun x => entry_bytes (snd x)) (l_mapping l));
  ac_conditions : zlen (l_conditions l) <= 255 /\ sized 2 65536 65536 (map condition_bytes (l_conditions l));
  ac_utf8_sets : zlen (l_utf8_sets l) <= 255 /\ sized 6 65536 65536 (map (set_bytes 4) (l_utf8_sets l));
  ac_glyph_sets : zlen (l_glyph_sets l) <= 255 /\ sized 4 65536 65536 (map (set_bytes 2) (l_glyph_sets l));
  ac_utf8_rules : zlen (l_utf8_rules l) < 65536 /\ sized 8 1026 16777216 (map (rule_bytes 4) (l_utf8_rules l));
  ac_glyph_rules : zlen (l_glyph_rules l) < 65536 /\ sized 8 514 16777216 (map (rule_bytes 2) (l_glyph_rules l));
  ac_kernings : zlen (l_horz l) < 16777216 /\ zlen (l_horz l) <= zlen (l_glyphs l) * zlen (l_glyphs l) /\
    zlen (l_vert l) < 16777216 /\ zlen (l_vert l) <= zlen (l_glyphs l) * zlen (l_glyphs l) }.

(** ** Exactly what the parser accepts *)

(** The counters and offsets of the encoding can hold the numbers of [l]. *)
Record encodable (l : layout) : Prop := {
  en_bytes : bytes (font_bytes l);
  en_size : zlen (font_bytes l) <= 33554432;
  en_header : header_in_range (l_header l);
  en_glyphs : m_glyphs (l_metrics l) = zlen (l_glyphs l) /\ zlen (l_glyphs l) < 65536 /\
    total (map (glyph_bytes (m_vert (l_metrics l))) (l_glyphs l)) < 16777216;
  en_colors : total (map snd (l_dyes l)) < 256 /\ total (map fst (l_dyes l)) < 65536 /\
    total (map snd (l_palettes l)) < 256 /\ total (map fst (l_palettes l)) < 65536;
  en_names : zlen (l_names l) < 65536 /\ total (map fst (l_names l)) < 16777216;
  en_words : zlen (l_words l) < 256 /\ total (l_words l) < 65536;
  en_settings : zlen (l_settings l) < 256 /\ total (map fst (l_settings l)) < 65536 /\ total (map snd (l_settings l)) < 65536;
  en_switches : zlen (l_switches l) < 256 /\ total (l_switches l) < 65536;
  en_mapping : zlen (l_mapping l) < 65536 /\ total (map (fun x => entry_bytes (snd x)) (l_mapping l)) < 16777216;
  en_conditions : zlen (l_conditions l) < 256 /\ total (map condition_bytes (l_conditions l)) < 65536;
  en_utf8_sets : zlen (l_utf8_sets l) < 256 /\ total (map (set_bytes 4) (l_utf8_sets l)) < 65536;
  en_glyph_sets : zlen (l_glyph_sets l) < 256 /\ total (map (set_bytes 2) (l_glyph_sets l)) < 65536;
  en_utf8_rules : zlen (l_utf8_rules l) < 65536 /\ total (map (rule_bytes 4) (l_utf8_rules l)) < 16777216;
  en_glyph_rules : zlen (l_glyph_rules l) < 65536 /\ total (map (rule_bytes 2) (l_glyph_rules l)) < 16777216;
  en_kernings : zlen (l_horz l) < 16777216 /\ zlen (l_vert l) < 16777216 }.

(** The limits are on averages: the parser looks at the numbers of elements and the ends of the
    last ones only. *)
Record parser_accepts (entropy_ok : Z -> Prop) (l : layout) : Prop := {
  pa_header : h_format (l_header l) = 2 /\ entropy_ok (h_id (l_header l)) /\ h_name (l_header l) <> [];
  pa_metrics : l_glyphs l <> [] /\ m_ascent (l_metrics l) <> 0 /\ m_extra_ascent (l_metrics l) <= m_ascent (l_metrics l) /\
    (m_vert (l_metrics l) = false -> m_vert_spacing (l_metrics l) = 0);
  pa_dyes : zlen (l_dyes l) <= total (map snd (l_dyes l)) /\ zlen (l_dyes l) <= total (map fst (l_dyes l));
  pa_palettes : zlen (l_palettes l) <= total (map snd (l_palettes l)) /\ zlen (l_palettes l) <= total (map fst (l_palettes l)) /\
    total (map snd (l_dyes l)) + total (map snd (l_palettes l)) <= 255;
  pa_names : zlen (l_names l) <= zlen (l_glyphs l) /\ total (map fst (l_names l)) <= 32 * zlen (l_names l);
  pa_masks : total (map snd (l_glyphs l)) <= 255 * zlen (l_glyphs l);
  pa_words : zlen (l_words l) <= total (l_words l) <= 32 * zlen (l_words l);
  pa_settings : zlen (l_settings l) <= total (map fst (l_settings l)) <= 32 * zlen (l_settings l) /\
    zlen (l_settings l) <= total (map snd (l_settings l));
  pa_switches : zlen (l_switches l) <= 253 /\ zlen (l_switches l) <= total (l_switches l) <= zlen (l_settings l) * zlen (l_switches l);
  pa_mapping : 3 * zlen (l_mapping l) <= total (map (fun x => entry_bytes (snd x)) (l_mapping l));
  pa_conditions : 2 * zlen (l_conditions l) <= total (map condition_bytes (l_conditions l));
  pa_utf8_sets : l_utf8_sets l = [] \/ 1 + 5 * zlen (l_utf8_sets l) <= total (map (set_bytes 4) (l_utf8_sets l));
  pa_glyph_sets : l_glyph_sets l = [] \/ 1 + 3 * zlen (l_glyph_sets l) <= total (map (set_bytes 2) (l_glyph_sets l));
  pa_utf8_rules : 8 * zlen (l_utf8_rules l) <= total (map (rule_bytes 4) (l_utf8_rules l)) <= 1026 * zlen (l_utf8_rules l);
  pa_glyph_rules : 8 * zlen (l_glyph_rules l) <= total (map (rule_bytes 2) (l_glyph_rules l)) <= 514 * zlen (l_glyph_rules l);
  pa_kernings : zlen (l_horz l) <= zlen (l_glyphs l) * zlen (l_glyphs l) /\ zlen (l_vert l) <= zlen (l_glyphs l) * zlen (l_glyphs l) }.
