(** What the specification demands of a font with "must", "can't" or "max", apart from the layout
    itself. *)
From Verif Require Import Base Spec_Helpers Spec_Format Spec_Layout Spec_Names Model_Date Spec_Date Spec_Accept.

Inductive demand :=
| FontNamed | AscentGiven | SpacingNeedsVert | ColorMaximum | SwitchMaximum
| GlyphMaximum | ExtraAscentBelow | LineWidthNeedsVert | LineGapNeedsVert | DatesValid
| GlyphNamesBasic | GlyphNamesOrdered | WordsBasic | SettingNamesBasic | OptionsBelow255
| MappingOrdered | GroupsOfTwo | BodiesLongEnough | BlocksSmall | RulesSmall | KerningOrdered | KerningNeedsVert.

Definition date_valid (d : Z * Z * Z) : Prop := let '(y, m, d) := d in valid_date (mkDate y m d).
Fixpoint groups_of_two (c : condition) : Prop :=
  match c with
  | COr terms | CAnd terms => 2 <= zlen terms /\ fold_right (fun t P => groups_of_two t /\ P) True terms
  | _ => True
  end.
(** lines of specification.md *)
Definition asks (d : demand) (l : layout) : Prop :=
  match d with
  | FontNamed => 1 <= zlen (h_name (l_header l)) (* header, Name *)
  | AscentGiven => m_ascent (l_metrics l) <> 0 (* 87 *)
  | SpacingNeedsVert => m_vert (l_metrics l) = false -> m_vert_spacing (l_metrics l) = 0 (* 94 *)
  | ColorMaximum => total (map snd (l_dyes l)) + total (map snd (l_palettes l)) <= 255 (* 153 *)
  | SwitchMaximum => zlen (l_switches l) <= 254 (* 232 *)
  | GlyphMaximum => zlen (l_glyphs l) <= 56789 (* 21, 83 *)
  | ExtraAscentBelow => m_extra_ascent (l_metrics l) < m_ascent (l_metrics l) (* 88 *)
  | LineWidthNeedsVert => m_vert (l_metrics l) = false -> m_vert_width (l_metrics l) = 0 (* 96 *)
  | LineGapNeedsVert => m_vert (l_metrics l) = false -> m_vert_gap (l_metrics l) = 0 (* 97 *)
  | DatesValid => date_valid (h_first_date (l_header l)) /\ date_valid (h_major_date (l_header l)) /\ date_valid (h_minor_date (l_header l)) (* 36 *)
  | GlyphNamesBasic => Forall (fun x => basic_name (fst x)) (l_names l) (* 171 *)
  | GlyphNamesOrdered => ordered lex_lt (map fst (l_names l)) (* 165 *)
  | WordsBasic => Forall basic_name (l_words l) (* 210 *)
  | SettingNamesBasic => Forall (fun x => basic_name (fst x)) (l_settings l) (* 221 *)
  | OptionsBelow255 => Forall (fun x => Forall (fun w => w < 255) (snd x)) (l_settings l) (* 219 *)
  | MappingOrdered => ordered Z.lt (map fst (l_mapping l)) (* 237 *)
  | GroupsOfTwo => Forall groups_of_two (l_conditions l) (* 305-306 *)
  | BodiesLongEnough => Forall (fun r => 1 <= block_length (rule_body r) /\ zlen (rule_out r) <= block_length (rule_body r))
      (l_utf8_rules l ++ l_glyph_rules l) (* 292-293 *)
  | BlocksSmall => Forall (fun r => block_length (rule_head r) + block_length (rule_body r) + block_length (rule_tail r) <= 255)
      (l_utf8_rules l ++ l_glyph_rules l) (* 292 *)
  | RulesSmall => Forall (fun r => zlen r <= 4096) (map (rule_bytes 4) (l_utf8_rules l) ++ map (rule_bytes 2) (l_glyph_rules l)) (* 296 *)
  | KerningOrdered => ordered Z.lt (map pair_key (l_horz l)) /\ ordered Z.lt (map pair_key (l_vert l)) (* 320, 323, 327 *)
  | KerningNeedsVert => m_vert (l_metrics l) = false -> l_vert l = [] (* 322 *)
  end.
(** what parse.go checks, and what it does not *)
Definition checked : list demand := [FontNamed; AscentGiven; SpacingNeedsVert; ColorMaximum; SwitchMaximum].
Definition unchecked : list demand :=
  [GlyphMaximum; ExtraAscentBelow; LineWidthNeedsVert; LineGapNeedsVert; DatesValid;
   GlyphNamesBasic; GlyphNamesOrdered; WordsBasic; SettingNamesBasic; OptionsBelow255;
   MappingOrdered; GroupsOfTwo; BodiesLongEnough; BlocksSmall; RulesSmall; KerningOrdered; KerningNeedsVert].
