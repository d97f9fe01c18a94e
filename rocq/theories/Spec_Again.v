(** What a call of the builder may change, and which calls are refused. *)
From Verif Require Import Base Model_Helpers Model_Date Model_Mask Model_Font Model_Builder.

(** the call gives an error, panics, or says that it has found nothing to remove *)
Definition no_good {A} (r : outcome A) : bool := negb (is_ok r).
Definition refused (b : builder) (op : bop) : bool :=
  match op with
  | OAddDye n a => no_good (snd (AddDye b n a)) | OAddPalette n c => no_good (snd (AddPalette b n c))
  | OAddSetting n o => no_good (snd (AddSetting b n o)) | OAddSwitch s => no_good (snd (AddSwitch b s))
  | OMap c u => no_good (snd (Map b c u)) | OMapGroup c f u => no_good (snd (MapGroup b c f u))
  | OMapWithSwitchSingles c s u => no_good (snd (MapWithSwitchSingles b c s u))
  | OMapWithSwitch c s u f => no_good (snd (MapWithSwitch b c s u f))
  | OSetFirstVerDate d => no_good (snd (SetFirstVerDate b d)) | OSetMajorVerDate d => no_good (snd (SetMajorVerDate b d))
  | OSetMinorVerDate d => no_good (snd (SetMinorVerDate b d))
  | ORaiseMajorVersion _ | ORaiseMinorVersion _ | OSetVersion _ _ _ => false
  | OSetName s => no_good (snd (SetName b s)) | OSetFamily s => no_good (snd (SetFamily b s))
  | OSetAuthor s => no_good (snd (SetAuthor b s)) | OSetAbout s => no_good (snd (SetAbout b s))
  | OSetMetric k v => no_good (snd (SetMetric b k v)) | OSetVertLayoutUsed _ => false
  | OAddGlyph m r => no_good (snd (AddGlyph b m r)) | OSetGlyphPlacement u p => no_good (snd (SetGlyphPlacement b u p))
  | OSetGlyphName u n => no_good (snd (SetGlyphName b u n)) | OSetKerningPair _ _ _ => false
  | OCreateGlyphSet r => no_good (snd (CreateGlyphSet b r)) | ORemoveGlyphSet u => negb (snd (RemoveGlyphSet b u))
  | OAddGlyphSetRange u x y => no_good (snd (AddGlyphSetRange b u x y))
  | ORemoveGlyphSetRange u x y => negb (snd (RemoveGlyphSetRange b u x y))
  | OAddGlyphSetListGlyph u g => no_good (snd (AddGlyphSetListGlyph b u g))
  | ORemoveGlyphSetListGlyph u g => negb (snd (RemoveGlyphSetListGlyph b u g))
  | OCreateRuneSet r => no_good (snd (CreateRuneSet b r)) | ORemoveRuneSet u => negb (snd (RemoveRuneSet b u))
  | OAddRuneSetRange u x y => no_good (snd (AddRuneSetRange b u x y))
  | ORemoveRuneSetRange u x y => negb (snd (RemoveRuneSetRange b u x y))
  | OAddRuneSetListRune u c => no_good (snd (AddRuneSetListRune b u c))
  | ORemoveRuneSetListRune u c => negb (snd (RemoveRuneSetListRune b u c))
  | OAddSimpleUtf8RewriteRule r s => no_good (snd (AddSimpleUtf8RewriteRule b r s))
  | OAddGlyphRewriteRule h bo t i o => no_good (snd (AddGlyphRewriteRule b h bo t i o))
  | OBuild o sort => no_good (snd (Build o sort b))
  end.

(** the parts of a builder *)
Inductive part := PHeader | PMetrics | PGlyphs | PColors | PSettings | PSwitches | PMapping | PConditions
  | PGlyphSets | PRuneSets | PGlyphRules | PUtf8Rules | PHorzKerning | PVertKerning | PClasses.
(** the part a call is about *)
Definition part_of (op : bop) : part :=
  match op with
  | OAddDye _ _ | OAddPalette _ _ => PColors
  | OAddSetting _ _ => PSettings | OAddSwitch _ => PSwitches
  | OMap _ _ | OMapGroup _ _ _ | OMapWithSwitchSingles _ _ _ | OMapWithSwitch _ _ _ _ => PMapping
  | OSetFirstVerDate _ | OSetMajorVerDate _ | OSetMinorVerDate _
  | ORaiseMajorVersion _ | ORaiseMinorVersion _ | OSetVersion _ _ _
  | OSetName _ | OSetFamily _ | OSetAuthor _ | OSetAbout _ => PHeader
  | OSetMetric _ _ | OSetVertLayoutUsed _ => PMetrics
  | OAddGlyph _ _ | OSetGlyphPlacement _ _ | OSetGlyphName _ _ => PGlyphs
  | OSetKerningPair _ _ _ => PHorzKerning
  | OCreateGlyphSet _ | ORemoveGlyphSet _ | OAddGlyphSetRange _ _ _ | ORemoveGlyphSetRange _ _ _
  | OAddGlyphSetListGlyph _ _ | ORemoveGlyphSetListGlyph _ _ => PGlyphSets
  | OCreateRuneSet _ | ORemoveRuneSet _ | OAddRuneSetRange _ _ _ | ORemoveRuneSetRange _ _ _
  | OAddRuneSetListRune _ _ | ORemoveRuneSetListRune _ _ => PRuneSets
  | OAddSimpleUtf8RewriteRule _ _ => PUtf8Rules | OAddGlyphRewriteRule _ _ _ _ _ => PGlyphRules
  | OBuild _ _ => PColors
  end.
(** two builders agree in a part *)
Definition agree (p : part) (b b' : builder) : Prop :=
  match p with
  | PHeader => b_header b = b_header b' | PMetrics => b_metrics b = b_metrics b'
  | PGlyphs => b_order b = b_order b' /\ b_glyphs b = b_glyphs b'
  | PColors => b_dyes b = b_dyes b' /\ b_palettes b = b_palettes b'
  | PSettings => b_settings b = b_settings b' | PSwitches => b_switches b = b_switches b'
  | PMapping => b_mapping b = b_mapping b' | PConditions => b_conditions b = b_conditions b'
  | PGlyphSets => b_glyphSets b = b_glyphSets b' /\ b_setsOrder b = b_setsOrder b'
  | PRuneSets => b_runeSets b = b_runeSets b'
  | PGlyphRules => b_glyphRules b = b_glyphRules b' | PUtf8Rules => b_utf8Rules b = b_utf8Rules b'
  | PHorzKerning => b_horz b = b_horz b' | PVertKerning => b_vert b = b_vert b' | PClasses => b_classes b = b_classes b'
  end.
(** the parts a call looks at: settings for switches, glyphs and switches for mappings, glyphs for
    sets and glyph sets for rules *)
Definition looks_at (op : bop) (p : part) : bool :=
  match op, p with
  | OAddSwitch _, PSettings => true
  | (OMap _ _ | OMapGroup _ _ _), PGlyphs => true
  | (OMapWithSwitchSingles _ _ _ | OMapWithSwitch _ _ _ _), (PSwitches | PSettings) => true
  | OAddGlyph _ _, PMetrics => true
  | (OAddGlyphSetRange _ _ _ | OAddGlyphSetListGlyph _ _), PGlyphs => true
  | OCreateRuneSet _, PGlyphSets => true
  | OAddGlyphRewriteRule _ _ _ _ _, (PGlyphs | PGlyphSets) => true
  | OBuild _ _, _ => true
  | _, _ => false
  end.
Definition part_eqb (p q : part) : bool :=
  match p, q with
  | PHeader, PHeader | PMetrics, PMetrics | PGlyphs, PGlyphs | PColors, PColors | PSettings, PSettings
  | PSwitches, PSwitches | PMapping, PMapping | PConditions, PConditions | PGlyphSets, PGlyphSets
  | PRuneSets, PRuneSets | PGlyphRules, PGlyphRules | PUtf8Rules, PUtf8Rules | PHorzKerning, PHorzKerning
  | PVertKerning, PVertKerning | PClasses, PClasses => true
  | _, _ => false
  end.
(** neither call is about something the other is about or looks at *)
Definition apart (x y : bop) : bool :=
  negb (part_eqb (part_of x) (part_of y)) && negb (looks_at x (part_of y)) && negb (looks_at y (part_of x)).

Definition is_build (op : bop) : bool := match op with OBuild _ _ => true | _ => false end.
Definition adds_color (op : bop) : bool := match op with OAddDye _ _ | OAddPalette _ _ => true | _ => false end.
(** the calls without those of Build *)
Definition without_builds (ops : list bop) : list bop := filter (fun op => negb (is_build op)) ops.
Definition colored (b : builder) : Prop := b_dyes b <> [] \/ b_palettes b <> [].
