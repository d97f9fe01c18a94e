(** Model of /repo/font.go: the font object and its accessors, except the rewrite rule
    section, which is in Model_Rewrites.v.

    Conventions and simplifications:
    - [uint32] and [int] offset arithmetic is unbounded: the offsets of a parsed font are at
      most 2^25 (MaxFontDataSize) and the values added to them are 24-bit at most times five,
      so no sum reaches 2^32. Arithmetic done in [uint8] and [uint16] is wrapped explicitly.
    - [unsafe.String(&Data[i], n)] is [unsafe_string]: it panics when [i] is out of range
      (as Go does) and also when the string would extend beyond the data, where Go would
      read foreign memory.
    - the callback of an [Each...] function is replaced by the list of its arguments, in
      call order. *)
From Verif Require Import Base Model_Helpers Model_Date Model_Mask Model_Words.

(** internal/font.go:3-40 *)
Record Font := mkFont {
  Data : list Z;
  OffsetToMetrics : Z; OffsetToDyes : Z; OffsetToPalettes : Z; OffsetToGlyphNames : Z;
  OffsetToGlyphMasks : Z; OffsetToWords : Z; OffsetToSettingNames : Z;
  OffsetToSettingDefinitions : Z; OffsetToMappingSwitches : Z; OffsetToMapping : Z;
  OffsetToRewriteConditions : Z; OffsetToRewriteUtf8Sets : Z; OffsetToRewriteGlyphSets : Z;
  OffsetToUtf8Rewrites : Z; OffsetToGlyphRewrites : Z; OffsetToHorzKernings : Z;
  OffsetToVertKernings : Z }.

Definition unsafe_string (data : list Z) (i n : Z) : outcome (list Z) :=
  do _ <- zget data i; zslice data i (i + n).

(** glyph.go:6-12, constants.go *)
Definition GlyphMissing : Z := 56789.
Definition FormatVersion : Z := 2.

(** ** Header, font.go:91-153. These functions depend on the data only. *)

(** font.go:91-93 *)
Definition header_FormatVersion (d : list Z) : outcome Z := do b <- zslice d 0 4; DecodeUint32LE b.
(** font.go:94-96 *)
Definition header_ID (d : list Z) : outcome Z := do b <- zslice d 4 12; DecodeUint64LE b.
(** font.go:97-99 *)
Definition header_VersionMajor (d : list Z) : outcome Z := do b <- zslice d 12 14; DecodeUint16LE b.
(** font.go:100-102 *)
Definition header_VersionMinor (d : list Z) : outcome Z := do b <- zslice d 14 16; DecodeUint16LE b.

Definition date_at (d : list Z) (i : Z) : outcome Date :=
  do b <- zslice d i (i + 4);
  do ' ((y, m), dd) <- DecodeDate b;
  Ok (mkDate y m dd).
(** font.go:103-106 *)
Definition header_FirstVersionDate (d : list Z) : outcome Date := date_at d 16.
(** font.go:107-110 *)
Definition header_MajorVersionDate (d : list Z) : outcome Date := date_at d 20.
(** font.go:111-114 *)
Definition header_MinorVersionDate (d : list Z) : outcome Date := date_at d 24.

(** font.go:115-118 *)
Definition header_Name (d : list Z) : outcome (list Z) :=
  do nameLen <- zget d 28;
  unsafe_string d 29 nameLen.
(** font.go:119-123; [29 + nameLen] is uint8 arithmetic *)
Definition header_Family (d : list Z) : outcome (list Z) :=
  do nameLen <- zget d 28;
  do familyLen <- zget d (u8 (29 + nameLen));
  unsafe_string d (u8 (30 + nameLen)) familyLen.
(** font.go:124-129 *)
Definition header_Author (d : list Z) : outcome (list Z) :=
  do nameLen <- zget d 28;
  do familyLen <- zget d (u8 (29 + nameLen));
  do authorLen <- zget d (u8 (30 + nameLen + familyLen));
  unsafe_string d (u8 (31 + nameLen + familyLen)) authorLen.
(** font.go:130-137; [aboutIndex] is a uint8, so is [aboutIndex + 2] *)
Definition header_About (d : list Z) : outcome (list Z) :=
  do nameLen <- zget d 28;
  do familyLen <- zget d (u8 (29 + nameLen));
  do authorLen <- zget d (u8 (30 + nameLen + familyLen));
  let aboutIndex := u8 (31 + nameLen + familyLen + authorLen) in
  do b <- zslice d aboutIndex (u8 (aboutIndex + 2));
  do aboutLen <- DecodeUint16LE b;
  unsafe_string d (u8 (33 + nameLen + familyLen + authorLen)) aboutLen.

(** internal/helpers.go:102-119, the [patterns] loop: 32 rounds, each counts the two lowest
    bits and shifts the value by one *)
Fixpoint entropy_loop (n : nat) (value : Z) (c0 c1 c2 c3 : Z) : Z * Z * Z * Z :=
  match n with
  | O => (c0, c1, c2, c3)
  | S n' =>
    let p := Z.land value 3 in
    let v := Z.shiftr value 1 in
    if p =? 0 then entropy_loop n' v (c0 + 1) c1 c2 c3
    else if p =? 1 then entropy_loop n' v c0 (c1 + 1) c2 c3
    else if p =? 2 then entropy_loop n' v c0 c1 (c2 + 1) c3
    else entropy_loop n' v c0 c1 c2 (c3 + 1)
  end.
Definition entropy_dist (c : Z) : Z := if c <=? 8 then 8 - c else c - 8.
(** the [dist] of internal/helpers.go:109-116; at most 24 + 24, no uint8 overflow *)
Definition LazyEntropyDist (value : Z) : Z :=
  let '(c0, c1, c2, c3) := entropy_loop 32 value 0 0 0 0 in
  entropy_dist c0 + entropy_dist c1 + entropy_dist c2 + entropy_dist c3.
(** [internal.LazyEntropyUint64(id) < internal.MinEntropyID], that is
    [1.0 - float64(dist)/48.0 < 0.26], evaluated over the rationals; dist is an integer and
    the threshold dist = 35.52 is far from every integer, so rounding can not matter *)
Definition entropy_too_low (id : Z) : bool := 100 * (48 - LazyEntropyDist id) <? 26 * 48.

(** font.go:139-153 in FmtDefault mode *)
Definition header_Validate (d : list Z) : outcome unit :=
  do version <- header_FormatVersion d;
  if negb (version =? FormatVersion) then Err "invalid FormatVersion" else
  do id <- header_ID d;
  if entropy_too_low id then Err "font ID entropy too low" else
  do name <- header_Name d;
  if zlen name =? 0 then Err "font name can't be empty" else Ok tt.

(** ** Metrics, font.go:157-236; [d] is the data, [om] is OffsetToMetrics *)

(** font.go:158-160 *)
Definition metrics_NumGlyphs (d : list Z) (om : Z) : outcome Z :=
  do b <- zslice d om (om + 2); DecodeUint16LE b.
(** font.go:161-163 *)
Definition metrics_HasVertLayout (d : list Z) (om : Z) : outcome bool :=
  do b <- zget d (om + 2); Ok (b =? 1).
(** font.go:165-167 *)
Definition metrics_MonoWidth (d : list Z) (om : Z) : outcome Z := zget d (om + 3).
(** font.go:164 *)
Definition metrics_Monospaced (d : list Z) (om : Z) : outcome bool :=
  do w <- metrics_MonoWidth d om; Ok (negb (w =? 0)).
(** font.go:173-199, one accessor every three lines *)
Definition metrics_Ascent (d : list Z) (om : Z) : outcome Z := zget d (om + 4).
Definition metrics_ExtraAscent (d : list Z) (om : Z) : outcome Z := zget d (om + 5).
Definition metrics_Descent (d : list Z) (om : Z) : outcome Z := zget d (om + 6).
Definition metrics_ExtraDescent (d : list Z) (om : Z) : outcome Z := zget d (om + 7).
Definition metrics_UppercaseAscent (d : list Z) (om : Z) : outcome Z := zget d (om + 8).
Definition metrics_MidlineAscent (d : list Z) (om : Z) : outcome Z := zget d (om + 9).
Definition metrics_HorzInterspacing (d : list Z) (om : Z) : outcome Z := zget d (om + 10).
Definition metrics_VertInterspacing (d : list Z) (om : Z) : outcome Z := zget d (om + 11).
Definition metrics_LineGap (d : list Z) (om : Z) : outcome Z := zget d (om + 12).
(** font.go:207-209, 211-215 *)
Definition metrics_VertLineWidth (d : list Z) (om : Z) : outcome Z := zget d (om + 13).
Definition metrics_VertLineGap (d : list Z) (om : Z) : outcome Z := zget d (om + 14).
(** font.go:170-172; int arithmetic *)
Definition metrics_LineHeight (d : list Z) (om : Z) : outcome Z :=
  do a <- metrics_Ascent d om; do b <- metrics_Descent d om; do c <- metrics_LineGap d om;
  Ok (a + b + c).
(** font.go:201-203 *)
Definition metrics_VertLineFullWidth (d : list Z) (om : Z) : outcome Z :=
  do a <- metrics_VertLineWidth d om; do b <- metrics_VertLineGap d om; Ok (a + b).

(** font.go:217-236 in FmtDefault mode, with internal/helpers.go:91-94 (BoolErrCheck) *)
Definition metrics_Validate (d : list Z) (om : Z) : outcome unit :=
  do n <- metrics_NumGlyphs d om;
  if n =? 0 then Err "font must define at least one glyph" else
  do b <- zget d (om + 2);
  if negb ((b =? 0) || (b =? 1)) then Err "bool value must be 0 or 1" else
  do asc <- metrics_Ascent d om;
  if asc =? 0 then Err "Ascent can't be zero" else
  do ext <- metrics_ExtraAscent d om;
  if ext >? asc then Err "ExtraAscent can't be bigger than Ascent" else
  do vi <- metrics_VertInterspacing d om;
  do vert <- metrics_HasVertLayout d om;
  if negb (vi =? 0) && negb vert then Err "VertInterspacing set without HasVertLayout" else
  Ok tt.

(** ** Colors, font.go:240-440 *)

(** font.go:242-244 *)
Definition color_NumDyes (f : Font) : outcome Z := zget (Data f) (OffsetToDyes f).
(** font.go:246-248 *)
Definition color_NumPalettes (f : Font) : outcome Z := zget (Data f) (OffsetToPalettes f).
(** font.go:253-256 *)
Definition color_NumDyeIndices (f : Font) : outcome Z :=
  do n <- color_NumDyes f; zget (Data f) (OffsetToDyes f + n).
(** font.go:261-264 *)
Definition color_NumPaletteIndices (f : Font) : outcome Z :=
  do n <- color_NumPalettes f; zget (Data f) (OffsetToPalettes f + n).
(** font.go:266-274 *)
Definition color_Count (f : Font) : outcome Z :=
  do a <- color_NumDyeIndices f;
  do b <- color_NumPaletteIndices f;
  let total := u8 (a + b) in
  if total <? a then Panic else Ok total.

(** the loop of font.go:284-294 and 332-342: [n] names left, [i] the next key *)
Fixpoint names_loop (n : nat) (d : list Z) (endIndex names start i : Z)
  : outcome (list (Z * list Z)) :=
  match n with
  | O => Ok []
  | S n' =>
    do b <- zfrom d endIndex;
    do nameEnd <- DecodeUint16LE b;
    if nameEnd <=? start then Panic else
    do name <- unsafe_string d (names + start) (nameEnd - start);
    do rest <- names_loop n' d (endIndex + 2) names nameEnd (i + 1);
    Ok ((i, name) :: rest)
  end.
(** font.go:277-295 *)
Definition color_EachDye (f : Font) : outcome (list (Z * list Z)) :=
  do numDyes <- color_NumDyes f;
  do used <- color_NumDyeIndices f;
  let ends := OffsetToDyes f + 1 + numDyes + used in
  names_loop (Z.to_nat numDyes) (Data f) ends (ends + Z.shiftl numDyes 1) 0 0.
(** font.go:325-343 *)
Definition color_EachPalette (f : Font) : outcome (list (Z * list Z)) :=
  do numPalettes <- color_NumPalettes f;
  do used <- color_NumPaletteIndices f;
  let ends := OffsetToPalettes f + 1 + numPalettes + Z.shiftl used 2 in
  names_loop (Z.to_nat numPalettes) (Data f) ends (ends + Z.shiftl numPalettes 1) 0 0.

(** font.go:298-305 = 310-319 = 346-353 = 358-367: the [first, last) color index range of a
    dye or palette; [off] is the section offset *)
Definition color_range (d : list Z) (off num key : Z) : outcome (Z * Z) :=
  if key >=? num then Panic else
  do last <- zget d (off + 1 + key);
  do first <- (if key >? 0 then zget d (off + key) else Ok 0);
  if first >=? last then Panic else Ok (first, last).
(** font.go:297-307 *)
Definition color_NumDyeAlphas (f : Font) (key : Z) : outcome Z :=
  do n <- color_NumDyes f;
  do ' (first, last) <- color_range (Data f) (OffsetToDyes f) n key; Ok (last - first).
(** font.go:309-323; the loop variable is a uint8 below [last] <= 255, it never wraps *)
Definition color_EachDyeAlpha (f : Font) (key : Z) : outcome (list Z) :=
  do n <- color_NumDyes f;
  do ' (first, last) <- color_range (Data f) (OffsetToDyes f) n key;
  omap (fun i => zget (Data f) (OffsetToDyes f + 1 + n + (first + i))) (zseq (last - first)).
(** font.go:345-355 *)
Definition color_NumPaletteColors (f : Font) (key : Z) : outcome Z :=
  do n <- color_NumPalettes f;
  do ' (first, last) <- color_range (Data f) (OffsetToPalettes f) n key; Ok (last - first).
(** color.RGBA *)
Definition rgba : Type := (Z * Z * Z * Z)%type.
Definition rgba_at (d : list Z) (i : Z) : outcome rgba :=
  do r <- zget d i; do g <- zget d (i + 1); do b <- zget d (i + 2); do a <- zget d (i + 3);
  Ok (r, g, b, a).
(** font.go:357-377 *)
Definition color_EachPaletteColor (f : Font) (key : Z) : outcome (list rgba) :=
  do n <- color_NumPalettes f;
  do ' (first, last) <- color_range (Data f) (OffsetToPalettes f) n key;
  omap (fun i => rgba_at (Data f) (OffsetToPalettes f + 1 + n + Z.shiftl (first + i) 2))
    (zseq (last - first)).
(** font.go:379-394 *)
Definition color_GoColorPalette (f : Font) : outcome (list rgba) :=
  do _ <- color_Count f;
  do nd <- color_NumDyes f;
  do dyes <- omap (color_EachDyeAlpha f) (zseq nd);
  do np <- color_NumPalettes f;
  do pals <- omap (color_EachPaletteColor f) (zseq np);
  Ok ((0, 0, 0, 0) :: map (fun a => (a, a, a, a)) (concat dyes) ++ concat pals).

(** font.go:396-444 in FmtDefault mode, called by Parse before most offsets are set *)
Definition color_Validate (d : list Z) (od op : Z) : outcome unit :=
  do nd <- zget d od;
  do np <- zget d op;
  if nd + np >? 255 then Err "NumDyes + NumPalettes can't exceed 255" else Ok tt.

(** ** Glyphs, font.go:446-581 *)

(** font.go:456-458 *)
Definition glyphs_Count (f : Font) : outcome Z := metrics_NumGlyphs (Data f) (OffsetToMetrics f).
(** font.go:451-453 *)
Definition glyphs_hasVertLayout (f : Font) : outcome bool :=
  metrics_HasVertLayout (Data f) (OffsetToMetrics f).
(** font.go:460-462 *)
Definition glyphs_NamedCount (f : Font) : outcome Z :=
  do b <- zslice (Data f) (OffsetToGlyphNames f) (OffsetToGlyphNames f + 2); DecodeUint16LE b.

(** font.go:487-495 *)
Definition getNthGlyphName (f : Font) (nth numNamed : Z) : outcome (list Z) :=
  let ends := OffsetToGlyphNames f + 2 + Z.shiftl numNamed 1 in
  let endIndex := ends + Z.shiftl nth 1 + nth in
  do b <- zslice (Data f) endIndex (endIndex + 3);
  do endOffset <- DecodeUint24LE b;
  let names := ends + Z.shiftl numNamed 1 + numNamed in
  if nth =? 0 then zslice (Data f) names (names + endOffset) else
  do b <- zslice (Data f) (endIndex - 3) endIndex;
  do prev <- DecodeUint24LE b;
  zslice (Data f) (names + prev) (names + endOffset).

(** font.go:497-504 *)
Fixpoint bytesSmaller_loop (bytes str : list Z) (n : nat) : bool :=
  match bytes, str with
  | [], _ => negb (Nat.eqb n 0)
  | _ :: _, [] => true
  | b :: bs, c :: cs => if b >? c then false else bytesSmaller_loop bs cs n
  end.
(** the final length test compares the full lengths: [n] is 0 exactly when they are equal *)
Definition bytesSmallerThanStr (bytes str : list Z) : bool :=
  bytesSmaller_loop bytes str (if zlen bytes =? zlen str then 0 else 1).
(** font.go:506-512 *)
Fixpoint bytesEqStr (bytes str : list Z) : bool :=
  match bytes, str with
  | [], [] => true
  | b :: bs, c :: cs => (b =? c) && bytesEqStr bs cs
  | _, _ => false
  end.

(** font.go:465-485 *)
Definition glyphs_FindIndexByName (f : Font) (name : list Z) : outcome Z :=
  do numEntries <- glyphs_NamedCount f;
  if numEntries =? 0 then Ok GlyphMissing else
  do minIndex <- lower_bound_loop 64
    (fun mid => do value <- getNthGlyphName f mid numEntries; Ok (bytesSmallerThanStr value name))
    0 (numEntries - 1);
  if minIndex >=? numEntries then Ok GlyphMissing else
  do value <- getNthGlyphName f minIndex numEntries;
  if negb (bytesEqStr value name) then Ok GlyphMissing else
  let idOffset := OffsetToGlyphNames f + 2 + Z.shiftl minIndex 1 in
  do b <- zslice (Data f) idOffset (idOffset + 2);
  DecodeUint16LE b.

(** font.go:551-560 *)
Definition getGlyphDataOffsets (f : Font) (glyphIndex : Z) : outcome (Z * Z) :=
  let index := Z.shiftl glyphIndex 1 + glyphIndex in
  do b <- zfrom (Data f) (OffsetToGlyphMasks f + index);
  do endOffset <- DecodeUint24LE b;
  if index =? 0 then Ok (0, endOffset) else
  do b <- zfrom (Data f) (OffsetToGlyphMasks f + index - 3);
  do startOffset <- DecodeUint24LE b;
  if endOffset <=? startOffset then Panic else Ok (startOffset, endOffset).
(** font.go:562-567 *)
Definition getGlyphDataStartOffset (f : Font) (glyphIndex : Z) : outcome Z :=
  if glyphIndex =? 0 then Ok 0 else
  let index := Z.shiftl glyphIndex 1 + glyphIndex in
  do b <- zfrom (Data f) (OffsetToGlyphMasks f + index - 3);
  DecodeUint24LE b.

(** font.go:514-522; the data range handed to mask.Rasterize *)
Definition glyphs_mask_ops (f : Font) (glyphIndex : Z) : outcome (list Z) :=
  do ' (startOffset, endOffset) <- getGlyphDataOffsets f glyphIndex;
  do vert <- glyphs_hasVertLayout f;
  let startOffset := if (vert : bool) then startOffset + 4 else startOffset + 1 in
  do numGlyphs <- glyphs_Count f;
  let masks := OffsetToGlyphMasks f + Z.shiftl numGlyphs 1 + numGlyphs in
  zslice (Data f) (masks + startOffset) (masks + endOffset).
(** font.go:514-522; a rasterization error is turned into a panic *)
Definition glyphs_RasterizeMask (f : Font) (glyphIndex : Z) : outcome (option alpha) :=
  do ops <- glyphs_mask_ops f glyphIndex;
  match Rasterize ops with Err _ => Panic | r => r end.

(** font.go:524-531 *)
Definition glyphs_Advance (f : Font) (glyphIndex : Z) : outcome Z :=
  do numGlyphs <- glyphs_Count f;
  if glyphIndex >=? numGlyphs then Panic else
  do start <- getGlyphDataStartOffset f glyphIndex;
  zget (Data f) (OffsetToGlyphMasks f + Z.shiftl numGlyphs 1 + numGlyphs + start).

(** glyph.go:38-45 *)
Record GlyphPlacement := mkPlacement {
  gp_Advance : Z; gp_TopAdvance : Z; gp_BottomAdvance : Z; gp_HorzCenter : Z }.
(** font.go:533-549 *)
Definition glyphs_Placement (f : Font) (glyphIndex : Z) : outcome GlyphPlacement :=
  do numGlyphs <- glyphs_Count f;
  if glyphIndex >=? numGlyphs then Panic else
  do start <- getGlyphDataStartOffset f glyphIndex;
  let index := OffsetToGlyphMasks f + Z.shiftl numGlyphs 1 + numGlyphs + start in
  do adv <- zget (Data f) index;
  do vert <- glyphs_hasVertLayout f;
  if (vert : bool) then
    do top <- zget (Data f) (index + 1);
    do bottom <- zget (Data f) (index + 2);
    do center <- zget (Data f) (index + 3);
    Ok (mkPlacement adv top bottom center)
  else Ok (mkPlacement adv 0 0 0).

(** font.go:569-581 in FmtDefault mode *)
Definition glyphs_Validate (d : list Z) (om og : Z) : outcome unit :=
  do b <- zslice d og (og + 2);
  do named <- DecodeUint16LE b;
  do n <- metrics_NumGlyphs d om;
  if named >? n then Err "can't have more named glyphs than glyphs" else Ok tt.

(** ** Settings, font.go:594-690 *)

(** font.go:594-596 *)
Definition settings_NumWords (f : Font) : outcome Z := zget (Data f) (OffsetToWords f).
(** font.go:598-614 *)
Definition settings_GetWord (f : Font) (index : Z) : outcome (list Z) :=
  do numWords <- settings_NumWords f;
  if index <? numWords then
    let endIndex := OffsetToWords f + 1 + Z.shiftl index 1 in
    do b <- zfrom (Data f) endIndex;
    do wordEnd <- DecodeUint16LE b;
    do wordStart <- (if index >? 0 then do b <- zfrom (Data f) (endIndex - 2); DecodeUint16LE b
                     else Ok 0);
    if wordEnd <=? wordStart then Panic else
    unsafe_string (Data f) (OffsetToWords f + 1 + Z.shiftl numWords 1 + wordStart)
      (wordEnd - wordStart)
  else GetPredefinedWord index.

(** font.go:616-618 *)
Definition settings_Count (f : Font) : outcome Z := zget (Data f) (OffsetToSettingNames f).

(** font.go:624-632 = 641-650: the option range of an existing setting *)
Definition setting_range (f : Font) (key : Z) : outcome (Z * Z) :=
  let endIndex := OffsetToSettingDefinitions f + Z.shiftl key 1 in
  do b <- zfrom (Data f) endIndex;
  do endOffset <- DecodeUint16LE b;
  do startOffset <- (if key >? 0 then do b <- zfrom (Data f) (endIndex - 2); DecodeUint16LE b
                     else Ok 0);
  if endOffset <=? startOffset then Panic else
  if endOffset - startOffset >? 255 then Panic else Ok (startOffset, endOffset).
(** font.go:621-634 *)
Definition settings_GetNumOptions (f : Font) (key : Z) : outcome Z :=
  do n <- settings_Count f;
  if key >=? n then Ok 0 else
  do ' (startOffset, endOffset) <- setting_range f key; Ok (endOffset - startOffset).
(** font.go:636-656 *)
Definition settings_GetOptionName (f : Font) (key option : Z) : outcome (list Z) :=
  do numSettings <- settings_Count f;
  if key >=? numSettings then Panic else
  do ' (startOffset, endOffset) <- setting_range f key;
  if option >=? endOffset - startOffset then Panic else
  do optionValue <- zget (Data f)
    (OffsetToSettingDefinitions f + Z.shiftl numSettings 1 + startOffset + option);
  settings_GetWord f optionValue.

(** font.go:663-668; [unsafe.String] panics on a negative length *)
Fixpoint setting_names_loop (n : nat) (d : list Z) (ends names prev i : Z)
  : outcome (list (Z * list Z)) :=
  match n with
  | O => Ok []
  | S n' =>
    do b <- zfrom d (ends + i * 2);
    do nameEnd <- DecodeUint16LE b;
    if nameEnd - prev <? 0 then Panic else
    do name <- unsafe_string d (names + prev) (nameEnd - prev);
    do rest <- setting_names_loop n' d ends names nameEnd (i + 1);
    Ok ((i, name) :: rest)
  end.
(** font.go:658-669 *)
Definition settings_Each (f : Font) : outcome (list (Z * list Z)) :=
  do n <- settings_Count f;
  let ends := OffsetToSettingNames f + 1 in
  setting_names_loop (Z.to_nat n) (Data f) ends (ends + n * 2) 0 0.

(** ** Mapping, font.go:692-940 *)

(** font.go:696-702; the font is an argument of the functions instead of a field *)
Record GlyphMappingGroup := mkGroup {
  gg_offset : Z; gg_switchType : Z; gg_caseBranch : Z; gg_directMapping : bool }.

(** font.go:703-706 *)
Definition group_Size (f : Font) (g : GlyphMappingGroup) : outcome Z :=
  if gg_directMapping g then Ok 1 else
  do info <- zget (Data f) (gg_offset g); Ok (Z.land info 127 + 1).
(** font.go:707-711; reads the byte at offset 2, the one Select takes for the first glyph *)
Definition group_AnimationFlags (f : Font) (g : GlyphMappingGroup) : outcome Z :=
  if gg_directMapping g then Ok 0 else
  do info <- zget (Data f) (gg_offset g);
  if Z.land info 127 =? 0 then Ok 0 else zget (Data f) (gg_offset g + 2).
(** font.go:712-714 *)
Definition group_CaseBranch (g : GlyphMappingGroup) : Z := gg_caseBranch g.
(** font.go:717-738; the list case steps by four bytes; the sum of the range case is uint16 *)
Definition group_Select (f : Font) (g : GlyphMappingGroup) (choice : Z) : outcome Z :=
  if gg_directMapping g then
    if negb (choice =? 0) then Panic else
    do b <- zfrom (Data f) (gg_offset g); DecodeUint16LE b
  else
  do info <- zget (Data f) (gg_offset g);
  let size := Z.land info 127 + 1 in
  if choice >=? size then Panic else
  if size =? 1 then do b <- zfrom (Data f) (gg_offset g + 1); DecodeUint16LE b else
  if negb (Z.land info 128 =? 0) then
    do b <- zfrom (Data f) (gg_offset g + 2);
    do base <- DecodeUint16LE b; Ok (u16 (base + choice))
  else
    do b <- zfrom (Data f) (gg_offset g + 2 + Z.shiftl choice 2); DecodeUint16LE b.

(** font.go:745-747 *)
Definition mapping_NumSwitchTypes (f : Font) : outcome Z :=
  zget (Data f) (OffsetToMappingSwitches f).

(** font.go:764-771, from the last setting to the first; [n] is [endOffset - startOffset] *)
Fixpoint switch_loop (n : nat) (f : Font) (settings : list Z) (base endOffset : Z)
  (caseCombinations result : Z) : outcome Z :=
  do settingKey <- zget (Data f) (base + endOffset);
  do value <- zget settings settingKey;
  let result := u8 (result + u8 (value * caseCombinations)) in
  match n with
  | O => Ok result
  | S n' =>
    do opts <- settings_GetNumOptions f settingKey;
    switch_loop n' f settings base (endOffset - 1) (u8 (caseCombinations * opts)) result
  end.
(** font.go:749-773 *)
Definition mapping_EvaluateSwitch (f : Font) (switchKey : Z) (settings : list Z) : outcome Z :=
  do n <- mapping_NumSwitchTypes f;
  if switchKey >=? n then Panic else
  let endIndex := OffsetToMappingSwitches f + 1 + Z.shiftl switchKey 1 in
  do b <- zfrom (Data f) endIndex;
  do endOffset <- DecodeUint16LE b;
  do startOffset <- (if switchKey >? 0 then do b <- zfrom (Data f) (endIndex - 2); DecodeUint16LE b
                     else Ok 0);
  if endOffset <=? startOffset then Panic else
  let base := OffsetToMappingSwitches f + 1 + Z.shiftl n 1 in
  switch_loop (Z.to_nat (endOffset - 1 - startOffset)) f settings base (endOffset - 1) 1 0.

(** font.go:775-777 *)
Definition mapping_NumEntries (f : Font) : outcome Z :=
  do b <- zfrom (Data f) (OffsetToMapping f); DecodeUint16LE b.

(** font.go:781-803 = 857-879: binary search of the code point; [None] if absent *)
Definition mapping_search (f : Font) (target numEntries : Z) : outcome (option Z) :=
  let search := OffsetToMapping f + 2 in
  do minIndex <- lower_bound_loop 64
    (fun mid => do b <- zfrom (Data f) (search + Z.shiftl mid 2);
                do value <- DecodeUint32LE b; Ok (value <? target))
    0 (numEntries - 1);
  if minIndex >=? numEntries then Ok None else
  do b <- zfrom (Data f) (search + Z.shiftl minIndex 2);
  do value <- DecodeUint32LE b;
  if negb (value =? target) then Ok None else Ok (Some minIndex).

(** font.go:805-815 = 881-891: where the entry's data lies: (start of all mapping data,
    start offset, end offset, switch type); the start offset is past the switch type *)
Definition mapping_entry (f : Font) (numEntries minIndex : Z) : outcome (Z * Z * Z * Z) :=
  let ends := OffsetToMapping f + 2 + Z.shiftl numEntries 2 in
  let endIndex := ends + minIndex + Z.shiftl minIndex 1 in
  do b <- zfrom (Data f) endIndex;
  do endOffset <- DecodeUint24LE b;
  do startOffset <- (if minIndex >? 0 then do b <- zfrom (Data f) (endIndex - 3); DecodeUint24LE b
                     else Ok 0);
  if endOffset <=? startOffset then Panic else
  let base := ends + numEntries + Z.shiftl numEntries 1 in
  do switchType <- zget (Data f) (base + startOffset);
  Ok (base, startOffset + 1, endOffset, switchType).

(** font.go:834-848 = 905-919: skip [n] groups. The range test looks at the group size
    instead of the group info, so it holds for groups of exactly 128 glyphs. *)
Fixpoint skip_groups (n : nat) (f : Font) (base startOffset endOffset : Z) : outcome Z :=
  match n with
  | O => Ok startOffset
  | S n' =>
    do info <- zget (Data f) (base + startOffset);
    let size := Z.land info 127 + 1 in
    let isRange := negb (Z.land size 128 =? 0) in
    let startOffset := if isRange then startOffset + 3 else startOffset + 1 + Z.shiftl size 1 in
    let startOffset := if size >? 1 then startOffset + 1 else startOffset in
    if startOffset >=? endOffset then Panic else
    skip_groups n' f base startOffset endOffset
  end.

(** font.go:855-922; [codePoint] is an int32. The first component of a not-found result is
    the zero group, returned as [None]. *)
Definition mapping_Utf8 (f : Font) (codePoint : Z) (settings : list Z)
  : outcome (option GlyphMappingGroup) :=
  do numEntries <- mapping_NumEntries f;
  do found <- mapping_search f (u32 codePoint) numEntries;
  match found with
  | None => Ok None
  | Some minIndex =>
    do ' (base, startOffset, endOffset, switchType) <- mapping_entry f numEntries minIndex;
    if switchType =? 255 then Ok (Some (mkGroup (base + startOffset) switchType 0 true)) else
    do target <- (if negb (switchType =? 254) then mapping_EvaluateSwitch f switchType settings
                  else Ok 0);
    do off <- skip_groups (Z.to_nat target) f base startOffset endOffset;
    Ok (Some (mkGroup (base + off) switchType target false))
  end.

(** font.go:924-926 *)
Definition mapping_Ascii (f : Font) (codePoint : Z) (settings : list Z) := mapping_Utf8 f codePoint settings.

(** ** Kerning, font.go:1302-1371 *)

(** font.go:1303-1305, 1307-1309 *)
Definition kerning_pairs (d : list Z) (off : Z) : outcome Z :=
  do b <- zfrom d off; DecodeUint24LE b.
Definition kerning_NumPairs (f : Font) : outcome Z := kerning_pairs (Data f) (OffsetToHorzKernings f).
Definition kerning_NumVertPairs (f : Font) : outcome Z := kerning_pairs (Data f) (OffsetToVertKernings f).

(** font.go:1311-1332 and 1334-1355, which differ only in the offset *)
Definition kerning_lookup (d : list Z) (off prev curr : Z) : outcome Z :=
  let target := Z.lor (u32 (Z.shiftl prev 16)) curr in
  do numPairs <- kerning_pairs d off;
  let search := off + 3 in
  do minIndex <- lower_bound_loop 64
    (fun mid => do b <- zfrom d (search + Z.shiftl mid 2);
                do value <- DecodeUint32LE b; Ok (value <? target))
    0 (numPairs - 1);
  if minIndex >=? numPairs then Ok 0 else
  do b <- zfrom d (search + Z.shiftl minIndex 2);
  do value <- DecodeUint32LE b;
  if negb (value =? target) then Ok 0 else
  do k <- zget d (off + 3 + Z.shiftl numPairs 2 + minIndex);
  Ok (i8 k).
(** font.go:1311-1332 *)
Definition kerning_Get (f : Font) (prev curr : Z) : outcome Z :=
  kerning_lookup (Data f) (OffsetToHorzKernings f) prev curr.
(** font.go:1334-1355 *)
Definition kerning_GetVert (f : Font) (prev curr : Z) : outcome Z :=
  kerning_lookup (Data f) (OffsetToVertKernings f) prev curr.
