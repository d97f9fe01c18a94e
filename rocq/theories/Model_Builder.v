(** Model of the font builder: the types and helpers of /repo/builder, the calls that change a
    builder, and Build.

    Go maps are association lists without repeated keys; the order in which a [range] statement
    visits a map is an argument ([order] below). Slices handed to the builder are taken by
    value (the code keeps some of the caller's slices without copying them). UIDs drawn from
    crypto/rand are arguments. The buffers kept between calls (tempGlyphIndexLookup,
    tempSortingBuffer, tempMaskEncoder) are recomputed by every Build and left out. *)
From Verif Require Import Base Model_Helpers Model_Names Model_Words Model_Date Model_Mask Model_Font Model_Parse.

(** ** Go maps *)
Section Maps.
  Context {K V : Type} (eqb : K -> K -> bool).
  Fixpoint m_get (m : list (K * V)) (k : K) : option V :=
    match m with [] => None | (k', v) :: r => if eqb k k' then Some v else m_get r k end.
  Fixpoint m_set (m : list (K * V)) (k : K) (v : V) : list (K * V) :=
    match m with
    | [] => [(k, v)]
    | (k', v') :: r => if eqb k k' then (k, v) :: r else (k', v') :: m_set r k v
    end.
  Definition m_del (m : list (K * V)) (k : K) : list (K * V) := filter (fun e => negb (eqb k (fst e))) m.
  Definition m_has (m : list (K * V)) (k : K) : bool := match m_get m k with Some _ => true | None => false end.
End Maps.
(** equality of the keys of the maps of kernings *)
Definition pair_eqb (a b : Z * Z) : bool := (fst a =? fst b) && (snd a =? snd b).

(** The order in which the n-th [range] over a map visits its entries: any permutation. A
    function of the position only, so it can be any permutation of the entries at hand. *)
Definition order : Type := nat -> forall A : Type, list A -> list A.

(** slices.Sort and slices.SortFunc: insertion sort. The keys sorted by the code are integers, or
    names where equal names make Build fail, so every sorting algorithm gives the same result. *)
Section Sorting.
  Context {A : Type} (leb : A -> A -> bool).
  Fixpoint sort_insert (x : A) (l : list A) : list A :=
    match l with [] => [x] | y :: r => if leb x y then x :: l else y :: sort_insert x r end.
  Definition go_sort (l : list A) : list A := fold_right sort_insert [] l.
End Sorting.
(** [a < b] on Go strings *)
Fixpoint str_less (a b : list Z) : bool :=
  match a, b with
  | _, [] => false
  | [], _ :: _ => true
  | x :: a', y :: b' => if x <? y then true else if y <? x then false else str_less a' b'
  end.

(** ** Types *)

(** font_builder.go:39-48 *)
Record bheader := mkBH {
  bh_ID : Z; bh_major : Z; bh_minor : Z; bh_firstDate : Date; bh_majorDate : Date; bh_minorDate : Date;
  bh_name : list Z; bh_family : list Z; bh_author : list Z; bh_about : list Z }.
(** font_builder.go:51-63 *)
Record bmetrics := mkBM {
  bm_vert : bool; bm_mono : Z; bm_ascent : Z; bm_extraAscent : Z; bm_descent : Z; bm_extraDescent : Z;
  bm_uppercase : Z; bm_midline : Z; bm_horz : Z; bm_vertSpacing : Z; bm_lineGap : Z;
  bm_vertLineWidth : Z; bm_vertLineGap : Z }.
(** font_builder_subtypes.go:7-11 *)
Record glyphData := mkGlyphData { gd_Name : list Z; gd_Placement : GlyphPlacement; gd_Mask : alpha }.
(** font_builder_mapping.go:78-81 and 41-44 *)
Record mappingGroup := mkMapGroup { mg_Glyphs : list Z; mg_Flags : Z }.
Record mappingEntry := mkMapEntry { me_Switch : Z; me_Cases : list mappingGroup }.
(** font_builder_rewrite_sets.go:8-17 and 169-172; for glyphs the elements are UIDs *)
Record bset := mkBSet { bs_ranges : list (Z * Z); bs_list : list Z }.
(** font_builder_rewrite_rules.go:9-18 and 114-123 *)
Record brule := mkBRule {
  br_condition : Z; br_headLen : Z; br_bodyLen : Z; br_tailLen : Z;
  br_areGroups : BoolList; br_elems : list Z; br_groups : list Z; br_output : list Z }.
(** font_builder_subtypes.go:20-25; the two UIDs are the key *)
Record kpair := mkKPair { kp_Class : Z; kp_Value : Z }.

(** font_builder.go:28-103, without the temporary buffers and the categories; of a rewrite
    condition only the data is kept, of a kerning class only the value. rewriteRuneSets is [None]
    while the map is nil. *)
Record builder := mkBuilder {
  b_header : bheader; b_metrics : bmetrics;
  b_order : list Z;                        (* glyphOrder *)
  b_glyphs : list (Z * glyphData);         (* glyphData *)
  b_dyes : list (list Z * list Z); b_palettes : list (list Z * list rgba);
  b_settings : list (list Z * list (list Z));
  b_switches : list (list Z);
  b_mapping : list (Z * mappingEntry);     (* runeMapping *)
  b_conditions : list (list Z);
  b_glyphSets : list (Z * bset); b_setsOrder : list Z;
  b_runeSets : option (list (Z * bset));
  b_glyphRules : list brule; b_utf8Rules : list brule;
  b_horz : list (Z * Z * kpair); b_vert : list (Z * Z * kpair);
  b_classes : list Z }.                    (* values of kerningClasses *)

(** assignments to fields of the struct font_builder.go:28-103 *)
Definition with_header (b : builder) h := mkBuilder h (b_metrics b) (b_order b) (b_glyphs b) (b_dyes b)
  (b_palettes b) (b_settings b) (b_switches b) (b_mapping b) (b_conditions b) (b_glyphSets b) (b_setsOrder b)
  (b_runeSets b) (b_glyphRules b) (b_utf8Rules b) (b_horz b) (b_vert b) (b_classes b).
Definition with_metrics (b : builder) m := mkBuilder (b_header b) m (b_order b) (b_glyphs b) (b_dyes b)
  (b_palettes b) (b_settings b) (b_switches b) (b_mapping b) (b_conditions b) (b_glyphSets b) (b_setsOrder b)
  (b_runeSets b) (b_glyphRules b) (b_utf8Rules b) (b_horz b) (b_vert b) (b_classes b).
Definition with_glyphs (b : builder) order gs := mkBuilder (b_header b) (b_metrics b) order gs (b_dyes b)
  (b_palettes b) (b_settings b) (b_switches b) (b_mapping b) (b_conditions b) (b_glyphSets b) (b_setsOrder b)
  (b_runeSets b) (b_glyphRules b) (b_utf8Rules b) (b_horz b) (b_vert b) (b_classes b).
Definition with_colors (b : builder) ds ps := mkBuilder (b_header b) (b_metrics b) (b_order b) (b_glyphs b) ds
  ps (b_settings b) (b_switches b) (b_mapping b) (b_conditions b) (b_glyphSets b) (b_setsOrder b)
  (b_runeSets b) (b_glyphRules b) (b_utf8Rules b) (b_horz b) (b_vert b) (b_classes b).
Definition with_settings (b : builder) ss := mkBuilder (b_header b) (b_metrics b) (b_order b) (b_glyphs b) (b_dyes b)
  (b_palettes b) ss (b_switches b) (b_mapping b) (b_conditions b) (b_glyphSets b) (b_setsOrder b)
  (b_runeSets b) (b_glyphRules b) (b_utf8Rules b) (b_horz b) (b_vert b) (b_classes b).
Definition with_switches (b : builder) sw := mkBuilder (b_header b) (b_metrics b) (b_order b) (b_glyphs b) (b_dyes b)
  (b_palettes b) (b_settings b) sw (b_mapping b) (b_conditions b) (b_glyphSets b) (b_setsOrder b)
  (b_runeSets b) (b_glyphRules b) (b_utf8Rules b) (b_horz b) (b_vert b) (b_classes b).
Definition with_mapping (b : builder) m := mkBuilder (b_header b) (b_metrics b) (b_order b) (b_glyphs b) (b_dyes b)
  (b_palettes b) (b_settings b) (b_switches b) m (b_conditions b) (b_glyphSets b) (b_setsOrder b)
  (b_runeSets b) (b_glyphRules b) (b_utf8Rules b) (b_horz b) (b_vert b) (b_classes b).
Definition with_glyphSets (b : builder) sets order := mkBuilder (b_header b) (b_metrics b) (b_order b) (b_glyphs b) (b_dyes b)
  (b_palettes b) (b_settings b) (b_switches b) (b_mapping b) (b_conditions b) sets order
  (b_runeSets b) (b_glyphRules b) (b_utf8Rules b) (b_horz b) (b_vert b) (b_classes b).
Definition with_runeSets (b : builder) sets := mkBuilder (b_header b) (b_metrics b) (b_order b) (b_glyphs b) (b_dyes b)
  (b_palettes b) (b_settings b) (b_switches b) (b_mapping b) (b_conditions b) (b_glyphSets b) (b_setsOrder b)
  sets (b_glyphRules b) (b_utf8Rules b) (b_horz b) (b_vert b) (b_classes b).
Definition with_rules (b : builder) gr ur := mkBuilder (b_header b) (b_metrics b) (b_order b) (b_glyphs b) (b_dyes b)
  (b_palettes b) (b_settings b) (b_switches b) (b_mapping b) (b_conditions b) (b_glyphSets b) (b_setsOrder b)
  (b_runeSets b) gr ur (b_horz b) (b_vert b) (b_classes b).
Definition with_kerning (b : builder) h v := mkBuilder (b_header b) (b_metrics b) (b_order b) (b_glyphs b) (b_dyes b)
  (b_palettes b) (b_settings b) (b_switches b) (b_mapping b) (b_conditions b) (b_glyphSets b) (b_setsOrder b)
  (b_runeSets b) (b_glyphRules b) (b_utf8Rules b) h v (b_classes b).

(** internal/constants.go; ggfnt.MaxGlyphs *)
Definition MaxGlyphs : Z := 56789.

(** ** Calls that change a builder. Each gives the new builder and the outcome. *)

(** font_builder_color.go:103-115 *)
Definition checkColorSectionNameCollision (b : builder) (name : list Z) : outcome unit :=
  if existsb (fun d => list_eqb (fst d) name) (b_dyes b)
  then Err "the given name is already taken by an existing dye section"
  else if existsb (fun p => list_eqb (fst p) name) (b_palettes b)
  then Err "the given name is already taken by an existing palette section" else Ok tt.
(** font_builder_color.go:117-126 *)
Definition getColorIndexCount (b : builder) : Z :=
  fold_left (fun c p => c + zlen (snd p)) (b_palettes b) (fold_left (fun c d => c + zlen (snd d)) (b_dyes b) 0).
(** font_builder_color.go:33-46 *)
Definition AddDye (b : builder) (name alphas : list Z) : builder * outcome unit :=
  match checkColorSectionNameCollision b name with
  | Ok _ => if getColorIndexCount b + zlen alphas >? 255 then (b, Err "font colors can't exceed 255 indices")
            else (with_colors b (b_dyes b ++ [(name, alphas)]) (b_palettes b), Ok tt)
  | r => (b, r)
  end.
(** font_builder_color.go:82-95 *)
Definition AddPalette (b : builder) (name : list Z) (colors : list rgba) : builder * outcome unit :=
  match checkColorSectionNameCollision b name with
  | Ok _ => if getColorIndexCount b + zlen colors >? 255 then (b, Err "font colors can't exceed 255 indices")
            else (with_colors b (b_dyes b) (b_palettes b ++ [(name, colors)]), Ok tt)
  | r => (b, r)
  end.

(** font_builder_color.go:13-31; gives the calls of [fn] and the outcome *)
Fixpoint EachDyeAlpha_loop (name : list Z) (dyes : list (list Z * list Z)) (clrIndex : Z) (calls : list (Z * Z))
  : list (Z * Z) * outcome unit :=
  match dyes with
  | [] => (calls, Err "dye section not found")
  | d :: r =>
    if zlen (snd d) >? clrIndex then (calls, Err "dye sections exceed 255 alpha values")
    else if list_eqb (fst d) name then
      EachDyeAlpha_loop name r clrIndex
        (fst (fold_left (fun '(calls, i) alpha => (calls ++ [(alpha, u8 (clrIndex - i))], i + 1)) (snd d) (calls, 0)))
    else EachDyeAlpha_loop name r (clrIndex - zlen (snd d)) calls
  end.
Definition EachDyeAlpha (b : builder) (name : list Z) : list (Z * Z) * outcome unit :=
  EachDyeAlpha_loop name (b_dyes b) 255 [].
(** font_builder_color.go:55-80; line 76 subtracts the size of a dye *)
Fixpoint EachPaletteColor_loop (name : list Z) (dyes : list (list Z * list Z)) (index : Z) (palettes : list (list Z * list rgba))
    (clrIndex : Z) (calls : list (rgba * Z)) : list (rgba * Z) * outcome unit :=
  match palettes with
  | [] => (calls, Err "palette section not found")
  | p :: r =>
    if zlen (snd p) >? clrIndex then (calls, Err "dye + palette sections exceed 255 alpha values")
    else if list_eqb (fst p) name then
      EachPaletteColor_loop name dyes (index + 1) r clrIndex
        (fst (fold_left (fun '(calls, i) clr => (calls ++ [(clr, u8 (clrIndex - i))], i + 1)) (snd p) (calls, 0)))
    else match zget dyes index with
         | Ok d => EachPaletteColor_loop name dyes (index + 1) r (clrIndex - zlen (snd d)) calls
         | _ => (calls, Panic)
         end
  end.
(** font_builder_color.go:55-80 *)
Definition EachPaletteColor (b : builder) (name : list Z) : list (rgba * Z) * outcome unit :=
  let clrIndex := fold_left (fun c d => c - zlen (snd d)) (b_dyes b) 255 in
  if clrIndex <? 0 then ([], Err "dye sections exceed 255 alpha values")
  else EachPaletteColor_loop name (b_dyes b) 0 (b_palettes b) clrIndex [].

(** font_builder_settings.go:81-106; SettingKey is a uint8 *)
Definition AddSetting (b : builder) (name : list Z) (options : list (list Z)) : builder * outcome Z :=
  match ValidateBasicName name with
  | Ok _ =>
    match ofold (fun _ opt => ValidateBasicName opt) options tt with
    | Ok _ =>
      if zlen options >? 255 then (b, Err "setting can't have more than 255 options")
      else if zlen (b_settings b) >=? 255 then (b, Err "can't add more than 255 settings")
      else if existsb (fun s => list_eqb (fst s) name) (b_settings b)
      then (b, Err "can't add two settings with the same name")
      else (with_settings b (b_settings b ++ [(name, options)]), Ok (u8 (zlen (b_settings b))))
    | Err m => (b, Err m) | Panic => (b, Panic) | Hang => (b, Hang)
    end
  | Err m => (b, Err m) | Panic => (b, Panic) | Hang => (b, Hang)
  end.

(** font_builder_mapping.go:24-34, the loop over the settings *)
Fixpoint switch_settings (numSettings : Z) (settings : list Z) (seen : list Z) : outcome (list Z) :=
  match settings with
  | [] => Ok seen
  | s :: r =>
    if s >=? numSettings then Err "mapping switch contains undefined setting"
    else if existsb (Z.eqb s) seen then Err "mapping switch can't contain repeated settings"
    else switch_settings numSettings r (seen ++ [s])
  end.
(** font_builder_mapping.go:14-39 *)
Definition AddSwitch (b : builder) (settings : list Z) : builder * outcome Z :=
  if (zlen settings <? 1) || (zlen settings >? 255)
  then (b, Err "mapping switch must contain between 1 and 255 settings")
  else if zlen (b_switches b) >=? 254 then (b, Err "can't have more than 254 mapping switches")
  else match switch_settings (u8 (zlen (b_settings b))) settings [] with
       | Ok newSettings => (with_switches b (b_switches b ++ [newSettings]), Ok (u8 (zlen (b_switches b))))
       | Err m => (b, Err m) | Panic => (b, Panic) | Hang => (b, Hang)
       end.

(** font_builder.go:842-854 *)
Definition computeNumSwitchCases (b : builder) (switchIndex : Z) : outcome Z :=
  if switchIndex >=? 254 then Ok 1 else
  do settings <- zget (b_switches b) switchIndex;
  do ' (numCases, _) <- ofold (fun '(numCases, first) settingIndex =>
      do setting <- zget (b_settings b) settingIndex;
      let numOptions := zlen (snd setting) in
      if numOptions =? 0 then Panic
      else Ok ((if (first : bool) then numOptions else numCases * numOptions), false))
    settings (0, true);
  Ok numCases.

(** font_builder_mapping.go:122-138 *)
Definition Map (b : builder) (codePoint glyphUID : Z) : builder * outcome unit :=
  if codePoint <? 32 then (b, Err "can't map code points before ' ' (space)")
  else if negb (m_has Z.eqb (b_glyphs b) glyphUID) then (b, Err "attempted to map to an undefined glyph")
  else (with_mapping b (m_set Z.eqb (b_mapping b) codePoint (mkMapEntry 255 [mkMapGroup [glyphUID] 0])), Ok tt).
(** font_builder_mapping.go:140-162 *)
Definition MapGroup (b : builder) (codePoint animFlags : Z) (glyphUIDs : list Z) : builder * outcome unit :=
  if codePoint <? 32 then (b, Err "can't map code points before ' ' (space)")
  else if zlen glyphUIDs <? 2 then (b, Err "mapping a glyph group to a code point requires at least 2 glyphs")
  else if zlen glyphUIDs >? 127 then (b, Err "glyph groups can't exceed 127 glyphs")
  else if negb (forallb (m_has Z.eqb (b_glyphs b)) glyphUIDs) then (b, Err "attempted to map to an undefined glyph")
  else (with_mapping b (m_set Z.eqb (b_mapping b) codePoint (mkMapEntry 254 [mkMapGroup glyphUIDs animFlags])), Ok tt).
(** font_builder_mapping.go:174-199 *)
Definition MapWithSwitchSingles (b : builder) (codePoint mapSwitch : Z) (glyphUIDs : list Z) : builder * outcome unit :=
  if codePoint <? 32 then (b, Err "can't map code points before ' ' (space)")
  else if mapSwitch >=? 254 then (b, Panic)
  else if mapSwitch >=? zlen (b_switches b) then (b, Err "can't map with undefined switch")
  else match computeNumSwitchCases b mapSwitch with
       | Ok numSwitchCases =>
         if negb (zlen glyphUIDs =? numSwitchCases) then (b, Err "switch expects another number of glyph groups")
         else (with_mapping b (m_set Z.eqb (b_mapping b) codePoint
                 (mkMapEntry mapSwitch (map (fun uid => mkMapGroup [uid] 0) glyphUIDs))), Ok tt)
       | Err m => (b, Err m) | Panic => (b, Panic) | Hang => (b, Hang)
       end.
(** font_builder_mapping.go:217-228: the flags of the groups with several glyphs *)
Fixpoint group_anim_flags (groups : list (list Z)) (animFlags : list Z) : outcome (list Z) :=
  match groups with
  | [] => match animFlags with
          | [] => Ok []
          | _ => Err "number of animation flags doesn't match number of multi-glyph groups"
          end
  | g :: r =>
    if zlen g =? 0 then Panic
    else if zlen g =? 1 then group_anim_flags r animFlags
    else match animFlags with
         | [] => Err "not enough animation flags for all multi-glyph groups"
         | f :: fs => do rest <- group_anim_flags r fs; Ok (f :: rest)
         end
  end.
(** font_builder_mapping.go:202-239; [finalAnimFlags[i]] is indexed by the number of the group *)
Definition MapWithSwitch (b : builder) (codePoint mapSwitch : Z) (glyphUIDs : list (list Z)) (animFlags : list Z)
  : builder * outcome unit :=
  if codePoint <? 32 then (b, Err "can't map code points before ' ' (space)")
  else if mapSwitch >=? 254 then (b, Panic)
  else if mapSwitch >=? zlen (b_switches b) then (b, Err "can't map with undefined switch")
  else
    let cases :=
      do numSwitchCases <- computeNumSwitchCases b mapSwitch;
      if negb (zlen glyphUIDs =? numSwitchCases) then Err "switch expects another number of glyph groups" else
      do finalAnimFlags <- group_anim_flags glyphUIDs animFlags;
      do ' (cases, _) <- ofold (fun '(cases, i) group =>
          do fl <- zget finalAnimFlags i; Ok (cases ++ [mkMapGroup group fl], i + 1)) glyphUIDs ([], 0);
      Ok cases in
    match cases with
    | Ok cs => (with_mapping b (m_set Z.eqb (b_mapping b) codePoint (mkMapEntry mapSwitch cs)), Ok tt)
    | Err m => (b, Err m) | Panic => (b, Panic) | Hang => (b, Hang)
    end.

(** font_builder_props.go:27-44; [IsValid] is Model_Date.v *)
Definition set_date (b : builder) (date : Date) (change : bheader -> bheader) : builder * outcome unit :=
  match date_IsValid date with
  | Ok true => (with_header b (change (b_header b)), Ok tt)
  | Ok false => (b, Err "invalid date")
  | Err m => (b, Err m) | Panic => (b, Panic) | Hang => (b, Hang)
  end.
Definition SetFirstVerDate (b : builder) (date : Date) := set_date b date (fun h =>
  mkBH (bh_ID h) (bh_major h) (bh_minor h) date (bh_majorDate h) (bh_minorDate h) (bh_name h) (bh_family h) (bh_author h) (bh_about h)).
Definition SetMajorVerDate (b : builder) (date : Date) := set_date b date (fun h =>
  mkBH (bh_ID h) (bh_major h) (bh_minor h) (bh_firstDate h) date (bh_minorDate h) (bh_name h) (bh_family h) (bh_author h) (bh_about h)).
Definition SetMinorVerDate (b : builder) (date : Date) := set_date b date (fun h =>
  mkBH (bh_ID h) (bh_major h) (bh_minor h) (bh_firstDate h) (bh_majorDate h) date (bh_name h) (bh_family h) (bh_author h) (bh_about h)).
(** font_builder_props.go:46-67; [now] is ggfnt.CurrentDate() *)
Definition RaiseMajorVersion (b : builder) (now : Date) : builder := let h := b_header b in
  with_header b (mkBH (bh_ID h) (u16 (bh_major h + 1)) 0 (bh_firstDate h) now now (bh_name h) (bh_family h) (bh_author h) (bh_about h)).
Definition RaiseMinorVersion (b : builder) (now : Date) : builder := let h := b_header b in
  with_header b (mkBH (bh_ID h) (bh_major h) (u16 (bh_minor h + 1)) (bh_firstDate h) (bh_majorDate h) now (bh_name h) (bh_family h) (bh_author h) (bh_about h)).
Definition SetVersion (b : builder) (major minor : Z) (now : Date) : builder := let h := b_header b in
  with_header b (mkBH (bh_ID h) major minor (bh_firstDate h) now now (bh_name h) (bh_family h) (bh_author h) (bh_about h)).

(** utf8.ValidString: the byte sequences of the table in unicode/utf8 (RFC 3629) *)
Definition cont (b : Z) : bool := (128 <=? b) && (b <? 192).
Fixpoint valid_utf8 (s : list Z) : bool :=
  match s with
  | [] => true
  | a :: r =>
    if a <? 128 then valid_utf8 r else
    match r with
    | [] => false
    | b :: r2 =>
      if (194 <=? a) && (a <? 224) then cont b && valid_utf8 r2 else
      match r2 with
      | [] => false
      | c :: r3 =>
        if (224 <=? a) && (a <? 240) then
          (if a =? 224 then (160 <=? b) && (b <? 192) else if a =? 237 then (128 <=? b) && (b <? 160) else cont b) &&
          cont c && valid_utf8 r3
        else match r3 with
        | [] => false
        | d :: r4 =>
          if (240 <=? a) && (a <? 245) then
            (if a =? 240 then (144 <=? b) && (b <? 192) else if a =? 244 then (128 <=? b) && (b <? 144) else cont b) &&
            cont c && cont d && valid_utf8 r4
          else false
        end
      end
    end
  end.
(** font_builder_props.go:238-246; in valid UTF-8 the code points below 32 are the bytes below 32 *)
Definition checkStringValidity (str : list Z) : outcome unit :=
  if negb (valid_utf8 str) then Err "string contains invalid characters"
  else if existsb (fun c => c <? 32) str then Err "string can't contain control characters" else Ok tt.
(** font_builder_props.go:70-100 *)
Definition set_text (b : builder) (limit : Z) (msg : string) (text : list Z) (change : bheader -> bheader) : builder * outcome unit :=
  if zlen text >? limit then (b, Err msg)
  else match checkStringValidity text with
       | Ok _ => (with_header b (change (b_header b)), Ok tt)
       | r => (b, r)
       end.
Definition SetName (b : builder) (name : list Z) := set_text b 255 "font name can't exceed 255 bytes" name (fun h =>
  mkBH (bh_ID h) (bh_major h) (bh_minor h) (bh_firstDate h) (bh_majorDate h) (bh_minorDate h) name (bh_family h) (bh_author h) (bh_about h)).
Definition SetFamily (b : builder) (name : list Z) := set_text b 255 "family name can't exceed 255 bytes" name (fun h =>
  mkBH (bh_ID h) (bh_major h) (bh_minor h) (bh_firstDate h) (bh_majorDate h) (bh_minorDate h) (bh_name h) name (bh_author h) (bh_about h)).
Definition SetAuthor (b : builder) (name : list Z) := set_text b 255 "author name can't exceed 255 bytes" name (fun h =>
  mkBH (bh_ID h) (bh_major h) (bh_minor h) (bh_firstDate h) (bh_majorDate h) (bh_minorDate h) (bh_name h) (bh_family h) name (bh_about h)).
Definition SetAbout (b : builder) (about : list Z) := set_text b 65535 "font 'about' can't exceed 65535 bytes" about (fun h =>
  mkBH (bh_ID h) (bh_major h) (bh_minor h) (bh_firstDate h) (bh_majorDate h) (bh_minorDate h) (bh_name h) (bh_family h) (bh_author h) about).

(** font_builder_props.go:109-116 *)
Definition GetMetricsStatus (b : builder) : outcome unit :=
  let m := b_metrics b in
  if bm_ascent m =? 0 then Err "ascent must be strictly positive"
  else if bm_ascent m <=? bm_extraAscent m then Err "ascent must be greater than extra ascent"
  else if bm_ascent m <? bm_midline m then Err "ascent must be equal or greater than midline ascent"
  else if bm_ascent m <? bm_uppercase m then Err "ascent must be equal or greater than uppercase ascent"
  else if bm_midline m >? bm_uppercase m then Err "midline ascent must be equal or greater than uppercase ascent"
  else Ok tt.

(** font_builder_props.go:119-174, the setters of the metrics; all but the last two only assign *)
Inductive metric :=
| MonoWidth | Ascent | ExtraAscent | Descent | ExtraDescent | MidlineAscent | UppercaseAscent
| HorzInterspacing | VertInterspacing | LineGap | VertLineWidth | VertLineGap.
Definition set_metric (m : bmetrics) (k : metric) (v : Z) : bmetrics :=
  let upd k' old := match k, k' with
    | MonoWidth, MonoWidth | Ascent, Ascent | ExtraAscent, ExtraAscent | Descent, Descent
    | ExtraDescent, ExtraDescent | MidlineAscent, MidlineAscent | UppercaseAscent, UppercaseAscent
    | HorzInterspacing, HorzInterspacing | VertInterspacing, VertInterspacing | LineGap, LineGap
    | VertLineWidth, VertLineWidth | VertLineGap, VertLineGap => v
    | _, _ => old end in
  mkBM (bm_vert m) (upd MonoWidth (bm_mono m)) (upd Ascent (bm_ascent m)) (upd ExtraAscent (bm_extraAscent m))
    (upd Descent (bm_descent m)) (upd ExtraDescent (bm_extraDescent m)) (upd UppercaseAscent (bm_uppercase m))
    (upd MidlineAscent (bm_midline m)) (upd HorzInterspacing (bm_horz m)) (upd VertInterspacing (bm_vertSpacing m))
    (upd LineGap (bm_lineGap m)) (upd VertLineWidth (bm_vertLineWidth m)) (upd VertLineGap (bm_vertLineGap m)).
(** font_builder_props.go:124-174 *)
Definition SetMetric (b : builder) (k : metric) (v : Z) : builder * outcome unit :=
  let done := (with_metrics b (set_metric (b_metrics b) k v), Ok tt) in
  match k with
  | VertLineWidth =>
    if (v =? 0) && bm_vert (b_metrics b) then (b, Err "can't set vert line width to zero when vert layout is enabled")
    else if negb (v =? 0) && negb (bm_vert (b_metrics b)) then (b, Err "can't set vert line width without enabling vert layout first")
    else done
  | VertLineGap =>
    if negb (v =? 0) && negb (bm_vert (b_metrics b)) then (b, Err "can't set vert line gap without enabling vert layout first")
    else done
  | _ => done
  end.
(** font_builder_props.go:119-122 *)
Definition SetVertLayoutUsed (b : builder) (used : bool) : builder := let m := b_metrics b in
  with_metrics b (mkBM used (bm_mono m) (bm_ascent m) (bm_extraAscent m) (bm_descent m) (bm_extraDescent m)
    (bm_uppercase m) (bm_midline m) (bm_horz m) (bm_vertSpacing m) (bm_lineGap m) (bm_vertLineWidth m) (bm_vertLineGap m)).

(** font_builder_props.go:198-217: the first of up to four random UIDs that is free *)
Fixpoint fresh_uid (rerolls : nat) (taken : Z -> bool) (random : list Z) : outcome Z :=
  match rerolls, random with
  | O, _ => Err "failed to generate unique glyph UID"
  | S n, uid :: r => if negb (taken uid) && negb (uid =? GlyphMissing) then Ok uid else fresh_uid n taken r
  | S _, [] => Err "no more randomness"
  end.
(** font_builder_props.go:178-220; [random] are the results of CryptoRandUint64, an exhausted list
    stands for its error. [glyphMask.Bounds().Dx()] is not negative for images made by the image
    package. *)
Definition AddGlyph (b : builder) (mask : alpha) (random : list Z) : builder * outcome Z :=
  let m := b_metrics b in
  if zlen (b_glyphs b) >=? MaxGlyphs then (b, Err "reached font glyph count limit")
  else match ComputeRect mask with
  | Ok r =>
    if negb (rect_Empty r) && ((ry0 r <? 0) && (- ry0 r >? bm_ascent m + bm_extraAscent m)) then (b, Err "glyph exceeds font ascent")
    else if negb (rect_Empty r) && ((ry1 r >? 0) && (ry1 r >? bm_descent m + bm_extraDescent m)) then (b, Err "glyph exceeds font descent")
    else if negb (rect_Empty r) && (negb (bm_mono m =? 0) && ((rx0 r <? 0) || (rx1 r >? bm_mono m)))
    then (b, Err "glyph doesn't respect monospacing width")
    else match fresh_uid 4 (m_has Z.eqb (b_glyphs b)) random with
    | Ok uid =>
      let dx := rx1 (Rect mask) - rx0 (Rect mask) in
      let gd := mkGlyphData [] (mkPlacement (u8 (Z.min 255 dx)) (bm_ascent m) (bm_descent m) (u8 (Z.min 255 (Z.quot dx 2)))) mask in
      (with_glyphs b (b_order b ++ [uid]) (m_set Z.eqb (b_glyphs b) uid gd), Ok uid)
    | r => (b, r)
    end
  | Err e => (b, Err e) | Panic => (b, Panic) | Hang => (b, Hang)
  end.
(** font_builder_props.go:222-227 *)
Definition SetGlyphPlacement (b : builder) (uid : Z) (p : GlyphPlacement) : builder * outcome unit :=
  match m_get Z.eqb (b_glyphs b) uid with
  | None => (b, Err "glyph not found")
  | Some gd => (with_glyphs b (b_order b) (m_set Z.eqb (b_glyphs b) uid (mkGlyphData (gd_Name gd) p (gd_Mask gd))), Ok tt)
  end.
(** font_builder_props.go:229-236 *)
Definition SetGlyphName (b : builder) (uid : Z) (name : list Z) : builder * outcome unit :=
  match m_get Z.eqb (b_glyphs b) uid with
  | None => (b, Err "glyph not found")
  | Some gd =>
    match ValidateBasicName name with
    | Ok _ => (with_glyphs b (b_order b) (m_set Z.eqb (b_glyphs b) uid (mkGlyphData name (gd_Placement gd) (gd_Mask gd))), Ok tt)
    | r => (b, r)
    end
  end.
(** font_builder_props.go:250-261 *)
Definition SetKerningPair (b : builder) (prev next kerning : Z) : builder :=
  if kerning =? 0 then with_kerning b (m_del pair_eqb (b_horz b) (prev, next)) (b_vert b)
  else with_kerning b (m_set pair_eqb (b_horz b) (prev, next) (mkKPair 0 kerning)) (b_vert b).

(** font_builder_rewrite_sets.go:61-75 *)
Definition CreateGlyphSet (b : builder) (random : list Z) : builder * outcome Z :=
  if zlen (b_glyphSets b) >=? 255 then (b, Err "font can't contain more than 255 glyph sets")
  else match random with
  | [] => (b, Err "no more randomness")
  | uid :: _ =>
    if m_has Z.eqb (b_glyphSets b) uid then (b, Err "failed to generate unique glyph set UID")
    else (with_glyphSets b (m_set Z.eqb (b_glyphSets b) uid (mkBSet [] [])) (b_setsOrder b ++ [uid]), Ok uid)
  end.
(** font_builder_rewrite_sets.go:77-82 *)
Definition RemoveGlyphSet (b : builder) (uid : Z) : builder * bool :=
  if m_has Z.eqb (b_glyphSets b) uid
  then (with_glyphSets b (m_del Z.eqb (b_glyphSets b) uid) (b_setsOrder b), true) else (b, false).
Definition range_is (first last : Z) (r : Z * Z) : bool := (fst r =? first) && (snd r =? last).
(** font_builder_rewrite_sets.go:84-100 *)
Definition AddGlyphSetRange (b : builder) (uid first last : Z) : builder * outcome unit :=
  match m_get Z.eqb (b_glyphSets b) uid with
  | None => (b, Err "invalid glyph set UID")
  | Some set =>
    if zlen (bs_ranges set) >=? 255 then (b, Err "glyph set can't contain more than 255 ranges")
    else if negb (m_has Z.eqb (b_glyphs b) first) then (b, Err "invalid glyph range starting UID")
    else if negb (m_has Z.eqb (b_glyphs b) last) then (b, Err "invalid glyph range ending UID")
    else if existsb (range_is first last) (bs_ranges set) then (b, Err "glyph range already included")
    else (with_glyphSets b (m_set Z.eqb (b_glyphSets b) uid (mkBSet (bs_ranges set ++ [(first, last)]) (bs_list set)))
            (b_setsOrder b), Ok tt)
  end.
(** the index search of font_builder_rewrite_sets.go:105-111 and the like *)
Fixpoint index_of {A} (p : A -> bool) (i : Z) (l : list A) : option Z :=
  match l with [] => None | x :: r => if p x then Some i else index_of p (i + 1) r end.
(** slices.Delete(s, i, j) *)
Definition slices_Delete {A} (s : list A) (i j : Z) : list A := firstn (Z.to_nat i) s ++ skipn (Z.to_nat j) s.
(** font_builder_rewrite_sets.go:102-116 *)
Definition RemoveGlyphSetRange (b : builder) (uid first last : Z) : builder * bool :=
  match m_get Z.eqb (b_glyphSets b) uid with
  | None => (b, false)
  | Some set =>
    match index_of (range_is first last) 0 (bs_ranges set) with
    | None => (b, false)
    | Some i => (with_glyphSets b (m_set Z.eqb (b_glyphSets b) uid (mkBSet (slices_Delete (bs_ranges set) i i) (bs_list set)))
                   (b_setsOrder b), true)
    end
  end.
(** font_builder_rewrite_sets.go:126-140 *)
Definition AddGlyphSetListGlyph (b : builder) (uid glyphUID : Z) : builder * outcome unit :=
  match m_get Z.eqb (b_glyphSets b) uid with
  | None => (b, Err "invalid glyph set UID")
  | Some set =>
    if zlen (bs_list set) >=? 255 then (b, Err "glyph set can't contain more than 255 glyphs")
    else if negb (m_has Z.eqb (b_glyphs b) glyphUID) then (b, Err "invalid glyph UID")
    else if existsb (Z.eqb glyphUID) (bs_list set) then (b, Err "glyph already included")
    else (with_glyphSets b (m_set Z.eqb (b_glyphSets b) uid (mkBSet (bs_ranges set) (bs_list set ++ [glyphUID])))
            (b_setsOrder b), Ok tt)
  end.
(** font_builder_rewrite_sets.go:142-156 *)
Definition RemoveGlyphSetListGlyph (b : builder) (uid glyphUID : Z) : builder * bool :=
  match m_get Z.eqb (b_glyphSets b) uid with
  | None => (b, false)
  | Some set =>
    match index_of (Z.eqb glyphUID) 0 (bs_list set) with
    | None => (b, false)
    | Some i => (with_glyphSets b (m_set Z.eqb (b_glyphSets b) uid (mkBSet (bs_ranges set) (slices_Delete (bs_list set) i i)))
                   (b_setsOrder b), true)
    end
  end.
(** font_builder_rewrite_sets.go:174-187; the map is never allocated, so line 185 assigns to a
    nil map. The UID is looked up among the glyph sets. *)
Definition CreateRuneSet (b : builder) (random : list Z) : builder * outcome Z :=
  if zlen (match b_runeSets b with Some m => m | None => [] end) >=? 255 then (b, Err "font can't contain more than 255 rune sets")
  else match random with
  | [] => (b, Err "no more randomness")
  | uid :: _ =>
    if m_has Z.eqb (b_glyphSets b) uid then (b, Err "failed to generate unique rune set UID")
    else match b_runeSets b with
         | None => (b, Panic)
         | Some m => (with_runeSets b (Some (m_set Z.eqb m uid (mkBSet [] []))), Ok uid)
         end
  end.

(** font_builder_rewrite_sets.go:189-194 *)
Definition rune_sets (b : builder) : list (Z * bset) := match b_runeSets b with Some m => m | None => [] end.
Definition RemoveRuneSet (b : builder) (uid : Z) : builder * bool :=
  if m_has Z.eqb (rune_sets b) uid then (with_runeSets b (Some (m_del Z.eqb (rune_sets b) uid)), true) else (b, false).
(** the assignments [self.rewriteRuneSets[setUID] = set]; the set has been found, so the map is not nil *)
Definition put_rune_set (b : builder) (uid : Z) (set : bset) : builder :=
  with_runeSets b (Some (m_set Z.eqb (rune_sets b) uid set)).
(** font_builder_rewrite_sets.go:196-210 *)
Definition AddRuneSetRange (b : builder) (uid first last : Z) : builder * outcome unit :=
  match m_get Z.eqb (rune_sets b) uid with
  | None => (b, Err "invalid rune set UID")
  | Some set =>
    if first >? last then (b, Err "invalid rune range (start > end)")
    else if existsb (range_is first last) (bs_ranges set) then (b, Err "rune range already included")
    else (put_rune_set b uid (mkBSet (bs_ranges set ++ [(first, last)]) (bs_list set)), Ok tt)
  end.
(** font_builder_rewrite_sets.go:212-226 *)
Definition RemoveRuneSetRange (b : builder) (uid first last : Z) : builder * bool :=
  match m_get Z.eqb (rune_sets b) uid with
  | None => (b, false)
  | Some set =>
    match index_of (range_is first last) 0 (bs_ranges set) with
    | None => (b, false)
    | Some i => (put_rune_set b uid (mkBSet (slices_Delete (bs_ranges set) i i) (bs_list set)), true)
    end
  end.
(** font_builder_rewrite_sets.go:236-247 *)
Definition AddRuneSetListRune (b : builder) (uid codePoint : Z) : builder * outcome unit :=
  match m_get Z.eqb (rune_sets b) uid with
  | None => (b, Err "invalid rune set UID")
  | Some set =>
    if existsb (Z.eqb codePoint) (bs_list set) then (b, Err "rune already included")
    else (put_rune_set b uid (mkBSet (bs_ranges set) (bs_list set ++ [codePoint])), Ok tt)
  end.
(** font_builder_rewrite_sets.go:249-263 *)
Definition RemoveRuneSetListRune (b : builder) (uid codePoint : Z) : builder * bool :=
  match m_get Z.eqb (rune_sets b) uid with
  | None => (b, false)
  | Some set =>
    match index_of (Z.eqb codePoint) 0 (bs_list set) with
    | None => (b, false)
    | Some i => (put_rune_set b uid (mkBSet (bs_ranges set) (slices_Delete (bs_list set) i i)), true)
    end
  end.

(** font_builder_rewrite_rules.go:215-225; runes are int32 *)
Definition AddSimpleUtf8RewriteRule (b : builder) (replacement : Z) (sequence : list Z) : builder * outcome unit :=
  if zlen sequence =? 0 then (b, Err "rewrite rule sequence can't be empty")
  else if zlen sequence >? 255 then (b, Err "rewrite rule sequence can't exceed 255 runes")
  else match ofold (fun bl _ => bl_Push bl false) sequence (mkBoolList 0 []) with
       | Ok bl => (with_rules b (b_glyphRules b)
                     (b_utf8Rules b ++ [mkBRule 255 0 (u8 (zlen sequence)) 0 bl sequence [] [replacement]]), Ok tt)
       | Err m => (b, Err m) | Panic => (b, Panic) | Hang => (b, Hang)
       end.
(** font_builder_rewrite_rules.go:233-279; the error value made on line 235 is dropped. The
    lengths are uint8. *)
Definition AddGlyphRewriteRule (b : builder) (headLen bodyLen tailLen : Z) (input out : list Z) : builder * outcome unit :=
  let headBodyLen := u8 (headLen + bodyLen) in
  if (headBodyLen <? bodyLen) || (u8 (headBodyLen + tailLen) <? tailLen) then (b, Err "rewrite rule exceeds 255 input elements")
  else if negb (u8 (headBodyLen + tailLen) =? zlen input) then (b, Err "rewrite rule input block lengths don't match given input")
  else if negb (forallb (m_has Z.eqb (b_glyphs b)) out) then (b, Err "invalid rewrite rule output glyph UID")
  else
    let elements := ofold (fun '(bl, inGlyphs, inGroups) uid =>
        if m_has Z.eqb (b_glyphs b) uid then do bl <- bl_Push bl false; Ok (bl, inGlyphs ++ [uid], inGroups)
        else if negb (m_has Z.eqb (b_glyphSets b) uid) then Err "given input UID is neither glyph nor set"
        else do bl <- bl_Push bl true; Ok (bl, inGlyphs, inGroups ++ [uid]))
      input (mkBoolList 0 [], [], []) in
    match elements with
    | Ok (bl, inGlyphs, inGroups) =>
      (with_rules b (b_glyphRules b ++ [mkBRule 255 headLen bodyLen tailLen bl inGlyphs inGroups out]) (b_utf8Rules b), Ok tt)
    | Err m => (b, Err m) | Panic => (b, Panic) | Hang => (b, Hang)
    end.

(** font_builder.go:109-169. [id] is the first of at most eight random numbers with enough
    entropy, [date] the current date. *)
Definition New (id : Z) (date : Date) : builder :=
  mkBuilder
    (mkBH id 0 1 date date date (str_bytes "Unnamed") (str_bytes "Unnamed") (str_bytes "Authorless")
       (str_bytes "No information available."))
    (mkBM false 0 9 0 5 0 9 5 1 0 1 0 0)
    [] [] [] [] [] [] [] [] [] [] None [] [] [] [] [].

(** ** Build *)

(** the loops [for … { offset += uint16(len(x)); data = AppendUint16LE(data, offset) }] of
    font_builder.go:257-261, 278-281, 382-386, 401-405, 414-418 *)
Fixpoint ends16 (lens : list Z) (offset : Z) (data : list Z) : list Z :=
  match lens with
  | [] => data
  | n :: r => let offset := u16 (offset + u16 n) in ends16 r offset (AppendUint16LE data offset)
  end.
(** [for … { data = append(data, x...) }] *)
Definition append_all (blocks : list (list Z)) (data : list Z) : list Z := fold_left (fun data x => data ++ x) blocks data.
(** font_builder.go:250-255 and 267-272 *)
Fixpoint end_indices (lens : list Z) (clrIndex : Z) (data : list Z) : outcome (list Z) :=
  match lens with
  | [] => Ok data
  | n :: r => let clrIndex := clrIndex + n in
    if clrIndex >? 255 then Panic else end_indices r clrIndex (data ++ [u8 clrIndex])
  end.
(** [EncodeUint24LE(data[i : i + 3], v)] *)
Definition patch24 (data : list Z) (i v : Z) : outcome (list Z) :=
  do sub <- zslice data i (i + 3);
  do sub <- EncodeUint24LE sub v;
  Ok (firstn (Z.to_nat i) data ++ sub ++ skipn (Z.to_nat (i + 3)) data).

(** font_builder.go:199-202; a missing key reads as 0 *)
Fixpoint index_lookup (i : Z) (uids : list Z) (m : list (Z * Z)) : list (Z * Z) :=
  match uids with [] => m | uid :: r => index_lookup (i + 1) r (m_set Z.eqb m uid (u16 i)) end.

(** font_builder.go:205-218 *)
Definition build_header (b : builder) : outcome (list Z) :=
  let h := b_header b in
  let data := AppendUint32LE [] FormatVersion in
  let data := AppendUint64LE data (bh_ID h) in
  let data := AppendUint16LE data (bh_major h) in
  let data := AppendUint16LE data (bh_minor h) in
  let data := date_appendTo (bh_firstDate h) data in
  let data := date_appendTo (bh_majorDate h) data in
  let data := date_appendTo (bh_minorDate h) data in
  do data <- AppendShortString data (bh_name h);
  do data <- AppendShortString data (bh_family h);
  do data <- AppendShortString data (bh_author h);
  AppendString data (bh_about h).
(** font_builder.go:224-237 *)
Definition build_metrics (b : builder) (data : list Z) : list Z :=
  let m := b_metrics b in
  AppendUint16LE data (u16 (zlen (b_glyphs b))) ++
  [b2z (bm_vert m); bm_mono m; bm_ascent m; bm_extraAscent m; bm_descent m; bm_extraDescent m; bm_uppercase m;
   bm_midline m; bm_horz m; bm_vertSpacing m; bm_lineGap m; bm_vertLineWidth m; bm_vertLineGap m].
(** font_builder.go:249-262 *)
Definition build_dyes (b : builder) (data : list Z) : outcome (list Z) :=
  let ds := b_dyes b in
  do data <- end_indices (map (fun d => zlen (snd d)) ds) 0 (data ++ [u8 (zlen ds)]);
  let data := append_all (map snd ds) data in
  let data := ends16 (map (fun d => zlen (fst d)) ds) 0 data in
  Ok (append_all (map fst ds) data).
(** font_builder.go:266-284 *)
Definition build_palettes (b : builder) (data : list Z) : outcome (list Z) :=
  let ps := b_palettes b in
  do data <- end_indices (map (fun d => zlen (snd d)) ps) 0 (data ++ [u8 (zlen ps)]);
  let data := append_all (map (fun p => concat (map (fun '(r, g, bl, a) => [r; g; bl; a]) (snd p))) ps) data in
  let data := ends16 (map (fun d => zlen (fst d)) ps) 0 data in
  Ok (append_all (map fst ps) data).

(** the name of a glyph; a missing entry is a nil pointer *)
Definition glyph_name (b : builder) (uid : Z) : outcome (list Z) :=
  match m_get Z.eqb (b_glyphs b) uid with Some gd => Ok (gd_Name gd) | None => Panic end.
(** font_builder.go:289-296 *)
Definition named_glyphs (b : builder) : outcome (list (list Z * Z)) :=
  ofold (fun named uid => do name <- glyph_name b uid;
           Ok (if zlen name =? 0 then named else named ++ [(name, uid)])) (b_order b) [].
(** font_builder.go:312-316 *)
Fixpoint ends24 (lens : list Z) (offset : Z) (data : list Z) : list Z :=
  match lens with
  | [] => data
  | n :: r => let offset := u32 (offset + u32 n) in ends24 r offset (AppendUint24LE data offset)
  end.
(** font_builder.go:317-325 *)
Fixpoint append_names (names : list (list Z)) (prevName data : list Z) : outcome (list Z) :=
  match names with
  | [] => Ok data
  | name :: r => if list_eqb name prevName then Err "duplicated glyph name" else append_names r name (data ++ name)
  end.
(** font_builder.go:287-326. Names and UIDs are kept together while sorting. *)
Definition build_glyph_names (b : builder) (lookup : list (Z * Z)) (data : list Z) : outcome (list Z) :=
  do named <- named_glyphs b;
  let numNamedGlyphs := u16 (zlen named) in
  let data := AppendUint16LE data numNamedGlyphs in
  if numNamedGlyphs >? 0 then
    let sorted := go_sort (fun x y => negb (str_less (fst y) (fst x))) named in
    let data := fold_left (fun data x => AppendUint16LE data
      (match m_get Z.eqb lookup (snd x) with Some i => i | None => 0 end)) sorted data in
    let data := ends24 (map (fun x => zlen (fst x)) sorted) 0 data in
    append_names (map fst sorted) [] data
  else Ok data.

(** font_builder.go:334-354; the state is the data and glyphMaskEndOffsetsIndex *)
Definition build_mask (sort : list fragment -> list fragment) (b : builder) (baseGlyphMasksIndex : Z)
    (st : list Z * Z) (uid : Z) : outcome (list Z * Z) :=
  let '(data, endIndex) := st in
  match m_get Z.eqb (b_glyphs b) uid with
  | None => Panic
  | Some glyph =>
    let gp := gd_Placement glyph in
    let data := if bm_vert (b_metrics b)
      then data ++ [gp_Advance gp; gp_TopAdvance gp; gp_BottomAdvance gp; gp_HorzCenter gp]
      else data ++ [gp_Advance gp] in
    do data <- AppendRasterOps sort data (gd_Mask glyph);
    do data <- patch24 data endIndex (u32 (zlen data - baseGlyphMasksIndex));
    Ok (data, endIndex + 3)
  end.
(** font_builder.go:329-354; GrowSliceByN adds bytes that are all overwritten *)
Definition build_masks (sort : list fragment -> list fragment) (b : builder) (data : list Z) : outcome (list Z) :=
  let endIndex := zlen data in
  let data := data ++ repeat 0 (Z.to_nat (u16 (zlen (b_glyphs b)) * 3)) in
  do ' (data, _) <- ofold (build_mask sort b (zlen data)) (b_order b) (data, endIndex);
  Ok data.

(** font_builder_settings.go:13-20 over all settings, font_builder.go:357-360 *)
Definition collect_words (b : builder) : list (list Z * Z) :=
  fold_left (fun words opt => if m_has list_eqb words opt then words else m_set list_eqb words opt 0)
    (concat (map snd (b_settings b))) [].
(** font_builder.go:363-366 *)
Definition builtinWords : outcome (list (list Z * Z)) :=
  ofold (fun m i => do w <- GetPredefinedWord i; Ok (m_set list_eqb m w i)) (zseq 256) [].
(** font_builder_settings.go:25-39; the state is words, customWordIndex, minBuiltinIndex. All
    numbers stay below 256, or are 65535, so the int16 and uint16 conversions keep them. *)
Definition assign_word (builtin : list (list Z * Z)) (st : list (list Z * Z) * Z * Z) (entry : list Z * Z)
  : list (list Z * Z) * Z * Z :=
  let '(words, custom, minBuiltin) := st in
  match m_get list_eqb builtin (fst entry) with
  | Some i => (m_set list_eqb words (fst entry) (- i), custom, if i <? minBuiltin then i else minBuiltin)
  | None => (m_set list_eqb words (fst entry) custom, custom + 1, minBuiltin)
  end.
(** font_builder_settings.go:45-54 *)
Definition move_word (target : Z) (st : list (list Z * Z) * Z * Z) (entry : list Z * Z) : list (list Z * Z) * Z * Z :=
  let '(words, custom, minBuiltin) := st in
  let '(word, index) := entry in
  if index =? target then (m_set list_eqb words word custom, custom + 1, minBuiltin)
  else if index <? 0 then (words, custom, if - index <? minBuiltin then - index else minBuiltin)
  else st.
(** font_builder_settings.go:42-55; [n] counts the range statements *)
Fixpoint move_words (fuel : nat) (o : order) (n : nat) (st : list (list Z * Z) * Z * Z) : outcome (list (list Z * Z)) :=
  let '(words, custom, minBuiltin) := st in
  if minBuiltin <? custom then
    match fuel with
    | O => Hang
    | S fuel' => move_words fuel' o (S n) (fold_left (move_word (- minBuiltin)) (o n _ words) (words, custom, 65535))
    end
  else Ok words.
(** font_builder_settings.go:22-66; every round of the second loop makes one built-in word a
    custom one, so the fuel suffices. The range statements are numbered from 10. *)
Definition organizeWords (o : order) (builtin words : list (list Z * Z)) : outcome (list (list Z * Z)) :=
  if zlen words >? 255 then Err "setting options require too many words" else
  let st := fold_left (assign_word builtin) (o 0%nat _ words) (words, 0, 65535) in
  do words <- move_words (length words) o 10 st;
  Ok (filter (fun e => negb (snd e <? 0)) words).
(** font_builder.go:356-392; gives the final words as well. The sorted list of line 379 is not
    used. *)
Definition build_words (o : order) (b : builder) (data : list Z) : outcome (list (list Z * Z) * list (list Z * Z) * list Z) :=
  let words := collect_words b in
  do ' (builtin, words) <- (if zlen words >? 0 then
      do builtin <- builtinWords; do words <- organizeWords o builtin words; Ok (builtin, words)
    else Ok ([], words));
  if zlen words >? 255 then Panic else
  let data := data ++ [u8 (zlen words)] in
  if zlen words >? 0 then
    do _ <- ofold (fun wl e => zset wl (snd e) (fst e)) (o 1%nat _ words) (repeat [] (length words));
    let data := ends16 (map (fun e => zlen (fst e)) (o 2%nat _ words)) 0 data in
    Ok (builtin, words, append_all (map fst (o 3%nat _ words)) data)
  else Ok (builtin, words, data).

(** font_builder_settings.go:68-79; uint8 of the int16 *)
Definition append_option (builtin words : list (list Z * Z)) (data : list Z) (opt : list Z) : outcome (list Z) :=
  do wordIndex <- match m_get list_eqb words opt with
                  | Some i => Ok i
                  | None => match m_get list_eqb builtin opt with Some i => Ok i | None => Panic end
                  end;
  if wordIndex >? 255 then Panic else Ok (data ++ [u8 wordIndex]).
(** font_builder.go:394-424; gives the data up to the definitions and all of it *)
Definition build_settings (b : builder) (builtin words : list (list Z * Z)) (data : list Z) : outcome (list Z * list Z) :=
  let ss := b_settings b in
  if zlen ss >? 255 then Panic else
  let data := data ++ [u8 (zlen ss)] in
  if u8 (zlen ss) >? 0 then
    let data := ends16 (map (fun s => zlen (fst s)) ss) 0 data in
    let data := append_all (map fst ss) data in
    let defs := data in
    let data := ends16 (map (fun s => zlen (snd s)) ss) 0 data in
    do data <- ofold (append_option builtin words) (concat (map snd ss)) data;
    Ok (defs, data)
  else Ok (data, data).

(** font_builder.go:427-444 *)
Fixpoint switch_ends (numSettings : Z) (switches : list (list Z)) (offset : Z) (data : list Z) : outcome (list Z) :=
  match switches with
  | [] => Ok data
  | s :: r =>
    if zlen s >? numSettings then Panic else
    let offset := u16 (offset + u16 (zlen s)) in
    switch_ends numSettings r offset (AppendUint16LE data offset)
  end.
Definition build_switches (b : builder) (data : list Z) : outcome (list Z) :=
  let sw := b_switches b in
  if zlen sw >? 255 then Panic else
  let data := data ++ [u8 (zlen sw)] in
  do data <- switch_ends (u8 (zlen (b_settings b))) sw 0 data;
  Ok (append_all sw data).

(** helpers.go:35-43 *)
Fixpoint isContinuous (prev : Z) (rest : list Z) : bool :=
  match rest with [] => true | x :: r => if x =? u16 (prev + 1) then isContinuous x r else false end.
Definition isContinuousSlice (l : list Z) : bool := match l with [] => true | x :: r => isContinuous x r end.
(** [glyphLookup[uid]] with its panic *)
Definition look (lookup : list (Z * Z)) (uid : Z) : outcome Z :=
  match m_get Z.eqb lookup uid with Some i => Ok i | None => Panic end.
(** font_builder_mapping.go:83-117; the scratch buffer is empty between calls *)
Definition group_AppendTo (lookup : list (Z * Z)) (g : mappingGroup) (data : list Z) : outcome (list Z) :=
  let n := zlen (mg_Glyphs g) in
  if (n =? 0) || (n >? 128) then Panic
  else if n =? 1 then
    do uid <- zget (mg_Glyphs g) 0; do i <- look lookup uid; Ok (AppendUint16LE (data ++ [0]) i)
  else
    do indices <- omap (look lookup) (mg_Glyphs g);
    let sorted := go_sort Z.leb indices in
    if isContinuousSlice sorted then
      do first <- zget sorted 0;
      Ok (AppendUint16LE (data ++ [Z.lor 128 (u8 (n - 1))] ++ [mg_Flags g]) first)
    else Ok (fold_left AppendUint16LE sorted (data ++ [u8 (n - 1)] ++ [mg_Flags g])).
(** font_builder_mapping.go:48-76 *)
Definition entry_AppendTo (lookup : list (Z * Z)) (e : mappingEntry) (data : list Z) : outcome (list Z) :=
  let data := data ++ [me_Switch e] in
  if me_Switch e =? 255 then
    if negb (zlen (me_Cases e) =? 1) then Panic else
    do g <- zget (me_Cases e) 0;
    if negb (zlen (mg_Glyphs g) =? 1) then Panic else
    do uid <- zget (mg_Glyphs g) 0; do i <- look lookup uid; Ok (AppendUint16LE data i)
  else if me_Switch e =? 254 then
    if negb (zlen (me_Cases e) =? 1) then Panic else
    do g <- zget (me_Cases e) 0;
    if zlen (mg_Glyphs g) <=? 1 then Panic else group_AppendTo lookup g data
  else ofold (fun data g => do data <- group_AppendTo lookup g data;
                if zlen data >? MaxFontDataSize then Err "font data exceeds maximum size" else Ok data)
         (me_Cases e) data.
(** font_builder.go:472-489; the state is the data, offset and nextMappingEndOffsetIndex *)
Definition build_mapping_entry (b : builder) (lookup : list (Z * Z)) (st : list Z * Z * Z) (codePoint : Z) : outcome (list Z * Z * Z) :=
  let '(data, offset, endIndex) := st in
  let mapping := match m_get Z.eqb (b_mapping b) (i32 codePoint) with Some m => m | None => mkMapEntry 0 [] end in
  do numCases <- computeNumSwitchCases b (me_Switch mapping);
  if negb (numCases =? zlen (me_Cases mapping)) then Panic else
  let preLen := zlen data in
  do data <- entry_AppendTo lookup mapping data;
  let offset := offset + (zlen data - preLen) in
  do data <- patch24 data endIndex (u32 offset);
  Ok (data, offset, endIndex + 3).
(** font_builder.go:447-490 *)
Definition build_mapping (o : order) (b : builder) (lookup : list (Z * Z)) (data : list Z) : outcome (list Z) :=
  let m := b_mapping b in
  if zlen m >? MaxGlyphs then Panic else
  let numMappingEntries := u16 (zlen m) in
  let data := AppendUint16LE data numMappingEntries in
  if numMappingEntries >? 0 then
    do codePoints <- omap (fun e => if fst e <? 0 then Panic else Ok (u32 (fst e))) (o 4%nat _ m);
    let codePoints := go_sort Z.leb codePoints in
    let data := fold_left AppendUint32LE codePoints data in
    let endIndex := zlen data in
    let data := data ++ repeat 0 (Z.to_nat (numMappingEntries * 3)) in
    do ' (data, _, _) <- ofold (build_mapping_entry b lookup) codePoints (data, 0, endIndex);
    Ok data
  else Ok data.

(** font_builder.go:499-507 *)
Fixpoint condition_ends (conds : list (list Z)) (offset : Z) (data : list Z) : outcome (list Z) :=
  match conds with
  | [] => Ok data
  | c :: r =>
    let newOffset := u16 (offset + u16 (zlen c)) in
    if newOffset <? offset then Err "rewrite rule conditions contain too much data (can't exceed 65535 bytes)"
    else condition_ends r newOffset (AppendUint16LE data newOffset)
  end.
(** font_builder.go:493-513 *)
Definition build_conditions (b : builder) (data : list Z) : outcome (list Z) :=
  if zlen (b_conditions b) >? 254 then Panic else
  let data := data ++ [u8 (zlen (b_conditions b))] in
  do data <- condition_ends (b_conditions b) 0 data;
  Ok (append_all (b_conditions b) data).

(** font_builder_rewrite_sets.go:19-21 *)
Definition set_GetSize (s : bset) : Z :=
  u32 (2 + Z.shiftl (zlen (bs_ranges s)) 1 + zlen (bs_ranges s) + Z.shiftl (zlen (bs_list s)) 1).
Definition look_err (lookup : list (Z * Z)) (msg : string) (uid : Z) : outcome Z :=
  match m_get Z.eqb lookup uid with Some i => Ok i | None => Err msg end.
(** font_builder_rewrite_sets.go:29-48 *)
Definition append_range (lookup : list (Z * Z)) (data : list Z) (r : Z * Z) : outcome (list Z) :=
  do glyphIndex <- look_err lookup "rewrite glyph set range contains invalid glyph UID" (fst r);
  if fst r =? snd r then Ok (AppendUint16LE data glyphIndex ++ [0])
  else
    do toIndex <- look_err lookup "rewrite glyph set range contains invalid glyph UID" (snd r);
    if toIndex <? glyphIndex then Err "rewrite glyph set range start and end points are reversed" else
    let rangeLen := u16 (toIndex - glyphIndex) in
    if rangeLen >? 255 then Err "rewrite glyph set range can't exceed length 255"
    else Ok (AppendUint16LE data glyphIndex ++ [u8 rangeLen]).
(** font_builder_rewrite_sets.go:23-59 *)
Definition set_AppendTo (lookup : list (Z * Z)) (s : bset) (data : list Z) : outcome (list Z) :=
  if zlen (bs_ranges s) >=? 255 then Panic else
  if zlen (bs_list s) >=? 255 then Panic else
  do data <- ofold (append_range lookup) (bs_ranges s) (data ++ [u8 (zlen (bs_ranges s))]);
  ofold (fun data uid => do i <- look_err lookup "rewrite glyph set list contains invalid glyph UID" uid;
           Ok (AppendUint16LE data i)) (bs_list s) (data ++ [u8 (zlen (bs_list s))]).
(** font_builder.go:516-522 *)
Definition build_utf8_sets (b : builder) (data : list Z) : outcome (list Z) :=
  if zlen (match b_runeSets b with Some m => m | None => [] end) >? 0 then Panic else Ok (data ++ [0]).
(** font_builder.go:534-543; glyphSetsMap is [index_lookup] with uint8 below *)
Fixpoint set_ends (b : builder) (uids : list Z) (offset : Z) (data : list Z) : outcome (list Z) :=
  match uids with
  | [] => Ok data
  | uid :: r =>
    match m_get Z.eqb (b_glyphSets b) uid with
    | None => Panic
    | Some s =>
      let offset := u32 (offset + set_GetSize s) in
      if offset >? 65535 then Err "rewrite glyph sets contain too much data (can't exceed 65535 bytes)"
      else set_ends b r offset (AppendUint16LE data (u16 offset))
    end
  end.
(** font_builder.go:529, 535 *)
Fixpoint sets_lookup (i : Z) (uids : list Z) (m : list (Z * Z)) : list (Z * Z) :=
  match uids with [] => m | uid :: r => sets_lookup (i + 1) r (m_set Z.eqb m uid (u8 i)) end.
(** font_builder.go:524-551; gives glyphSetsMap as well *)
Definition build_glyph_sets (b : builder) (lookup : list (Z * Z)) (data : list Z) : outcome (list (Z * Z) * list Z) :=
  if zlen (b_glyphSets b) >? 255 then Panic else
  if negb (zlen (b_glyphSets b) =? zlen (b_setsOrder b)) then Panic else
  let data := data ++ [u8 (zlen (b_glyphSets b))] in
  if zlen (b_glyphSets b) >? 0 then
    do data <- set_ends b (b_setsOrder b) 0 data;
    do data <- ofold (fun data uid => match m_get Z.eqb (b_glyphSets b) uid with
                 | Some s => set_AppendTo lookup s data
                 | None => set_AppendTo lookup (mkBSet [] []) data end) (b_setsOrder b) data;
    Ok (sets_lookup 0 (b_setsOrder b) [], data)
  else Ok ([], data).

(** ** Rewrite rules. The two kinds of rules are encoded by the same code, up to how an element is
    appended ([elem]) and the error messages. *)
(** font_builder_rewrite_rules.go:96-110 and 199-211; groups and elements are never both empty *)
Definition appendAccumulatedInBlock (elem : list Z -> Z -> outcome (list Z)) (groupLookup : list (Z * Z))
    (groups elements : list Z) (data : list Z) : outcome (list Z) :=
  let data := data ++ [Z.lor (u8 (Z.shiftl (u8 (zlen groups)) 4)) (u8 (zlen elements))] in
  do data <- ofold (fun data uid => do g <- look_err groupLookup "rewrite rule input sequence is using an undefined group" uid;
                      Ok (data ++ [g])) groups data;
  ofold elem elements data.
(** the variables of font_builder_rewrite_rules.go:39-41 and 142-144 and the data *)
Record rstate := mkRS { rs_data : list Z; rs_in : Z; rs_groups : Z; rs_list : Z; rs_accGroups : Z; rs_accElems : Z }.
(** font_builder_rewrite_rules.go:54-60 and its repetitions *)
Definition flush (elem : list Z -> Z -> outcome (list Z)) (groupLookup : list (Z * Z)) (r : brule) (s : rstate) : outcome rstate :=
  do groups <- zslice (br_groups r) (rs_groups s) (rs_groups s + rs_accGroups s);
  do elems <- zslice (br_elems r) (rs_list s) (rs_list s + rs_accElems s);
  do data <- appendAccumulatedInBlock elem groupLookup groups elems (rs_data s);
  Ok (mkRS data (rs_in s) (rs_groups s + rs_accGroups s) (rs_list s + rs_accElems s) 0 0).
(** font_builder_rewrite_rules.go:49-77; [has] is blockHasFragment *)
Fixpoint block_elems (n : nat) (elem : list Z -> Z -> outcome (list Z)) (groupLookup : list (Z * Z)) (r : brule)
    (s : rstate) (has : bool) : outcome (rstate * bool) :=
  match n with
  | O => Ok (s, has)
  | S n' =>
    do isGroup <- bl_Get (br_areGroups r) (rs_in s);
    if (isGroup : bool) then
      do ' (s, has) <- (if negb (rs_accElems s =? 0) || (rs_accGroups s =? 15)
                        then do s <- flush elem groupLookup r s; Ok (s, true) else Ok (s, has));
      block_elems n' elem groupLookup r
        (mkRS (rs_data s) (rs_in s + 1) (rs_groups s) (rs_list s) (rs_accGroups s + 1) (rs_accElems s)) has
    else
      do ' (s, has) <- (if rs_accElems s =? 15
                        then do s <- flush elem groupLookup r s; Ok (s, true) else Ok (s, has));
      block_elems n' elem groupLookup r
        (mkRS (rs_data s) (rs_in s + 1) (rs_groups s) (rs_list s) (rs_accGroups s) (rs_accElems s + 1)) has
  end.
(** font_builder_rewrite_rules.go:45-91 *)
Definition append_block (elem : list Z -> Z -> outcome (list Z)) (groupLookup : list (Z * Z)) (r : brule)
    (s : rstate) (blockSize : Z) : outcome rstate :=
  do ' (s, has) <- block_elems (Z.to_nat blockSize) elem groupLookup r s false;
  if (rs_accGroups s >? 0) || (rs_accElems s >? 0) then flush elem groupLookup r s
  else if negb has then Ok (mkRS (rs_data s ++ [0]) (rs_in s) (rs_groups s) (rs_list s) (rs_accGroups s) (rs_accElems s))
  else Ok s.
(** font_builder_rewrite_rules.go:20-94 and 125-197 *)
Definition rule_AppendTo (elem : list Z -> Z -> outcome (list Z)) (groupLookup : list (Z * Z)) (r : brule) (data : list Z)
  : outcome (list Z) :=
  if zlen (br_output r) >? 255 then Panic else
  if br_bodyLen r =? 0 then Panic else
  if negb (zlen (br_elems r) + zlen (br_groups r) =? br_headLen r + br_bodyLen r + br_tailLen r) then Panic else
  let data := data ++ [br_condition r; br_headLen r; br_bodyLen r; br_tailLen r; u8 (zlen (br_output r))] in
  do data <- ofold elem (br_output r) data;
  do s <- ofold (append_block elem groupLookup r) [br_headLen r; br_bodyLen r; br_tailLen r] (mkRS data 0 0 0 0 0);
  Ok (rs_data s).
(** glyph rules append the index of the glyph, utf8 rules the code point *)
Definition glyph_elem (lookup : list (Z * Z)) (data : list Z) (uid : Z) : outcome (list Z) :=
  do i <- look_err lookup "glyph rewrite rule is using an undefined glyph" uid; Ok (AppendUint16LE data i).
Definition rune_elem (data : list Z) (codePoint : Z) : outcome (list Z) := Ok (AppendUint32LE data (u32 codePoint)).
(** font_builder.go:564-574 and 588-598; the state is the data and i *)
Definition build_rule (elem : list Z -> Z -> outcome (list Z)) (groupLookup : list (Z * Z)) (off base : Z) (msg : string)
    (st : list Z * Z) (r : brule) : outcome (list Z * Z) :=
  let '(data, i) := st in
  do data <- rule_AppendTo elem groupLookup r data;
  let offset := u32 (zlen data - base) in
  if offset >? 16777215 then Err msg else
  do data <- patch24 data (u32 (off + 2 + u32 i * 3)) offset;
  Ok (data, i + 1).
(** font_builder.go:554-575 and 578-599; [off] is the offset of the section *)
Definition build_rules (elem : list Z -> Z -> outcome (list Z)) (groupLookup : list (Z * Z)) (msg : string)
    (rules : list brule) (data : list Z) : outcome (list Z) :=
  if zlen rules >? 65535 then Panic else
  let off := u32 (zlen data) in
  let num := u16 (zlen rules) in
  let data := AppendUint16LE data num in
  let data := data ++ repeat 0 (Z.to_nat (num * 3)) in
  do ' (data, _) <- ofold (build_rule elem groupLookup off (zlen data) msg) rules (data, 0);
  Ok data.

(** ** Kernings *)
(** font_builder.go:607-613 *)
Definition pair_code (lookup : list (Z * Z)) (e : Z * Z * kpair) : outcome Z :=
  do i1 <- look lookup (fst (fst e));
  do i2 <- look lookup (snd (fst e));
  Ok (Z.lor (u32 (Z.shiftl i1 16)) i2).
(** font_builder.go:616-620; prevPair stays 0 *)
Fixpoint append_pairs (pairs : list Z) (first : bool) (data : list Z) : outcome (list Z) :=
  match pairs with
  | [] => Ok data
  | p :: r => if (u32 p =? 0) && negb first then Panic else append_pairs r false (AppendUint32LE data (u32 p))
  end.
(** font_builder.go:621-633 and 652-663; both look the pair up among the horizontal ones *)
Definition append_value (b : builder) (data : list Z) (pair : Z) : outcome (list Z) :=
  do uid1 <- zget (b_order b) (u16 (Z.shiftr pair 16));
  do uid2 <- zget (b_order b) (u16 pair);
  match m_get pair_eqb (b_horz b) (uid1, uid2) with
  | None => Panic
  | Some k =>
    if kp_Class k =? 0 then Ok (data ++ [u8 (kp_Value k)])
    else do v <- zget (b_classes b) (kp_Class k - 1); Ok (data ++ [u8 v])
  end.
(** font_builder.go:605-633 and 636-663; [n] numbers the range statement *)
Definition build_kernings (o : order) (n : nat) (b : builder) (lookup : list (Z * Z)) (pairs : list (Z * Z * kpair)) (data : list Z)
  : outcome (list Z) :=
  let data := AppendUint24LE data (u32 (zlen pairs)) in
  do codes <- omap (pair_code lookup) (o n _ pairs);
  let codes := go_sort Z.leb codes in
  do data <- append_pairs codes true data;
  ofold (append_value b) codes data.

(** font_builder.go:239-245 *)
Definition main_dye (b : builder) : builder * outcome unit :=
  if zlen (b_dyes b) + zlen (b_palettes b) >? 255 then (b, Panic)
  else if zlen (b_dyes b) + zlen (b_palettes b) =? 0 then AddDye b (str_bytes "main") [255]
  else (b, Ok tt).
(** font_builder.go:247-670, after the main dye has been added *)
Definition build_sections (o : order) (sort : list fragment -> list fragment) (b : builder) (om : Z) (data : list Z) : outcome Font :=
  let lookup := index_lookup 0 (b_order b) [] in
  let od := u32 (zlen data) in
  do data <- build_dyes b data;
  let op := u32 (zlen data) in
  do data <- build_palettes b data;
  let ogn := u32 (zlen data) in
  do data <- build_glyph_names b lookup data;
  let ogm := u32 (zlen data) in
  do data <- build_masks sort b data;
  let ow := u32 (zlen data) in
  do ' (builtin, words, data) <- build_words o b data;
  let osn := u32 (zlen data) in
  do ' (defs, data) <- build_settings b builtin words data;
  let osd := u32 (zlen defs) in
  let osw := u32 (zlen data) in
  do data <- build_switches b data;
  let omp := u32 (zlen data) in
  do data <- build_mapping o b lookup data;
  let oc := u32 (zlen data) in
  do data <- build_conditions b data;
  let ous := u32 (zlen data) in
  do data <- build_utf8_sets b data;
  let ogs := u32 (zlen data) in
  do ' (groupLookup, data) <- build_glyph_sets b lookup data;
  let our := u32 (zlen data) in
  do data <- build_rules rune_elem [] "utf8 rewrite rules exceed maximum allowed size of 16MiB" (b_utf8Rules b) data;
  let ogr := u32 (zlen data) in
  do data <- build_rules (glyph_elem lookup) groupLookup "glyph rewrite rules exceed maximum allowed size of 16MiB" (b_glyphRules b) data;
  if zlen (b_horz b) >? 16777215 then Panic else
  if zlen (b_vert b) >? 16777215 then Panic else
  let ohk := u32 (zlen data) in
  do data <- build_kernings o 5 b lookup (b_horz b) data;
  let ovk := u32 (zlen data) in
  do data <- build_kernings o 6 b lookup (b_vert b) data;
  if zlen data >? MaxFontDataSize then Err "font data exceeds maximum size" else
  Ok (mkFont data om od op ogn ogm ow osn osd osw omp oc ous ogs our ogr ohk ovk).
(** font_builder.go:179-671; [sort] is sort.Slice in the mask encoder *)
Definition Build (o : order) (sort : list fragment -> list fragment) (b : builder) : builder * outcome Font :=
  if zlen (b_glyphs b) >? MaxGlyphs then (b, Panic)
  else if negb (zlen (b_glyphs b) =? zlen (b_order b)) then (b, Panic)
  else if zlen (b_glyphs b) =? 0 then (b, Err "can't build font with no glyphs")
  else match build_header b with
  | Ok data =>
    match GetMetricsStatus b with
    | Ok _ =>
      let om := u32 (zlen data) in
      let data := build_metrics b data in
      match main_dye b with
      | (b', Ok _) => (b', build_sections o sort b' om data)
      | (b', Err m) => (b', Err m) | (b', Panic) => (b', Panic) | (b', Hang) => (b', Hang)
      end
    | Err m => (b, Err m) | Panic => (b, Panic) | Hang => (b, Hang)
    end
  | Err m => (b, Err m) | Panic => (b, Panic) | Hang => (b, Hang)
  end.

(** ** Histories: the calls of the public API that change a builder, with their arguments *)
Inductive bop :=
| OAddDye (name alphas : list Z) | OAddPalette (name : list Z) (colors : list rgba)
| OAddSetting (name : list Z) (options : list (list Z)) | OAddSwitch (settings : list Z)
| OMap (codePoint uid : Z) | OMapGroup (codePoint flags : Z) (uids : list Z)
| OMapWithSwitchSingles (codePoint switch : Z) (uids : list Z)
| OMapWithSwitch (codePoint switch : Z) (uids : list (list Z)) (flags : list Z)
| OSetFirstVerDate (d : Date) | OSetMajorVerDate (d : Date) | OSetMinorVerDate (d : Date)
| ORaiseMajorVersion (now : Date) | ORaiseMinorVersion (now : Date) | OSetVersion (major minor : Z) (now : Date)
| OSetName (s : list Z) | OSetFamily (s : list Z) | OSetAuthor (s : list Z) | OSetAbout (s : list Z)
| OSetMetric (k : metric) (v : Z) | OSetVertLayoutUsed (used : bool)
| OAddGlyph (mask : alpha) (random : list Z) | OSetGlyphPlacement (uid : Z) (p : GlyphPlacement)
| OSetGlyphName (uid : Z) (name : list Z) | OSetKerningPair (prev next kerning : Z)
| OCreateGlyphSet (random : list Z) | ORemoveGlyphSet (uid : Z)
| OAddGlyphSetRange (uid first last : Z) | ORemoveGlyphSetRange (uid first last : Z)
| OAddGlyphSetListGlyph (uid g : Z) | ORemoveGlyphSetListGlyph (uid g : Z)
| OCreateRuneSet (random : list Z) | ORemoveRuneSet (uid : Z)
| OAddRuneSetRange (uid first last : Z) | ORemoveRuneSetRange (uid first last : Z)
| OAddRuneSetListRune (uid c : Z) | ORemoveRuneSetListRune (uid c : Z)
| OAddSimpleUtf8RewriteRule (replacement : Z) (sequence : list Z)
| OAddGlyphRewriteRule (headLen bodyLen tailLen : Z) (input out : list Z)
| OBuild (o : order) (sort : list fragment -> list fragment).
Definition bstep (b : builder) (op : bop) : builder :=
  match op with
  | OAddDye n a => fst (AddDye b n a) | OAddPalette n c => fst (AddPalette b n c)
  | OAddSetting n o => fst (AddSetting b n o) | OAddSwitch s => fst (AddSwitch b s)
  | OMap c u => fst (Map b c u) | OMapGroup c f u => fst (MapGroup b c f u)
  | OMapWithSwitchSingles c s u => fst (MapWithSwitchSingles b c s u)
  | OMapWithSwitch c s u f => fst (MapWithSwitch b c s u f)
  | OSetFirstVerDate d => fst (SetFirstVerDate b d) | OSetMajorVerDate d => fst (SetMajorVerDate b d)
  | OSetMinorVerDate d => fst (SetMinorVerDate b d)
  | ORaiseMajorVersion d => RaiseMajorVersion b d | ORaiseMinorVersion d => RaiseMinorVersion b d
  | OSetVersion x y d => SetVersion b x y d
  | OSetName s => fst (SetName b s) | OSetFamily s => fst (SetFamily b s)
  | OSetAuthor s => fst (SetAuthor b s) | OSetAbout s => fst (SetAbout b s)
  | OSetMetric k v => fst (SetMetric b k v) | OSetVertLayoutUsed u => SetVertLayoutUsed b u
  | OAddGlyph m r => fst (AddGlyph b m r) | OSetGlyphPlacement u p => fst (SetGlyphPlacement b u p)
  | OSetGlyphName u n => fst (SetGlyphName b u n) | OSetKerningPair p n k => SetKerningPair b p n k
  | OCreateGlyphSet r => fst (CreateGlyphSet b r) | ORemoveGlyphSet u => fst (RemoveGlyphSet b u)
  | OAddGlyphSetRange u x y => fst (AddGlyphSetRange b u x y) | ORemoveGlyphSetRange u x y => fst (RemoveGlyphSetRange b u x y)
  | OAddGlyphSetListGlyph u g => fst (AddGlyphSetListGlyph b u g)
  | ORemoveGlyphSetListGlyph u g => fst (RemoveGlyphSetListGlyph b u g)
  | OCreateRuneSet r => fst (CreateRuneSet b r) | ORemoveRuneSet u => fst (RemoveRuneSet b u)
  | OAddRuneSetRange u x y => fst (AddRuneSetRange b u x y) | ORemoveRuneSetRange u x y => fst (RemoveRuneSetRange b u x y)
  | OAddRuneSetListRune u c => fst (AddRuneSetListRune b u c) | ORemoveRuneSetListRune u c => fst (RemoveRuneSetListRune b u c)
  | OAddSimpleUtf8RewriteRule r s => fst (AddSimpleUtf8RewriteRule b r s)
  | OAddGlyphRewriteRule h bo t i o => fst (AddGlyphRewriteRule b h bo t i o)
  | OBuild o sort => fst (Build o sort b)
  end.
Definition history (id : Z) (date : Date) (ops : list bop) : builder := fold_left bstep ops (New id date).
