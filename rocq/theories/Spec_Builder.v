(** What the builder should keep and produce. *)
From Coq Require Import Permutation.
From Verif Require Import Base Spec_Helpers Model_Helpers Spec_Names Model_Date Spec_Mask Spec_Format Spec_Layout Spec_LayoutFont Model_Font Model_Mask Model_Words Model_Builder.

(** ** Limits on colors, settings and switches (specification.md:132-157, 203-235) *)
Definition color_names (b : builder) : list (list Z) := map fst (b_dyes b) ++ map fst (b_palettes b).
Definition color_count (b : builder) : Z := zlen (concat (map snd (b_dyes b))) + zlen (concat (map snd (b_palettes b))).
Definition setting_names (b : builder) : list (list Z) := map fst (b_settings b).
(** different names and at most 255 color indices *)
Definition colors_ok (b : builder) : Prop := NoDup (color_names b) /\ color_count b <= 255.
(** the numbers of dyes and palettes are stored in a byte each *)
Definition color_sections_ok (b : builder) : Prop := zlen (b_dyes b) + zlen (b_palettes b) <= 255.
(** different names; at most 255 settings with at most 255 options *)
Definition settings_ok (b : builder) : Prop :=
  NoDup (setting_names b) /\ zlen (b_settings b) <= 255 /\
  Forall (fun s => loose_name (fst s) /\ Forall loose_name (snd s) /\ zlen (snd s) <= 255) (b_settings b).
(** at most 254 switches; each lists one or more different existing settings *)
Definition switches_ok (b : builder) : Prop :=
  zlen (b_switches b) <= 254 /\
  Forall (fun sw => sw <> [] /\ NoDup sw /\ Forall (fun s => 0 <= s < zlen (b_settings b)) sw) (b_switches b).
(** when a setting or a switch may be added *)
Definition setting_acceptable (b : builder) (name : list Z) (options : list (list Z)) : Prop :=
  loose_name name /\ Forall loose_name options /\ zlen options <= 255 /\ zlen (b_settings b) < 255 /\ ~ In name (setting_names b).
Definition switch_acceptable (b : builder) (l : list Z) : Prop :=
  1 <= zlen l <= 255 /\ zlen (b_switches b) < 254 /\ NoDup l /\ Forall (fun s => s < zlen (b_settings b)) l.

(** ** Arguments within the ranges of their Go types *)
Definition uint64 (x : Z) : Prop := 0 <= x < 2 ^ 64.
Definition int32 (x : Z) : Prop := - 2 ^ 31 <= x < 2 ^ 31.
Definition date_typed (d : Date) : Prop := 0 <= Year d < 65536 /\ byte (Month d) /\ byte (Day d).
Definition color_typed (c : rgba) : Prop := let '(r, g, bl, a) := c in byte r /\ byte g /\ byte bl /\ byte a.
Definition placement_typed (p : GlyphPlacement) : Prop :=
  byte (gp_Advance p) /\ byte (gp_TopAdvance p) /\ byte (gp_BottomAdvance p) /\ byte (gp_HorzCenter p).
(** the ranges over maps visit every entry once *)
Definition perm_order (o : order) : Prop := forall n A (l : list A), Permutation (o n A l) l.
Definition op_typed (op : bop) : Prop :=
  match op with
  | OAddDye n a => bytes n /\ bytes a
  | OAddPalette n c => bytes n /\ Forall color_typed c
  | OAddSetting n o => bytes n /\ Forall bytes o
  | OAddSwitch s => bytes s
  | OMap c u => int32 c /\ uint64 u
  | OMapGroup c f u => int32 c /\ byte f /\ Forall uint64 u
  | OMapWithSwitchSingles c s u => int32 c /\ byte s /\ Forall uint64 u
  | OMapWithSwitch c s u f => int32 c /\ byte s /\ Forall (Forall uint64) u /\ bytes f
  | OSetFirstVerDate d | OSetMajorVerDate d | OSetMinorVerDate d | ORaiseMajorVersion d | ORaiseMinorVersion d => date_typed d
  | OSetVersion x y d => 0 <= x < 65536 /\ 0 <= y < 65536 /\ date_typed d
  | OSetName s | OSetFamily s | OSetAuthor s | OSetAbout s => bytes s
  | OSetMetric _ v => byte v
  | OSetVertLayoutUsed _ => True
  | OAddGlyph m r => alpha_ok m /\ int_rect (Rect m) /\ Forall uint64 r
  | OSetGlyphPlacement u p => uint64 u /\ placement_typed p
  | OSetGlyphName u n => uint64 u /\ bytes n
  | OSetKerningPair p n k => uint64 p /\ uint64 n /\ -128 <= k < 128
  | OCreateGlyphSet r | OCreateRuneSet r => Forall uint64 r
  | ORemoveGlyphSet u | ORemoveRuneSet u => uint64 u
  | OAddGlyphSetRange u x y | ORemoveGlyphSetRange u x y => uint64 u /\ uint64 x /\ uint64 y
  | OAddGlyphSetListGlyph u g | ORemoveGlyphSetListGlyph u g => uint64 u /\ uint64 g
  | OAddRuneSetRange u x y | ORemoveRuneSetRange u x y => uint64 u /\ int32 x /\ int32 y
  | OAddRuneSetListRune u c | ORemoveRuneSetListRune u c => uint64 u /\ int32 c
  | OAddSimpleUtf8RewriteRule r s => int32 r /\ Forall int32 s
  | OAddGlyphRewriteRule h bo t i o => byte h /\ byte bo /\ byte t /\ Forall uint64 i /\ Forall uint64 o
  | OBuild o _ => perm_order o
  end.

(** ** What the font built from a builder contains

    [describes b l]: the layout [l] is a faithful description of the builder [b]. Glyphs and
    sets are named by UIDs in the builder and by their positions in the font. *)
Section Describes.
  Variable b : builder.
  (** glyph [uid] has index [i] in the font *)
  Definition indexed_as (uid i : Z) : Prop := zget (b_order b) i = Ok uid.
  Definition set_indexed_as (uid i : Z) : Prop := zget (b_setsOrder b) i = Ok uid.

  Definition ymd (d : Date) : Z * Z * Z := (Year d, Month d, Day d).
  Definition header_described (h : header_fields) : Prop := let bh := b_header b in
    h = mkHeader 2 (bh_ID bh) (bh_major bh) (bh_minor bh) (ymd (bh_firstDate bh)) (ymd (bh_majorDate bh))
          (ymd (bh_minorDate bh)) (bh_name bh) (bh_family bh) (bh_author bh) (bh_about bh).
  Definition metrics_described (m : metrics_fields) : Prop := let bm := b_metrics b in
    m = mkMetrics (zlen (b_order b)) (bm_vert bm) (bm_mono bm) (bm_ascent bm) (bm_extraAscent bm) (bm_descent bm)
          (bm_extraDescent bm) (bm_uppercase bm) (bm_midline bm) (bm_horz bm) (bm_vertSpacing bm) (bm_lineGap bm)
          (bm_vertLineWidth bm) (bm_vertLineGap bm).
  (** exactly the named glyphs, in the order of their names *)
  Definition names_described (l : list (list Z * Z)) : Prop :=
    ordered lex_lt (map fst l) /\
    forall name i, In (name, i) l <->
      name <> [] /\ exists uid gd, indexed_as uid i /\ In (uid, gd) (b_glyphs b) /\ gd_Name gd = name.
  (** the operations draw the mask *)
  Definition draws (ops : list Z) (m : alpha) : Prop := bytes ops /\
    ((Rasterize ops = Ok None /\ forall x y, pixel m x y = 0) \/
     (exists m', Rasterize ops = Ok (Some m') /\ forall x y, pixel m' x y = pixel m x y)).
  Definition glyph_described (uid : Z) (g : glyph) : Prop :=
    exists gd, In (uid, gd) (b_glyphs b) /\
      fst g = mkPl (gp_Advance (gd_Placement gd)) (gp_TopAdvance (gd_Placement gd))
                (gp_BottomAdvance (gd_Placement gd)) (gp_HorzCenter (gd_Placement gd)) /\
      draws (snd g) (gd_Mask gd).
  (** [words] assigns indices to words; the other options are predefined words *)
  Definition option_described (words : list (list Z * Z)) (opt : list Z) (i : Z) : Prop :=
    In (opt, i) words \/ (~ In opt (map fst words) /\ zlen words <= i < 256 /\ GetPredefinedWord i = Ok opt).
  Definition setting_described (words : list (list Z * Z)) (s : list Z * list (list Z)) (t : setting) : Prop :=
    fst t = fst s /\ Forall2 (option_described words) (snd s) (snd t).
  (** the lengths of the stored words come from one ordering of the words, their bytes from another *)
  Definition words_described (words : list (list Z * Z)) (l : list (list Z)) : Prop :=
    NoDup (map fst words) /\ Permutation (map snd words) (zseq (zlen words)) /\
    exists lens txts, Permutation lens words /\ Permutation txts words /\
      map zlen l = map (fun e => zlen (fst e)) lens /\ concat l = concat (map fst txts).
  (** the glyphs of a group in increasing order of their indices *)
  Definition group_described (c : mappingGroup) (g : group) : Prop :=
    1 <= zlen (mg_Glyphs c) <= 128 /\ ordered Z.le (group_glyphs g) /\
    (exists idxs, Forall2 indexed_as (mg_Glyphs c) idxs /\ Permutation (group_glyphs g) idxs) /\
    (zlen (mg_Glyphs c) <> 1 -> group_flags g = mg_Flags c) /\
    (* consecutive glyphs are stored as a range *)
    (forall x, 1 < zlen (mg_Glyphs c) -> group_glyphs g = map (fun i => x + i) (zseq (zlen (mg_Glyphs c))) ->
       g = GRange (mg_Flags c) x (zlen (mg_Glyphs c))).
  Definition entry_described (me : mappingEntry) (e : entry) : Prop :=
    match e with
    | EGlyph i => me_Switch me = 255 /\ exists uid fl, me_Cases me = [mkMapGroup [uid] fl] /\ indexed_as uid i
    | EGroup g => me_Switch me = 254 /\ exists c, me_Cases me = [c] /\ 1 < zlen (mg_Glyphs c) /\ group_described c g
    | ESwitch k gs => me_Switch me = k /\ k <> 254 /\ k <> 255 /\ Forall2 group_described (me_Cases me) gs
    end.
  Definition mapping_described (l : list (Z * entry)) : Prop :=
    ordered Z.lt (map fst l) /\
    exists m, Permutation m (b_mapping b) /\
      Forall2 (fun x y => fst x = fst y /\ entry_described (snd x) (snd y)) m l.
  Definition set_described (s : bset) (t : rewrite_set) : Prop :=
    Forall2 (fun r x => indexed_as (fst r) (fst x) /\ indexed_as (snd r) (fst x + snd x) /\ byte (snd x))
      (bs_ranges s) (set_ranges t) /\
    Forall2 indexed_as (bs_list s) (set_elements t).
  Definition glyph_sets_described (l : list rewrite_set) : Prop :=
    Forall2 (fun uid t => exists s, In (uid, s) (b_glyphSets b) /\ set_described s t) (b_setsOrder b) l.
  (** The input of a rule, in order: sets and elements. In the builder they are kept in two
      lists with a list of flags. *)
  Definition rule_input (r : brule) (input : list (bool * Z)) : Prop :=
    br_groups r = map snd (filter fst input) /\ br_elems r = map snd (filter (fun x => negb (fst x)) input) /\
    forall i g x, zget input i = Ok (g, x) -> bl_Get (br_areGroups r) i = Ok g.
  Definition flat (block : list (list Z * list Z)) : list (bool * Z) :=
    concat (map (fun f => map (pair true) (fst f) ++ map (pair false) (snd f)) block).
  Definition rule_described (elem : Z -> Z -> Prop) (r : brule) (t : rewrite_rule) : Prop :=
    rule_condition t = br_condition r /\
    block_length (rule_head t) = br_headLen r /\ block_length (rule_body t) = br_bodyLen r /\
    block_length (rule_tail t) = br_tailLen r /\
    Forall2 elem (br_output r) (rule_out t) /\
    (exists input, rule_input r input /\
      Forall2 (fun (x y : bool * Z) => fst x = fst y /\ if fst x then set_indexed_as (snd x) (snd y) else elem (snd x) (snd y))
        input (flat (rule_head t) ++ flat (rule_body t) ++ flat (rule_tail t))) /\
    Forall (fun f => zlen (fst f) <= 15 /\ zlen (snd f) <= 15) (rule_head t ++ rule_body t ++ rule_tail t).
  (** the value of a pair: its own or that of its class *)
  Definition kerning_value (k : kpair) (v : Z) : Prop :=
    (kp_Class k = 0 /\ v = kp_Value k) \/ (kp_Class k <> 0 /\ zget (b_classes b) (kp_Class k - 1) = Ok v).
  (** all pairs in increasing order, each with a value taken from the pairs [from] *)
  Definition kerning_described (pairs from : list (Z * Z * kpair)) (l : list kerning_pair) : Prop :=
    ordered Z.lt (map pair_key l) /\
    exists p, Permutation p pairs /\
      Forall2 (fun x y => let '(prev, curr, v) := y in
                 indexed_as (fst (fst x)) prev /\ indexed_as (snd (fst x)) curr /\
                 exists k, In (fst x, k) from /\ kerning_value k v) p l.

  Record describes (l : layout) : Prop := {
    ds_header : header_described (l_header l);
    ds_metrics : metrics_described (l_metrics l);
    ds_dyes : l_dyes l = b_dyes b;
    ds_palettes : l_palettes l = b_palettes b;
    ds_names : names_described (l_names l);
    ds_glyphs : Forall2 glyph_described (b_order b) (l_glyphs l);
    ds_settings : exists words, words_described words (l_words l) /\
      Forall2 (setting_described words) (b_settings b) (l_settings l);
    ds_switches : l_switches l = b_switches b;
    ds_mapping : mapping_described (l_mapping l);
    ds_conditions : map condition_bytes (l_conditions l) = b_conditions b;
    ds_utf8_sets : l_utf8_sets l = [];
    ds_glyph_sets : glyph_sets_described (l_glyph_sets l);
    ds_utf8_rules : Forall2 (rule_described (fun c x => x = c mod 2 ^ 32)) (b_utf8Rules b) (l_utf8_rules l);
    ds_glyph_rules : Forall2 (rule_described indexed_as) (b_glyphRules b) (l_glyph_rules l);
    (* the code takes the values of the vertical pairs from the horizontal ones *)
    ds_horz : kerning_described (b_horz b) (b_horz b) (l_horz l);
    ds_vert : kerning_described (b_vert b) (b_horz b) (l_vert l) }.
End Describes.
