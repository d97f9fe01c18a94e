From Verif Require Import Base BaseFacts Spec_Helpers Model_Helpers Proofs_Helpers Model_Words Model_Font Model_Rewrites Model_Parse Spec_Parse Spec_Parsed.
From Verif Require Import Proofs_Parse Proofs_Parse2 Proofs_Flat Proofs_Parsed Proofs_Parsed2.

Lemma omap_some {A B} (g : A -> outcome B) l : (forall x, In x l -> exists y, g x = Ok y) -> exists r, omap g l = Ok r /\ zlen r = zlen l.
Proof.
  induction l as [|x r IH]; intros H; [exists []; auto|]. cbn [omap]. destruct (H x (or_introl eq_refl)) as (y & ->). destruct IH as (r' & E & L); [intros; apply H; now right|].
  cbn [bind]. rewrite E. cbn [bind]. exists (y :: r'). split; [reflexivity|]. unfold zlen in *. cbn [length]. lia.
Qed.

Section Font.
  Variable f : Font.
  Hypothesis HF : parsed f.
  Let d := Data f.
  Let HD : bytes d := proj1 (parsed_frames f HF).
  Let FR : frames d f := proj2 (parsed_frames f HF).

  Lemma one_range off n k : 0 <= off -> 0 <= k < n -> off + 1 + n <= zlen d -> color_range d off n k =
    if start_of 1 d (off + 1) k <? end_of 1 d (off + 1) k then Ok (start_of 1 d (off + 1) k, end_of 1 d (off + 1) k) else Panic.
  Proof.
    intros H0 Hk HL. unfold color_range. destruct (Z.geb_spec k n); [lia|]. rewrite get_num by lia. cbn [bind].
    assert (A : (if k >? 0 then zget d (off + k) else Ok 0) = Ok (start_of 1 d (off + 1) k)).
    { unfold start_of. destruct (Z.gtb_spec k 0), (Z.eqb_spec k 0); try lia; [|reflexivity]. rewrite get_num by lia. unfold end_of. change (Z.of_nat 1) with 1. do 2 f_equal. lia. }
    rewrite A. cbn [bind]. unfold end_of at 1. change (Z.of_nat 1) with 1. replace (off + 1 + 1 * k) with (off + 1 + k) by lia.
    replace (num 1 d (off + 1 + k)) with (end_of 1 d (off + 1) k) by (unfold end_of; f_equal; change (Z.of_nat 1) with 1; lia).
    destruct (Z.geb_spec (start_of 1 d (off + 1) k) (end_of 1 d (off + 1) k)), (Z.ltb_spec (start_of 1 d (off + 1) k) (end_of 1 d (off + 1) k)); try lia; reflexivity.
  Qed.

  Lemma dye_alphas k : 0 <= k < dye_count f -> color_NumDyeAlphas f k =
    let n := end_of 1 d (dye_table f) k - start_of 1 d (dye_table f) k in if 0 <? n then Ok n else Panic.
  Proof.
    intros Hk. destruct (numbers f HF) as (N1 & _). unfold color_NumDyeAlphas. rewrite N1. cbn [bind].
    pose proof (fr_dyes _ _ FR) as (A0 & A1 & A2 & A3 & A4 & A5). rewrite !byte_num in *. change (num 1 d (OffsetToDyes f)) with (dye_count f) in *.
    fold d. rewrite one_range by lia. fold (dye_table f). cbv zeta.
    destruct (Z.ltb_spec (start_of 1 d (dye_table f) k) (end_of 1 d (dye_table f) k)), (Z.ltb_spec 0 (end_of 1 d (dye_table f) k - start_of 1 d (dye_table f) k)); try lia; reflexivity.
  Qed.
  Lemma palette_colors k : 0 <= k < palette_count f -> color_NumPaletteColors f k =
    let n := end_of 1 d (palette_table f) k - start_of 1 d (palette_table f) k in if 0 <? n then Ok n else Panic.
  Proof.
    intros Hk. destruct (numbers f HF) as (_ & N1 & _). unfold color_NumPaletteColors. rewrite N1. cbn [bind].
    pose proof (fr_palettes _ _ FR) as (A0 & A1 & A2 & A3 & A4 & A5). rewrite !byte_num in *. change (num 1 d (OffsetToPalettes f)) with (palette_count f) in *.
    fold d. rewrite one_range by lia. fold (palette_table f). cbv zeta.
    destruct (Z.ltb_spec (start_of 1 d (palette_table f) k) (end_of 1 d (palette_table f) k)), (Z.ltb_spec 0 (end_of 1 d (palette_table f) k - start_of 1 d (palette_table f) k)); try lia; reflexivity.
  Qed.
  Lemma each_alpha k : in_order 1 d (dye_table f) (dye_count f) k -> exists r, color_EachDyeAlpha f k = Ok r /\ zlen r = end_of 1 d (dye_table f) k - start_of 1 d (dye_table f) k.
  Proof.
    intros (Hk & S1 & S2). destruct (numbers f HF) as (N1 & _). unfold color_EachDyeAlpha. rewrite N1. cbn [bind].
    pose proof (fr_dyes _ _ FR) as (A0 & A1 & A2 & A3 & A4 & A5). rewrite !byte_num in *. change (num 1 d (OffsetToDyes f)) with (dye_count f) in *.
    fold d. rewrite one_range by lia. fold (dye_table f). pose proof (start_nonneg 1 d (dye_table f) k HD).
    assert (TE : dye_table f = OffsetToDyes f + 1) by reflexivity.
    assert (E : end_of 1 d (dye_table f) (dye_count f - 1) = num 1 d (OffsetToDyes f + dye_count f)) by (unfold end_of, dye_table; f_equal; change (Z.of_nat 1) with 1; lia).
    destruct (Z.ltb_spec (start_of 1 d (dye_table f) k) (end_of 1 d (dye_table f) k)); [|lia]. cbn [bind].
    match goal with |- exists r, omap ?g ?l = Ok r /\ _ => destruct (omap_some g l) as (r & R & RL) end.
    { intros x Hx. apply in_zseq in Hx. apply zget_in_range. lia. }
    exists r. split; [exact R|]. rewrite RL. apply zlen_zseq. lia.
  Qed.
  Lemma each_color k : in_order 1 d (palette_table f) (palette_count f) k -> exists r, color_EachPaletteColor f k = Ok r /\ zlen r = end_of 1 d (palette_table f) k - start_of 1 d (palette_table f) k.
  Proof.
    intros (Hk & S1 & S2). destruct (numbers f HF) as (_ & N1 & _). unfold color_EachPaletteColor. rewrite N1. cbn [bind].
    pose proof (fr_palettes _ _ FR) as (A0 & A1 & A2 & A3 & A4 & A5). rewrite !byte_num in *. change (num 1 d (OffsetToPalettes f)) with (palette_count f) in *.
    fold d. rewrite one_range by lia. fold (palette_table f). pose proof (start_nonneg 1 d (palette_table f) k HD).
    assert (TE : palette_table f = OffsetToPalettes f + 1) by reflexivity.
    assert (E : end_of 1 d (palette_table f) (palette_count f - 1) = num 1 d (OffsetToPalettes f + palette_count f)) by (unfold end_of, palette_table; f_equal; change (Z.of_nat 1) with 1; lia).
    destruct (Z.ltb_spec (start_of 1 d (palette_table f) k) (end_of 1 d (palette_table f) k)); [|lia]. cbn [bind].
    match goal with |- exists r, omap ?g ?l = Ok r /\ _ => destruct (omap_some g l) as (r & R & RL) end.
    { intros x Hx. apply in_zseq in Hx. rewrite shl2. unfold rgba_at. rewrite !get_num by lia. cbn [bind]. eauto. }
    exists r. split; [exact R|]. rewrite RL. apply zlen_zseq. lia.
  Qed.
  Lemma go_palette : rising 1 d (dye_table f) (dye_count f) -> rising 1 d (palette_table f) (palette_count f) -> exists r, color_GoColorPalette f = Ok r.
  Proof.
    intros R1 R2. destruct (numbers f HF) as (N1 & N2 & _ & _ & N3 & _). unfold color_GoColorPalette. rewrite N3. cbn [bind]. rewrite N1. cbn [bind].
    destruct (omap_some (color_EachDyeAlpha f) (zseq (dye_count f))) as (r1 & E1 & _).
    { intros x Hx. apply in_zseq in Hx. destruct (each_alpha x) as (y & Y & _); eauto. now apply rising_in_order. }
    rewrite E1. cbn [bind]. rewrite N2. cbn [bind].
    destruct (omap_some (color_EachPaletteColor f) (zseq (palette_count f))) as (r2 & E2 & _).
    { intros x Hx. apply in_zseq in Hx. destruct (each_color x) as (y & Y & _); eauto. now apply rising_in_order. }
    rewrite E2. cbn [bind]. eauto.
  Qed.

  (** *** glyphs *)
  Lemma mask_start k : 0 <= k < glyph_count f -> getGlyphDataStartOffset f k = Ok (start_of 3 d (mask_table f) k).
  Proof.
    intros Hk. pose proof (fr_masks _ _ FR) as (A0 & A1). pose proof A1 as (T0 & _ & T1 & _). change (Z.of_nat 3) with 3 in T1. change (le_at 2 d (OffsetToMetrics f)) with (glyph_count f) in *.
    unfold getGlyphDataStartOffset, start_of. destruct (Z.eqb_spec k 0); [reflexivity|]. cbv zeta. rewrite shl1. fold d.
    rewrite from3 by (auto; lia). unfold end_of, mask_table. change (Z.of_nat 3) with 3. do 2 f_equal. lia.
  Qed.
  Lemma advance k : 0 <= k < glyph_count f -> start_of 3 d (mask_table f) k < end_of 3 d (mask_table f) (glyph_count f - 1) ->
    glyphs_Advance f k = Ok (num 1 d (mask_table f + 3 * glyph_count f + start_of 3 d (mask_table f) k)).
  Proof.
    intros Hk Hs. pose proof (fr_masks _ _ FR) as (A0 & A1). pose proof A1 as (T0 & _ & T1 & _). change (Z.of_nat 3) with 3 in T1. change (le_at 2 d (OffsetToMetrics f)) with (glyph_count f) in *.
    pose proof (framed_end _ _ _ _ _ A1 ltac:(lia)) as [E1 E2]. change (Z.of_nat 3) with 3 in E1.
    destruct (numbers f HF) as (_ & _ & _ & _ & _ & N & _). unfold glyphs_Advance. rewrite N. cbn [bind]. destruct (Z.geb_spec k (glyph_count f)); [lia|].
    rewrite mask_start by lia. cbn [bind]. rewrite shl1. fold d. pose proof (start_nonneg 3 d (mask_table f) k HD). fold (mask_table f) in *.
    rewrite get_num by lia. do 2 f_equal. lia.
  Qed.
  Lemma vert_layout : exists v, glyphs_hasVertLayout f = Ok v.
  Proof. pose proof (fr_metrics _ _ FR) as (A & B). unfold glyphs_hasVertLayout, metrics_HasVertLayout. fold d. rewrite get_num by lia. cbn [bind]. eauto. Qed.
  Lemma placement k v : 0 <= k < glyph_count f -> glyphs_hasVertLayout f = Ok v ->
    start_of 3 d (mask_table f) k + (if v then 4 else 1) <= end_of 3 d (mask_table f) (glyph_count f - 1) -> exists p, glyphs_Placement f k = Ok p /\
    gp_Advance p = num 1 d (mask_table f + 3 * glyph_count f + start_of 3 d (mask_table f) k).
  Proof.
    intros Hk V Hs. pose proof (fr_masks _ _ FR) as (A0 & A1). pose proof A1 as (T0 & _ & T1 & _). change (Z.of_nat 3) with 3 in T1. change (le_at 2 d (OffsetToMetrics f)) with (glyph_count f) in *.
    pose proof (framed_end _ _ _ _ _ A1 ltac:(lia)) as [E1 E2]. change (Z.of_nat 3) with 3 in E1.
    destruct (numbers f HF) as (_ & _ & _ & _ & _ & N & _). unfold glyphs_Placement. rewrite N. cbn [bind]. destruct (Z.geb_spec k (glyph_count f)); [lia|].
    rewrite mask_start by lia. cbn [bind]. cbv zeta. rewrite shl1. fold d. pose proof (start_nonneg 3 d (mask_table f) k HD). fold (mask_table f) in *.
    replace (mask_table f + 2 * glyph_count f + glyph_count f) with (mask_table f + 3 * glyph_count f) by lia.
    destruct v; rewrite V; rewrite !get_num by lia; cbn [bind]; eauto.
  Qed.

  (** *** glyph names *)
  Lemma nth_name k : 0 <= k < name_count f -> start_of 3 d (name_table f) k <= end_of 3 d (name_table f) k <= end_of 3 d (name_table f) (name_count f - 1) ->
    getNthGlyphName f k (name_count f) = Ok (block 3 d (name_table f) (name_count f) k).
  Proof.
    intros Hk Hs. pose proof (fr_names _ _ FR) as (A0 & A1 & A2). change (le_at 2 d (OffsetToGlyphNames f)) with (name_count f) in *. fold (name_table f) in *.
    pose proof (framed_end _ _ _ _ _ A2 ltac:(lia)) as [E1 E2]. pose proof A2 as (T0 & _ & T1 & _). change (Z.of_nat 3) with 3 in *.
    pose proof (start_nonneg 3 d (name_table f) k HD). unfold getNthGlyphName. cbv zeta. rewrite !shl1. fold (name_table f) d.
    replace (name_table f + 2 * k + k) with (name_table f + 3 * k) by lia.
    bind_slice (slice3 d HD (name_table f + 3 * k) (name_table f + 3 * k + 3) ltac:(lia) eq_refl ltac:(lia)).
    change (num 3 d (name_table f + 3 * k)) with (end_of 3 d (name_table f) k). unfold block. change (Z.of_nat 3) with 3. unfold start_of in *. destruct (Z.eqb_spec k 0).
    - rewrite slice_part by lia. do 2 f_equal; lia.
    - bind_slice (slice3 d HD (name_table f + 3 * k - 3) (name_table f + 3 * k) ltac:(lia) ltac:(lia) ltac:(lia)).
      replace (num 3 d (name_table f + 3 * k - 3)) with (end_of 3 d (name_table f) (k - 1)) by (unfold end_of; f_equal; change (Z.of_nat 3) with 3; lia).
      rewrite slice_part by lia. do 2 f_equal; lia.
  Qed.
  Lemma find_name s : (forall k, 0 <= k < name_count f -> start_of 3 d (name_table f) k <= end_of 3 d (name_table f) k <= end_of 3 d (name_table f) (name_count f - 1)) ->
    exists g, glyphs_FindIndexByName f s = Ok g.
  Proof.
    intros Hs. destruct (numbers f HF) as (_ & _ & _ & _ & _ & _ & N & _). unfold glyphs_FindIndexByName. rewrite N. cbn [bind].
    destruct (Z.eqb_spec (name_count f) 0); [eauto|]. pose proof (num_range 2 d (OffsetToGlyphNames f) HD) as R. change (num 2 d (OffsetToGlyphNames f)) with (name_count f) in R. change (256 ^ Z.of_nat 2) with 65536 in R.
    pose proof (fr_names _ _ FR) as (A0 & A1 & A2). change (le_at 2 d (OffsetToGlyphNames f)) with (name_count f) in *. pose proof A2 as (T0 & _ & T1 & _).
    match goal with |- context [lower_bound_loop 64 ?l 0 _] => destruct (lower_bound_loop_total 64 l 0 (name_count f - 1)) as (m & E & Hm) end; [lia| |..].
    { assert (65536 < 2 ^ Z.of_nat 64) by reflexivity. lia. }
    { intros k Hk. rewrite nth_name by (try apply Hs; lia). cbn [bind]. eauto. }
    rewrite E. cbn [bind]. destruct (Z.geb_spec m (name_count f)); [lia|]. rewrite nth_name by (try apply Hs; lia). cbn [bind].
    destruct (negb _); [eauto|]. cbv zeta. rewrite shl1. fold d. rewrite slice2 by (auto; lia). eauto.
  Qed.

  (** *** rules and sets *)
  Lemma rule_block off k j : 0 <= off -> off + 2 <= zlen d -> framed 3 d (off + 2) (num 2 d off) j -> 0 <= k < num 2 d off ->
    start_of 3 d (off + 2) k <= end_of 3 d (off + 2) k <= end_of 3 d (off + 2) (num 2 d off - 1) ->
    get_rule d off k = Ok (block 3 d (off + 2) (num 2 d off) k).
  Proof.
    intros H0 H2 A2 Hk Hs. pose proof (framed_end _ _ _ _ _ A2 ltac:(lia)) as [E1 E2]. pose proof A2 as (T0 & _ & T1 & _). change (Z.of_nat 3) with 3 in *.
    pose proof (start_nonneg 3 d (off + 2) k HD). unfold get_rule. rewrite from2 by (auto; lia). cbn [bind]. destruct (Z.geb_spec k (num 2 d off)); [lia|]. cbv zeta. rewrite !shl1.
    replace (off + 2 + (2 * k + k)) with (off + 2 + 3 * k) by lia.
    bind_slice (slice3 d HD (off + 2 + 3 * k) (off + 2 + 3 * k + 3) ltac:(lia) eq_refl ltac:(lia)).
    change (num 3 d (off + 2 + 3 * k)) with (end_of 3 d (off + 2) k). unfold block. change (Z.of_nat 3) with 3.
    assert (A : (if k >? 0 then do b <- zslice d (off + 2 + 3 * k - 3) (off + 2 + 3 * k); DecodeUint24LE b else Ok 0) = Ok (start_of 3 d (off + 2) k)).
    { unfold start_of. destruct (Z.gtb_spec k 0), (Z.eqb_spec k 0); try lia; [|reflexivity]. rewrite slice3 by (auto; lia). unfold end_of. change (Z.of_nat 3) with 3. do 2 f_equal. lia. }
    rewrite A. cbn [bind]. rewrite slice_part by lia. do 2 f_equal; lia.
  Qed.
  Lemma set_block off k j : 0 <= off -> off + 1 <= zlen d -> framed 2 d (off + 1) (num 1 d off) j -> in_order 2 d (off + 1) (num 1 d off) k ->
    get_set d off k = Ok (block 2 d (off + 1) (num 1 d off) k).
  Proof.
    intros H0 H2 A2 (Hk & Hs). pose proof (framed_end _ _ _ _ _ A2 ltac:(lia)) as [E1 E2]. pose proof A2 as (T0 & _ & T1 & _). change (Z.of_nat 2) with 2 in *.
    pose proof (start_nonneg 2 d (off + 1) k HD). unfold get_set. rewrite get_num by lia. cbn [bind]. destruct (Z.geb_spec k (num 1 d off)); [lia|]. cbv zeta. rewrite !shl1.
    bind_slice (slice2 d HD (off + 1 + 2 * k) (off + 1 + 2 * k + 2) ltac:(lia) eq_refl ltac:(lia)).
    change (num 2 d (off + 1 + 2 * k)) with (end_of 2 d (off + 1) k). unfold block. change (Z.of_nat 2) with 2. unfold start_of in *. destruct (Z.eqb_spec k 0).
    - rewrite slice_part by lia. do 2 f_equal; lia.
    - bind_slice (slice2 d HD (off + 1 + 2 * (k - 1)) (off + 1 + 2 * (k - 1) + 2) ltac:(lia) eq_refl ltac:(lia)).
      change (num 2 d (off + 1 + 2 * (k - 1))) with (end_of 2 d (off + 1) (k - 1)). destruct (Z.geb_spec (end_of 2 d (off + 1) (k - 1)) (end_of 2 d (off + 1) k)); [lia|].
      rewrite slice_part by lia. do 2 f_equal; lia.
  Qed.
  Lemma glyph_rule k : let t := OffsetToGlyphRewrites f + 2 in let n := num 2 d (OffsetToGlyphRewrites f) in in_order 3 d t n k -> rewrites_GetGlyphRule f k = Ok (block 3 d t n k).
  Proof. intros t n (Hk & Hs). pose proof (fr_glyph_rules _ _ FR) as (A0 & A1 & A2). apply (rule_block _ k _ A0 A1 A2 Hk). unfold t, n in *. change (le_at 2 d) with (num 2 d) in *. lia. Qed.
  Lemma utf8_rule k : let t := OffsetToUtf8Rewrites f + 2 in let n := num 2 d (OffsetToUtf8Rewrites f) in in_order 3 d t n k -> rewrites_GetUtf8Rule f k = Ok (block 3 d t n k).
  Proof. intros t n (Hk & Hs). pose proof (fr_utf8_rules _ _ FR) as (A0 & A1 & A2). apply (rule_block _ k _ A0 A1 A2 Hk). unfold t, n in *. change (le_at 2 d) with (num 2 d) in *. lia. Qed.
  Lemma glyph_set k : let t := OffsetToRewriteGlyphSets f + 1 in let n := num 1 d (OffsetToRewriteGlyphSets f) in in_order 2 d t n k -> rewrites_GetGlyphSet f k = Ok (block 2 d t n k).
  Proof. intros t n H. pose proof (fr_glyph_sets _ _ FR) as (A0 & A1 & A2). rewrite byte_num in A2. exact (set_block _ k _ A0 A1 A2 H). Qed.
  Lemma utf8_set k : let t := OffsetToRewriteUtf8Sets f + 1 in let n := num 1 d (OffsetToRewriteUtf8Sets f) in in_order 2 d t n k -> rewrites_GetUtf8Set f k = Ok (block 2 d t n k).
  Proof. intros t n H. pose proof (fr_utf8_sets _ _ FR) as (A0 & A1 & A2). rewrite byte_num in A2. exact (set_block _ k _ A0 A1 A2 H). Qed.

  (** *** searches *)
  Lemma search_four off n target : 0 <= off -> 0 < n < 16777216 -> off + 4 * n <= zlen d -> exists m,
    lower_bound_loop 64 (fun mid => do b <- zfrom d (off + Z.shiftl mid 2); do value <- DecodeUint32LE b; Ok (value <? target)) 0 (n - 1) = Ok m /\ 0 <= m < n.
  Proof.
    intros H0 Hn HL.
    match goal with |- context [lower_bound_loop 64 ?l 0 _] => destruct (lower_bound_loop_total 64 l 0 (n - 1)) as (m & E & Hm) end; [lia| |..].
    { assert (16777216 < 2 ^ Z.of_nat 64) by reflexivity. lia. }
    { intros k Hk. rewrite shl2. bind_from (from4 d HD (off + 4 * k) ltac:(lia) ltac:(lia)). eauto. }
    exists m. split; [exact E|lia].
  Qed.
  Lemma absent cp s : (forall k, 0 <= k < entry_count f -> num 4 d (OffsetToMapping f + 2 + 4 * k) <> u32 cp) -> mapping_Utf8 f cp s = Ok None.
  Proof.
    intros HA. destruct (numbers f HF) as (_ & _ & _ & _ & _ & _ & _ & _ & _ & _ & N & _). unfold mapping_Utf8. rewrite N. cbn [bind].
    pose proof (fr_mapping _ _ FR) as (A0 & A1 & A2). change (le_at 2 d (OffsetToMapping f)) with (entry_count f) in *. pose proof A2 as (T0 & T & T1 & _). change (Z.of_nat 3) with 3 in T1.
    pose proof (num_range 2 d (OffsetToMapping f) HD) as R. change (num 2 d (OffsetToMapping f)) with (entry_count f) in R. change (256 ^ Z.of_nat 2) with 65536 in R.
    unfold mapping_search. cbv zeta. fold d. destruct (Z.eq_dec (entry_count f) 0) as [EZ|NZ].
    - rewrite EZ. change (0 - 1) with (-1). match goal with |- context [lower_bound_loop 64 ?l 0 (-1)] => change (lower_bound_loop 64 l 0 (-1)) with (Ok 0 : outcome Z) end. cbn [bind]. reflexivity.
    - destruct (search_four (OffsetToMapping f + 2) (entry_count f) (u32 cp)) as (m & E & Hm); try lia. rewrite E. cbn [bind].
      destruct (Z.geb_spec m (entry_count f)); [lia|]. rewrite shl2. bind_from (from4 d HD (OffsetToMapping f + 2 + 4 * m) ltac:(lia) ltac:(lia)).
      specialize (HA m ltac:(lia)). destruct (Z.eqb_spec (num 4 d (OffsetToMapping f + 2 + 4 * m)) (u32 cp)); [contradiction|]. reflexivity.
  Qed.
  Lemma kern off a b : 0 <= off <= zlen d -> (off + 3 <= zlen d -> off + 3 + 5 * le_at 3 d off <= zlen d) ->
    (zlen d < off + 3 -> kerning_lookup d off a b = Panic) /\ (off + 3 <= zlen d -> exists k, kerning_lookup d off a b = Ok k /\ -128 <= k < 128).
  Proof.
    intros H0 HK. unfold kerning_lookup, kerning_pairs. split; intros HL.
    - rewrite zfrom_ok by lia. cbn [bind]. rewrite decode24_spec by now apply bytes_skipn. rewrite zlen_skipn.
      destruct (Z.ltb_spec (Z.max 0 (zlen d - Z.of_nat (Z.to_nat off))) 3); [reflexivity|lia].
    - specialize (HK HL). change (le_at 3 d off) with (num 3 d off) in HK. rewrite from3 by (auto; lia). cbn [bind]. cbv zeta.
      pose proof (num_range 3 d off HD) as R. change (256 ^ Z.of_nat 3) with 16777216 in R. destruct (Z.eq_dec (num 3 d off) 0) as [EZ|NZ].
      + rewrite EZ. change (0 - 1) with (-1). match goal with |- context [lower_bound_loop 64 ?l 0 (-1)] => change (lower_bound_loop 64 l 0 (-1)) with (Ok 0 : outcome Z) end. cbn [bind]. exists 0. split; [reflexivity|lia].
      + destruct (search_four (off + 3) (num 3 d off) (Z.lor (u32 (Z.shiftl a 16)) b)) as (m & E & Hm); try lia. rewrite E. cbn [bind].
        destruct (Z.geb_spec m (num 3 d off)); [lia|]. rewrite !shl2. bind_from (from4 d HD (off + 3 + 4 * m) ltac:(lia) ltac:(lia)).
        destruct (negb _); [exists 0; split; [reflexivity|lia]|]. rewrite get_num by lia. cbn [bind]. eexists. split; [reflexivity|].
        pose proof (num_range 1 d (off + 3 + 4 * num 3 d off + m) HD) as R1. change (256 ^ Z.of_nat 1) with 256 in R1. unfold i8, u8. rewrite Z.mod_small by lia.
        match goal with |- context [?a <? 128] => destruct (Z.ltb_spec a 128) end; lia.
  Qed.
End Font.
