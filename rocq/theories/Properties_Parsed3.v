(** C81, continued: masks of fonts returned by Parse. *)
From Verif Require Import Base BaseFacts Spec_Helpers Model_Helpers Proofs_Helpers Spec_Format Spec_Layout Spec_LayoutFont Model_Words Model_Mask Model_Font Model_Rewrites Model_Parse Spec_Parse Spec_Parsed.
From Verif Require Import Sample Proofs_Typed Spec_Mask Proofs_Raster Proofs_RasterHuge Proofs_Parse Proofs_Parse2 Proofs_Flat Proofs_Parsed Proofs_Parsed2 Proofs_Parsed3 Proofs_Parsed4 Properties_Parsed.

Lemma mask_data f k v : parsed f -> let d := Data f in let t := mask_table f in let n := glyph_count f in
  in_order 3 d t n k -> glyphs_hasVertLayout f = Ok v ->
  let p := (if v : bool then 4 else 1) in
  glyphs_mask_ops f k = if start_of 3 d t k + p <=? end_of 3 d t k
    then Ok (part d (t + 3 * n + start_of 3 d t k + p) (t + 3 * n + end_of 3 d t k)) else Panic.
Proof.
  intros HF d t n (Hk & S1 & S2) V p. destruct (parsed_frames f HF) as [HD FR]. fold d in HD.
  pose proof (fr_masks _ _ FR) as (A0 & A1). fold d in A1. pose proof A1 as (T0 & _ & T1 & _). change (Z.of_nat 3) with 3 in T1.
  change (le_at 2 d (OffsetToMetrics f)) with n in *. change (OffsetToGlyphMasks f) with t in *.
  pose proof (framed_end _ _ _ _ _ A1 ltac:(lia)) as [E1 E2]. change (Z.of_nat 3) with 3 in E1. pose proof (start_nonneg 3 d t k HD) as S0.
  destruct (numbers f HF) as (_ & _ & _ & _ & _ & N & _). unfold glyphs_mask_ops.
  assert (O : getGlyphDataOffsets f k = Ok (start_of 3 d t k, end_of 3 d t k)).
  { unfold getGlyphDataOffsets. cbv zeta. rewrite !shl1. fold d. change (OffsetToGlyphMasks f) with t. replace (2 * k + k) with (3 * k) by lia.
    bind_from (from3 d HD (t + 3 * k) ltac:(lia) ltac:(lia)). change (num 3 d (t + 3 * k)) with (end_of 3 d t k).
    destruct (Z.eqb_spec (3 * k) 0) as [E|NE].
    - assert (k = 0) by lia. subst k. reflexivity.
    - bind_from (from3 d HD (t + 3 * k - 3) ltac:(lia) ltac:(lia)).
      assert (ST : start_of 3 d t k = num 3 d (t + 3 * k - 3)).
      { unfold start_of. destruct (Z.eqb_spec k 0); [lia|]. unfold end_of. change (Z.of_nat 3) with 3. f_equal. lia. }
      rewrite <- ST. destruct (Z.leb_spec (end_of 3 d t k) (start_of 3 d t k)); [lia|reflexivity]. }
  rewrite O. cbn [bind]. rewrite V, N. cbn [bind]. cbv zeta. rewrite shl1. fold d. change (OffsetToGlyphMasks f) with t. fold n.
  replace (t + 2 * n + n) with (t + 3 * n) by lia. replace (if v then start_of 3 d t k + 4 else start_of 3 d t k + 1) with (start_of 3 d t k + p) by (unfold p; destruct v; reflexivity).
  assert (0 < p) by (unfold p; destruct v; lia). clearbody p.
  destruct (Z.leb_spec (start_of 3 d t k + p) (end_of 3 d t k)).
  - rewrite zslice_ok by lia. unfold part. do 3 f_equal; lia.
  - unfold zslice. destruct (Z.leb_spec (t + 3 * n + (start_of 3 d t k + p)) (t + 3 * n + end_of 3 d t k)); [lia|]. now rewrite andb_false_r.
Qed.

(** For a glyph whose block is in order the mask is drawn from exactly the bytes behind its
    placement. It panics if the block is shorter than a placement or the drawing is not valid,
    neither of which Parse looks at. *)
Theorem C81_mask_partial : forall f k v, parsed f -> let d := Data f in let t := mask_table f in let n := glyph_count f in
  in_order 3 d t n k -> glyphs_hasVertLayout f = Ok v ->
  let p := (if v : bool then 4 else 1) in let mask := part d (t + 3 * n + start_of 3 d t k + p) (t + 3 * n + end_of 3 d t k) in
  (start_of 3 d t k + p <= end_of 3 d t k -> glyphs_RasterizeMask f k = match Rasterize mask with Err _ => Panic | r => r end) /\
  (start_of 3 d t k + p <= end_of 3 d t k -> forall ops, Forall rop_wf ops -> mask = enc_ops ops -> zlen mask <= 30000 ->
    exists o, glyphs_RasterizeMask f k = Ok o) /\
  (end_of 3 d t k < start_of 3 d t k + p -> glyphs_RasterizeMask f k = Panic).
Proof.
  intros f k v H d t n IO V p mask. unfold glyphs_RasterizeMask. rewrite (mask_data f k v H IO V). cbv zeta. fold d t n p.
  destruct (Z.leb_spec (start_of 3 d t k + p) (end_of 3 d t k)) as [L|L].
  - split; [reflexivity|]. split; [|lia]. intros _ ops W E B. cbn [bind]. fold mask. rewrite E in *.
    destruct (rasterize_accepts ops W B) as (o & ->). eauto.
  - split; [lia|]. split; [lia|reflexivity].
Qed.
Print Assumptions C81_mask_partial.

(** a file with an impossible drawing is accepted, and its mask panics: the one of Sample.v *)
Theorem C81_mask_refuted : exists f k, parsed f /\ rises 3 (Data f) (mask_table f) (glyph_count f) = true /\ 0 <= k < glyph_count f /\ glyphs_RasterizeMask f k = Panic.
Proof.
  exists (font_of sample), 1. split.
  - exists [(font_bytes sample, EOF)], (font_bytes sample). split; [split; [apply bytesb_true; vm_compute; reflexivity|vm_compute; discriminate]|].
    split; [split; [vm_compute; exact I|vm_compute; reflexivity]|vm_compute; reflexivity].
  - split; [vm_compute; reflexivity|]. split; [vm_compute; split; [discriminate|reflexivity]|vm_compute; reflexivity].
Qed.
Print Assumptions C81_mask_refuted.

(** the same font with a drawing of three fragments in its second glyph *)
Definition drawing : list rop := [mkOp (Some 7) None VNone (DDiag true 2); mkOp None (Some 253) (VMove 254) (DRect 1 0); mkOp (Some 9) (Some 255) VRow DPixel].
Definition drawn_sample : layout := {| l_header := l_header sample; l_metrics := l_metrics sample; l_dyes := l_dyes sample; l_palettes := l_palettes sample;
  l_names := l_names sample; l_glyphs := [(mkPl 3 0 0 0, []); (mkPl 4 0 0 0, enc_ops drawing); (mkPl 5 0 0 0, []); (mkPl 6 0 0 0, [])];
  l_words := l_words sample; l_settings := l_settings sample; l_switches := l_switches sample;
  l_mapping := l_mapping sample; l_conditions := l_conditions sample; l_utf8_sets := l_utf8_sets sample; l_glyph_sets := l_glyph_sets sample;
  l_utf8_rules := l_utf8_rules sample; l_glyph_rules := l_glyph_rules sample; l_horz := l_horz sample; l_vert := l_vert sample |}.
Example C81_mask_example : let f := font_of drawn_sample in let d := Data f in
  parse_payload [(font_bytes drawn_sample, EOF)] = Ok f /\ rises 3 d (mask_table f) (glyph_count f) = true /\ glyphs_hasVertLayout f = Ok false /\
  start_of 3 d (mask_table f) 1 + 1 <= end_of 3 d (mask_table f) 1 /\
  part d (mask_table f + 3 * glyph_count f + start_of 3 d (mask_table f) 1 + 1) (mask_table f + 3 * glyph_count f + end_of 3 d (mask_table f) 1) = enc_ops drawing /\
  (exists m, glyphs_RasterizeMask f 1 = Ok (Some m) /\ Rect m = mkRect 0 (-2) 3 3) /\ glyphs_RasterizeMask f 2 = Ok None.
Proof.
  cbv zeta. split; [vm_compute; reflexivity|]. split; [vm_compute; reflexivity|]. split; [vm_compute; reflexivity|]. split; [vm_compute; discriminate|].
  split; [vm_compute; reflexivity|]. split; [eexists; split; vm_compute; reflexivity|vm_compute; reflexivity].
Qed.
