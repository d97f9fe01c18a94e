(** Which masks glyph indices behind the last glyph give: C26. *)
From Verif Require Import Base BaseFacts Spec_Helpers Model_Helpers Model_Mask Model_Font Spec_Format Proofs_Format Spec_Foreign Proofs_Foreign.

(** ** C26 *)
(** Full statement: RasterizeMask panics for indices behind the last glyph. What it does for every such index: the bytes behind the
    table of end offsets are read as further end offsets, and the bytes between two of them as a mask; it panics exactly if
    the font ends before those offsets, if they do not leave room for the placement or lead
    out of the font, or if the bytes between them are no mask. *)
Theorem C26_foreign_partial : forall f m (l : list (placement * list Z)) i,
  stored (Data f) (OffsetToMetrics f) (metrics_bytes m) -> metrics_in_range m -> m_glyphs m = zlen l ->
  stored (Data f) (OffsetToGlyphMasks f) (glyph_masks_bytes (m_vert m) l) ->
  zlen (concat (map (glyph_bytes (m_vert m)) l)) < 16777216 -> bytes (Data f) -> zlen l <= i ->
  let t := skipn (Z.to_nat (OffsetToGlyphMasks f + 3 * zlen l)) (Data f) in
  glyphs_RasterizeMask f i =
    match foreign_mask t (zlen l) (zlen (concat (map (glyph_bytes (m_vert m)) l))) (if m_vert m then 4 else 1) i with
    | Some ops => match Rasterize ops with Err _ => Panic | r => r end
    | None => Panic
    end.
Proof.
  intros f m l i H1 H2 H3 H4 H5 H6 H7. cbv zeta. unfold glyphs_RasterizeMask. rewrite (mask_foreign f m l H1 H2 H3 H4 H5 H6 i H7).
  destruct (foreign_mask _ _ _ _ i) as [ops|]; reflexivity.
Qed.
Print Assumptions C26_foreign_partial.
(** One glyph with the advance 3 and no mask, then the bytes 0, 0, 5, 0, 0 and 0: the indices 1 and 2 give masks made of one byte
    behind the glyph, index 3 panics. *)
Example C26_foreign_example :
  let m := mkMetrics 1 false 0 5 0 3 0 3 2 1 0 1 0 0 in let l := [(mkPl 3 0 0 0, [])] in
  let f := mkFont (metrics_bytes m ++ glyph_masks_bytes false l ++ [0; 0; 5; 0; 0; 0]) 0 0 0 0 15 0 0 0 0 0 0 0 0 0 0 0 0 in
  stored (Data f) (OffsetToMetrics f) (metrics_bytes m) /\ stored (Data f) (OffsetToGlyphMasks f) (glyph_masks_bytes false l) /\
  foreign_mask [3; 0; 0; 5; 0; 0; 0] 1 1 1 1 = Some [0] /\ foreign_mask [3; 0; 0; 5; 0; 0; 0] 1 1 1 2 = Some [0] /\
  foreign_mask [3; 0; 0; 5; 0; 0; 0] 1 1 1 3 = None /\
  (exists r, glyphs_RasterizeMask f 1 = Ok r) /\ (exists r, glyphs_RasterizeMask f 2 = Ok r) /\ glyphs_RasterizeMask f 3 = Panic.
Proof.
  cbv zeta. split; [eexists [], _; split; reflexivity|]. split; [eexists (metrics_bytes _), _; split; reflexivity|].
  repeat (split; [vm_compute; reflexivity|]). split; [eexists; vm_compute; reflexivity|]. split; [eexists; vm_compute; reflexivity|]. vm_compute. reflexivity.
Qed.
