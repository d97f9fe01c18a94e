(** What the glyphs, the header, the metrics, the colors, the settings, the switches and the
    glyph sets of a built font should be. *)
From Verif Require Import Base Spec_Helpers Model_Helpers Spec_Format Model_Date Model_Mask Spec_Mask Model_Font Model_Builder Spec_Builder Spec_Props.

(** [r] is a mask with the same pixels, [None] stands for a mask without any *)
Definition same_pixels (r : option alpha) (m : alpha) : Prop :=
  forall x y, match r with Some m' => pixel m' x y | None => 0 end = pixel m x y.
(** without vertical layout only the advance is kept *)
Definition kept_placement (b : builder) (p : GlyphPlacement) : GlyphPlacement :=
  if vertical b then p else mkPlacement (gp_Advance p) 0 0 0.
(** the glyph data take less than 16 MiB: section of the glyph masks without the table of offsets *)
Definition masks_fit (b : builder) (f : Font) : Prop :=
  OffsetToWords f - OffsetToGlyphMasks f < 3 * zlen (b_order b) + 16777216.

(** a font without any dye and palette gets the dye "main" with one opaque alpha *)
Definition kept_dyes (b : builder) : list (list Z * list Z) :=
  match b_dyes b, b_palettes b with [], [] => [([109; 97; 105; 110], [255])] | ds, _ => ds end.
(** every dye and every palette has a name and at least one color; the names take less than 64 KiB *)
Definition whole_sections (b : builder) : Prop :=
  Forall (fun x => fst x <> [] /\ snd x <> []) (b_dyes b) /\ Forall (fun x => fst x <> [] /\ snd x <> []) (b_palettes b) /\
  zlen (concat (map fst (b_dyes b))) < 65536 /\ zlen (concat (map fst (b_palettes b))) < 65536.

(** the numbers of options of the settings of a switch *)
Definition radices (b : builder) (ks : list Z) (os : list Z) : Prop :=
  Forall2 (fun k o => exists s, zget (b_settings b) k = Ok s /\ zlen (snd s) = o) ks os.

(** a set of glyph UIDs as ranges of indices and single indices: [from] to [to] stand for the
    glyphs that begin and end a range *)
Definition kept_ranges (b : builder) (s : bset) (l : list (Z * Z)) : Prop :=
  Forall2 (fun r x => indexed_as b (fst r) (fst x) /\ indexed_as b (snd r) (snd x)) (bs_ranges s) l.
Definition kept_singles (b : builder) (s : bset) (l : list Z) : Prop := Forall2 (indexed_as b) (bs_list s) l.
