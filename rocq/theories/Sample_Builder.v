(** A sample history of the builder, used by the examples. *)
From Verif Require Import Base Model_Helpers Model_Date Model_Mask Model_Font Model_Words Model_Builder.

Definition no_order : order := fun _ _ l => l.
Definition rev_order : order := fun _ _ l => rev l.
Definition no_sort : list Model_Mask.fragment -> list Model_Mask.fragment := fun l => l.
Definition sample_mask (a b : Z) : alpha := mkAlpha [a; b] 2 (mkRect 0 (-1) 2 0).
(** five glyphs (UIDs 1001 to 1005), two of them named *)
Definition sample_glyphs : list bop :=
  [ OAddGlyph (sample_mask 255 255) [1001]; OAddGlyph (sample_mask 255 0) [1002]; OAddGlyph (sample_mask 0 255) [1003];
    OAddGlyph (sample_mask 0 0) [1004]; OAddGlyph (sample_mask 255 128) [1005];
    OSetGlyphName 1002 (str_bytes "comma"); OSetGlyphName 1001 (str_bytes "aa") ].
Definition sample_colors : list bop :=
  [ OAddDye (str_bytes "main") [255; 128]; OAddPalette (str_bytes "extra") [(1, 2, 3, 255)] ].
Definition sample_settings : list bop :=
  [ OAddSetting (str_bytes "case") [str_bytes "fall"; str_bytes "mine"]; OAddSetting (str_bytes "zero") [str_bytes "fall"; str_bytes "rise"];
    OAddSwitch [0]; OAddSwitch [1; 0] ].
Definition sample_mapping : list bop :=
  [ OMap 97 1001; OMap 32 1004; OMapGroup 98 4 [1002; 1003]; OMapGroup 99 0 [1005; 1001];
    OMapWithSwitchSingles 100 0 [1001; 1003]; OMapWithSwitch 101 0 [[1001; 1002]; [1003; 1005]] [1; 2] ].
Definition sample_rewrites : list bop :=
  [ OCreateGlyphSet [2001]; OAddGlyphSetRange 2001 1001 1003; OAddGlyphSetListGlyph 2001 1005;
    OAddSimpleUtf8RewriteRule 8594 [45; 62]; OAddGlyphRewriteRule 1 2 1 [1001; 2001; 1002; 1003] [1004] ].
Definition sample_kerning : list bop := [ OSetKerningPair 1002 1001 (-1); OSetKerningPair 1001 1003 2 ].
Definition sample_ops : list bop :=
  sample_glyphs ++ sample_colors ++ sample_settings ++ sample_mapping ++ sample_rewrites ++ sample_kerning.
Definition sample_date : Date := mkDate 2024 5 17.
Definition sample_builder : builder := history 7777 sample_date sample_ops.
