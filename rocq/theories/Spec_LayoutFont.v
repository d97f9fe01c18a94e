(** The font value for a layout: the bytes and the true positions of its sections. *)
From Verif Require Import Base Spec_Helpers Spec_Format Spec_Layout Model_Font.
Definition font_of (l : layout) : Font :=
  mkFont (font_bytes l) (section_start l 1) (section_start l 2) (section_start l 3) (section_start l 4)
    (section_start l 5) (section_start l 6) (section_start l 7) (section_start l 8) (section_start l 9)
    (section_start l 10) (section_start l 11) (section_start l 12) (section_start l 13)
    (section_start l 14) (section_start l 15) (section_start l 16) (section_start l 17).
