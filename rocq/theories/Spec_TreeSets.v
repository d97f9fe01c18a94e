(** The elements of the rewrite rules of a font, as sets of glyphs or code points. *)
From Verif Require Import Base Spec_Layout Model_Font Model_Rewrites Model_Scanner Spec_Tree.

Section Fonts.
  Variable f : Font.
  (** What is read from the set with the given index *)
  Definition in_glyph_set (set x : Z) : Prop :=
    exists d ranges glyphs, rewrites_GetGlyphSet f set = Ok d /\
      glyph_set_EachRange (fun s r => (s ++ [r], @None unit)) d [] = Ok (ranges, None) /\
      glyph_set_EachListGlyph (fun s g => (s ++ [g], @None unit)) d [] = Ok (glyphs, None) /\
      (In x glyphs \/ exists a b, In (a, b) ranges /\ a <= x <= b).
  Definition element_pattern (e : element) : Z -> Prop :=
    match e with Single y => fun x => x = y | InSet set => in_glyph_set set end.
  (** A single glyph, or a set of the font that is one range *)
  Definition glyph_range (e : element) (r : Z * Z) : Prop :=
    match e with
    | Single x => r = (x, x)
    | InSet s => s <> 255 /\ exists st, rewrites_GetGlyphSet f s = Ok (set_bytes 2 st) /\ set_in_range 65536 st /\ one_range st r /\ fst r <= snd r < 65535
    end.

  Definition in_utf8_set (set x : Z) : Prop :=
    exists d ranges runes, rewrites_GetUtf8Set f set = Ok d /\
      utf8_set_EachRange (fun s r => (s ++ [r], @None unit)) d [] = Ok (ranges, None) /\
      utf8_set_EachListRune (fun s g => (s ++ [g], @None unit)) d [] = Ok (runes, None) /\
      (In x runes \/ exists a b, In (a, b) ranges /\ a <= x <= b).
  Definition rune_pattern (e : element) : Z -> Prop :=
    match e with Single y => fun x => x = y | InSet set => in_utf8_set set end.
  (** A single code point, or a set of the font of which one code point is read (from a range,
      only its first one is read, see C38) *)
  Definition rune_element (e : element) (y : Z) : Prop :=
    match e with
    | Single x => y = x
    | InSet s => s <> 255 /\ exists st, rewrites_GetUtf8Set f s = Ok (set_bytes 4 st) /\ set_in_range 16777216 st /\
        (map fst (set_ranges st) ++ set_elements st = [y])
    end.
End Fonts.
