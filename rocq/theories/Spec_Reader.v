(** How the way a reader delivers a payload decides between a font and a panic. *)
From Verif Require Import Base Spec_Helpers Model_Font Model_Parse.

(** The results taken from the reader [i] until, together with the bytes [got] before, there are at
    least [n] bytes: all bytes, whether the reader said that this is the end, and the results not
    asked for. *)
Fixpoint received (n : Z) (got : list Z) (i : stream) : list Z * bool * stream :=
  if n <=? zlen got then (got, false, i) else
  match i with
  | [] => (got, true, [])
  | (chunk, EOF) :: rest => (got ++ chunk, true, rest)
  | (chunk, _) :: rest => received n (got ++ chunk) rest
  end.
(** the first result that is not idle comes with the end of the data *)
Fixpoint closes (i : stream) : bool :=
  match i with
  | [] | (_, EOF) :: _ => true
  | ([], NoErr) :: rest => closes rest
  | _ => false
  end.
(** the font [f] over other data *)
Definition over (d : list Z) (f : Font) : Font :=
  mkFont d (OffsetToMetrics f) (OffsetToDyes f) (OffsetToPalettes f) (OffsetToGlyphNames f)
    (OffsetToGlyphMasks f) (OffsetToWords f) (OffsetToSettingNames f)
    (OffsetToSettingDefinitions f) (OffsetToMappingSwitches f) (OffsetToMapping f)
    (OffsetToRewriteConditions f) (OffsetToRewriteUtf8Sets f) (OffsetToRewriteGlyphSets f)
    (OffsetToUtf8Rewrites f) (OffsetToGlyphRewrites f) (OffsetToHorzKernings f)
    (OffsetToVertKernings f).
