(** Tables of end offsets in the data of a font, written down without the code: a table lies at
    position [t] of the data [d], has [n] entries of [w] little endian bytes, and is followed by
    the blocks it delimits. *)
From Verif Require Import Base Spec_Helpers Model_Font Model_Parse Spec_Parse.

(** fonts that Parse returns for some reader that delivers at most 32 MiB and then io.EOF *)
Definition parsed (f : Font) : Prop :=
  exists i P, within_bounds P /\ delivers i P /\ parse_payload i = Ok f.

(** the number of [w] little endian bytes at [i] *)
Definition num (w : nat) (d : list Z) (i : Z) : Z := le_value (firstn w (skipn (Z.to_nat i) d)).
(** where block [k] ends and starts, counted from the end of the table *)
Definition end_of (w : nat) (d : list Z) (t k : Z) : Z := num w d (t + Z.of_nat w * k).
Definition start_of (w : nat) (d : list Z) (t k : Z) : Z := if k =? 0 then 0 else end_of w d t (k - 1).
(** the bytes from [a] up to [b] *)
Definition part (d : list Z) (a b : Z) : list Z := firstn (Z.to_nat (b - a)) (skipn (Z.to_nat a) d).
Definition block (w : nat) (d : list Z) (t n k : Z) : list Z :=
  part d (t + Z.of_nat w * n + start_of w d t k) (t + Z.of_nat w * n + end_of w d t k).
(** block [k] exists, is not empty and does not go beyond the last block *)
Definition in_order (w : nat) (d : list Z) (t n k : Z) : Prop :=
  0 <= k < n /\ start_of w d t k < end_of w d t k <= end_of w d t (n - 1).
Definition rising (w : nat) (d : list Z) (t n : Z) : Prop :=
  forall k, 0 <= k < n -> start_of w d t k < end_of w d t k.

(** the tables of a font and their numbers of entries *)
Definition dye_count (f : Font) : Z := num 1 (Data f) (OffsetToDyes f).
Definition dye_table (f : Font) : Z := OffsetToDyes f + 1.
Definition dye_names (f : Font) : Z :=
  OffsetToDyes f + 1 + dye_count f + num 1 (Data f) (OffsetToDyes f + dye_count f).
Definition palette_count (f : Font) : Z := num 1 (Data f) (OffsetToPalettes f).
Definition palette_table (f : Font) : Z := OffsetToPalettes f + 1.
Definition palette_names (f : Font) : Z :=
  OffsetToPalettes f + 1 + palette_count f + 4 * num 1 (Data f) (OffsetToPalettes f + palette_count f).
Definition glyph_count (f : Font) : Z := num 2 (Data f) (OffsetToMetrics f).
Definition mask_table (f : Font) : Z := OffsetToGlyphMasks f.
Definition name_count (f : Font) : Z := num 2 (Data f) (OffsetToGlyphNames f).
Definition name_table (f : Font) : Z := OffsetToGlyphNames f + 2 + 2 * name_count f.
Definition word_count (f : Font) : Z := num 1 (Data f) (OffsetToWords f).
Definition word_table (f : Font) : Z := OffsetToWords f + 1.
Definition setting_count (f : Font) : Z := num 1 (Data f) (OffsetToSettingNames f).
Definition setting_names (f : Font) : Z := OffsetToSettingNames f + 1.
Definition setting_table (f : Font) : Z := OffsetToSettingDefinitions f.
Definition entry_count (f : Font) : Z := num 2 (Data f) (OffsetToMapping f).
