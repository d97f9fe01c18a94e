(** The font format as /repo/specification.md describes it: how each section is laid out in
    bytes. Nothing here refers to the code; the accessor theorems say that the accessors of
    the code read back what these encodings store. *)
From Verif Require Import Base Spec_Helpers.

(** [block] is what the data [d] contains from position [off] on. *)
Definition stored (d : list Z) (off : Z) (block : list Z) : Prop :=
  exists pre post, d = pre ++ block ++ post /\ zlen pre = off.

(** specification.md:46: "data blobs are indexed with EndOffset arrays". [end_offsets acc l]
    are the positions where the elements of [l] end when they are laid out after [acc]
    positions. *)
Fixpoint end_offsets {A} (acc : Z) (l : list (list A)) : list Z :=
  match l with [] => [] | b :: r => (acc + zlen b) :: end_offsets (acc + zlen b) r end.
(** the EndOffset array with entries of [w] bytes *)
Definition offsets {A} (w : nat) (l : list (list A)) : list Z :=
  concat (map (le_digits w) (end_offsets 0 l)).
(** the array followed by the blob itself *)
Definition indexed (w : nat) (l : list (list Z)) : list Z := offsets w l ++ concat l.

(** specification.md:31-32, short string and string *)
Definition short_string (s : list Z) : list Z := zlen s :: s.
Definition long_string (s : list Z) : list Z := le_digits 2 (zlen s) ++ s.

(** ** Header, specification.md:57-72 *)
Record header_fields := mkHeader {
  h_format : Z; h_id : Z; h_major : Z; h_minor : Z;
  h_first_date : Z * Z * Z; h_major_date : Z * Z * Z; h_minor_date : Z * Z * Z;
  h_name : list Z; h_family : list Z; h_author : list Z; h_about : list Z }.
Definition date_bytes (ymd : Z * Z * Z) : list Z :=
  let '(y, m, d) := ymd in le_digits 2 y ++ [m; d].
Definition header_bytes (h : header_fields) : list Z :=
  le_digits 4 (h_format h) ++ le_digits 8 (h_id h) ++
  le_digits 2 (h_major h) ++ le_digits 2 (h_minor h) ++
  date_bytes (h_first_date h) ++ date_bytes (h_major_date h) ++ date_bytes (h_minor_date h) ++
  short_string (h_name h) ++ short_string (h_family h) ++ short_string (h_author h) ++
  long_string (h_about h).
Definition date_in_range (ymd : Z * Z * Z) : Prop :=
  let '(y, m, d) := ymd in 0 <= y < 65536 /\ byte m /\ byte d.
Definition header_in_range (h : header_fields) : Prop :=
  0 <= h_format h < 2 ^ 32 /\ 0 <= h_id h < 2 ^ 64 /\ 0 <= h_major h < 65536 /\ 0 <= h_minor h < 65536 /\
  date_in_range (h_first_date h) /\ date_in_range (h_major_date h) /\ date_in_range (h_minor_date h) /\
  zlen (h_name h) < 256 /\ zlen (h_family h) < 256 /\ zlen (h_author h) < 256 /\ zlen (h_about h) < 65536.

(** ** Metrics, specification.md:80-98 *)
Record metrics_fields := mkMetrics {
  m_glyphs : Z; m_vert : bool; m_mono : Z; m_ascent : Z; m_extra_ascent : Z; m_descent : Z;
  m_extra_descent : Z; m_uppercase : Z; m_midline : Z; m_horz_spacing : Z; m_vert_spacing : Z;
  m_line_gap : Z; m_vert_width : Z; m_vert_gap : Z }.
Definition metrics_bytes (m : metrics_fields) : list Z :=
  le_digits 2 (m_glyphs m) ++ (if m_vert m then 1 else 0) ::
  [m_mono m; m_ascent m; m_extra_ascent m; m_descent m; m_extra_descent m; m_uppercase m;
   m_midline m; m_horz_spacing m; m_vert_spacing m; m_line_gap m; m_vert_width m; m_vert_gap m].
(** the values of [metrics_bytes] are bytes; the number of glyphs is a uint16 *)
Definition metrics_in_range (m : metrics_fields) : Prop :=
  0 <= m_glyphs m < 65536 /\ bytes (metrics_bytes m).

(** ** Color, specification.md:132-157 *)
(** a dye: name and alphas *)
Notation dye := (list Z * list Z)%type (only parsing).
Notation color := (Z * Z * Z * Z)%type (only parsing).
(** a palette: name and colors *)
Notation palette := (list Z * list color)%type (only parsing).
Definition color_bytes (c : color) : list Z := let '(r, g, b, a) := c in [r; g; b; a].
Definition dyes_bytes (l : list dye) : list Z :=
  zlen l :: offsets 1 (map snd l) ++ concat (map snd l) ++ indexed 2 (map fst l).
Definition palettes_bytes (l : list palette) : list Z :=
  zlen l :: offsets 1 (map snd l) ++ concat (map color_bytes (concat (map snd l))) ++ indexed 2 (map fst l).
(** at most 255 color indices; no dye or palette is without name or colors *)
Definition color_named {A} (l : list (list Z * list A)) : Prop :=
  Forall (fun x => fst x <> [] /\ snd x <> []) l /\ zlen (concat (map fst l)) < 65536.
Definition colors_in_range (ds : list dye) (ps : list palette) : Prop :=
  color_named ds /\ color_named ps /\
  zlen (concat (map snd ds)) + zlen (concat (map snd ps)) <= 255.

(** ** Glyphs, specification.md:159-201 *)
(** named glyphs: name and glyph index *)
Definition glyph_names_bytes (l : list (list Z * Z)) : list Z :=
  le_digits 2 (zlen l) ++ concat (map (fun x => le_digits 2 (snd x)) l) ++ indexed 3 (map fst l).
(** placements, specification.md:173-179 *)
Record placement := mkPl { pl_advance : Z; pl_top : Z; pl_bottom : Z; pl_center : Z }.
Definition placement_bytes (vert : bool) (p : placement) : list Z :=
  if vert then [pl_advance p; pl_top p; pl_bottom p; pl_center p] else [pl_advance p].
(** a glyph: placement and raster operations *)
Notation glyph := (placement * list Z)%type (only parsing).
Definition glyph_bytes (vert : bool) (g : glyph) : list Z := placement_bytes vert (fst g) ++ snd g.
Definition glyph_masks_bytes (vert : bool) (l : list glyph) : list Z := indexed 3 (map (glyph_bytes vert) l).

(** lexicographical order of byte strings *)
Fixpoint lex_lt (a b : list Z) : Prop :=
  match a, b with
  | _, [] => False
  | [], _ :: _ => True
  | x :: a', y :: b' => x < y \/ (x = y /\ lex_lt a' b')
  end.
Fixpoint ordered {A} (lt : A -> A -> Prop) (l : list A) : Prop :=
  match l with
  | [] => True
  | x :: r => (forall y, In y r -> lt x y) /\ ordered lt r
  end.

(** ** Settings, specification.md:203-225 *)
Definition words_bytes (l : list (list Z)) : list Z := zlen l :: indexed 2 l.
(** a setting: name and option words *)
Notation setting := (list Z * list Z)%type (only parsing).
Definition setting_names_bytes (l : list setting) : list Z := zlen l :: indexed 2 (map fst l).
Definition setting_defs_bytes (l : list setting) : list Z := indexed 2 (map snd l).

(** ** Mapping, specification.md:227-252 *)
Definition switches_bytes (l : list (list Z)) : list Z := zlen l :: indexed 2 l.
(** a glyph group: a list of glyphs or a range of consecutive glyphs, with animation flags *)
Inductive group :=
| GList (flags : Z) (glyphs : list Z)
| GRange (flags : Z) (first : Z) (size : Z).
Definition group_glyphs (g : group) : list Z :=
  match g with
  | GList _ l => l
  | GRange _ first size => map (fun i => first + i) (zseq size)
  end.
Definition group_flags (g : group) : Z :=
  let fl := match g with GList fl _ | GRange fl _ _ => fl end in
  if zlen (group_glyphs g) =? 1 then 0 else fl.
Definition group_bytes (g : group) : list Z :=
  let size := zlen (group_glyphs g) in
  let top := match g with GList _ _ => 0 | GRange _ _ _ => 128 end in
  (top + (size - 1)) :: (if size =? 1 then [] else [group_flags g]) ++
  match g with
  | GList _ l => concat (map (le_digits 2) l)
  | GRange _ first _ => le_digits 2 first
  end.
Definition group_in_range (g : group) : Prop :=
  1 <= zlen (group_glyphs g) <= 128 /\ byte (group_flags g) /\
  Forall (fun i => 0 <= i < 65536) (group_glyphs g).
(** a mapping entry: an unconditional glyph, one group without settings, or a switch and its
    cases *)
Inductive entry :=
| EGlyph (i : Z)
| EGroup (g : group)
| ESwitch (switch : Z) (cases : list group).
Definition entry_bytes (e : entry) : list Z :=
  match e with
  | EGlyph i => 255 :: le_digits 2 i
  | EGroup g => 254 :: group_bytes g
  | ESwitch k cases => k :: concat (map group_bytes cases)
  end.
(** the mapping table: code points and entries *)
Definition mapping_bytes (l : list (Z * entry)) : list Z :=
  le_digits 2 (zlen l) ++ concat (map (fun x => le_digits 4 (fst x)) l) ++
  indexed 3 (map (fun x => entry_bytes (snd x)) l).

(** ** Kernings, specification.md:316-327; a pair is (previous glyph, current glyph, value) *)
Notation kerning_pair := (Z * Z * Z)%type (only parsing).
Definition pair_key (p : kerning_pair) : Z := let '(prev, curr, _) := p in prev * 65536 + curr.
Definition pair_value (p : kerning_pair) : Z := let '(_, v) := p in v.
Definition kernings_bytes (l : list kerning_pair) : list Z :=
  le_digits 3 (zlen l) ++ concat (map (fun p => le_digits 4 (pair_key p)) l) ++
  concat (map (fun p => le_digits 1 (pair_value p)) l).
Definition pair_in_range (p : kerning_pair) : Prop :=
  let '(prev, curr, v) := p in 0 <= prev < 65536 /\ 0 <= curr < 65536 /\ -128 <= v < 128.

(** the elements of a list with their positions *)
Fixpoint numbered {A} (i : Z) (l : list A) : list (Z * A) :=
  match l with [] => [] | x :: r => (i, x) :: numbered (i + 1) r end.

(** Mixed radix position of a combination of setting values among all combinations in
    lexicographic order: the last setting changes fastest. *)
Definition product (l : list Z) : Z := fold_right Z.mul 1 l.
Fixpoint position (values options : list Z) : Z :=
  match values, options with
  | v :: vs, o :: os => v * product os + position vs os
  | _, _ => 0
  end.
(** a combination: one value below the number of options for each setting *)
Definition combination (values options : list Z) : Prop := Forall2 (fun v o => 0 <= v < o) values options.
