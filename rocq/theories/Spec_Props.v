(** What the setters of a builder may change, and which glyphs, dates and versions they take. *)
From Verif Require Import Base Model_Date Spec_Date Model_Mask Spec_Mask Model_Font Model_Builder.

(** everything of a builder but the header, but the metrics, but the glyphs *)
Definition body_of (b : builder) := (b_dyes b, b_palettes b, b_settings b, b_switches b, b_mapping b, b_conditions b,
  b_glyphSets b, b_setsOrder b, b_runeSets b, b_glyphRules b, b_utf8Rules b, b_horz b, b_vert b, b_classes b).
Definition but_header (b : builder) := (b_metrics b, b_order b, b_glyphs b, body_of b).
Definition but_metrics (b : builder) := (b_header b, b_order b, b_glyphs b, body_of b).
Definition but_glyphs (b : builder) := (b_header b, b_metrics b, body_of b).

(** ** Header *)
Inductive text := TName | TFamily | TAuthor | TAbout.
Definition text_of (t : text) (b : builder) : list Z :=
  match t with TName => bh_name | TFamily => bh_family | TAuthor => bh_author | TAbout => bh_about end (b_header b).
(** one byte for the length of a short string, two for the length of About (specification.md) *)
Definition text_limit (t : text) : Z := match t with TAbout => 65535 | _ => 255 end.
Inductive moment := First | Major | Minor.
Definition date_of (m : moment) (b : builder) : Date :=
  match m with First => bh_firstDate | Major => bh_majorDate | Minor => bh_minorDate end (b_header b).
Definition id_of (b : builder) : Z := bh_ID (b_header b).
Definition version_of (b : builder) : Z * Z := (bh_major (b_header b), bh_minor (b_header b)).
Definition same_texts (b b' : builder) : Prop := forall t, text_of t b' = text_of t b.
Definition newer (v v' : Z * Z) : Prop := fst v < fst v' \/ fst v = fst v' /\ snd v < snd v'.

(** ** Metrics *)
Definition metric_of (k : metric) (b : builder) : Z :=
  let m := b_metrics b in
  match k with
  | MonoWidth => bm_mono m | Ascent => bm_ascent m | ExtraAscent => bm_extraAscent m | Descent => bm_descent m
  | ExtraDescent => bm_extraDescent m | MidlineAscent => bm_midline m | UppercaseAscent => bm_uppercase m
  | HorzInterspacing => bm_horz m | VertInterspacing => bm_vertSpacing m | LineGap => bm_lineGap m
  | VertLineWidth => bm_vertLineWidth m | VertLineGap => bm_vertLineGap m
  end.
Definition vertical (b : builder) : bool := bm_vert (b_metrics b).
(** specification.md:96-97: without a vertical layout vertical lines have no width and no gap *)
Definition vert_consistent (b : builder) : Prop :=
  vertical b = false -> metric_of VertLineWidth b = 0 /\ metric_of VertLineGap b = 0.
(** what a setter of the vertical line accepts *)
Definition metric_allowed (b : builder) (k : metric) (v : Z) : Prop :=
  match k with
  | VertLineWidth => vertical b = true <-> v <> 0
  | VertLineGap => vertical b = false -> v = 0
  | _ => True
  end.

(** ** Glyphs *)
Definition glyph_at (b : builder) (uid : Z) : option glyphData := m_get Z.eqb (b_glyphs b) uid.
(** the drawn part of [m] lies between ascent and descent, and within the width of a monospaced font *)
Definition fits (b : builder) (m : alpha) : Prop :=
  forall x y, pixel m x y <> 0 ->
    - (metric_of Ascent b + metric_of ExtraAscent b) <= y < metric_of Descent b + metric_of ExtraDescent b /\
    (metric_of MonoWidth b <> 0 -> 0 <= x < metric_of MonoWidth b).
(** [uid] is the first of the four next random numbers that is neither in use nor 56789 *)
Definition drawn (b : builder) (random : list Z) (uid : Z) : Prop :=
  exists before after, random = before ++ uid :: after /\ (length before < 4)%nat /\
    glyph_at b uid = None /\ uid <> 56789 /\ Forall (fun u => glyph_at b u <> None \/ u = 56789) before.
(** the placement of a new glyph: as wide as its image, as high as the font, centered *)
Definition first_placement (b : builder) (m : alpha) (p : GlyphPlacement) : Prop :=
  let width := rx1 (Rect m) - rx0 (Rect m) in
  gp_Advance p = Z.min 255 width /\ gp_TopAdvance p = metric_of Ascent b /\ gp_BottomAdvance p = metric_of Descent b /\
  gp_HorzCenter p = Z.min 255 (width / 2).
