(** The rewrite rule sections of the font format and the layout of a whole font, as
    /repo/specification.md describes them. *)
From Verif Require Import Base Spec_Helpers Spec_Format.

(** ** Rewrite conditions, specification.md:299-307 *)
Inductive operator := Equal | Different | Less | Greater | AtMost | AtLeast.
Inductive condition :=
| COr (terms : list condition)
| CAnd (terms : list condition)
| CSettings (op : operator) (a b : Z)        (* compares two settings *)
| CConst (op : operator) (a : Z) (const : Z) (* compares a setting with a constant *)
| CQuick (op : operator) (a : Z) (const : Z) (* the same in two bytes: only ==, !=, < and > *).
Definition holds (op : operator) (x y : Z) : bool :=
  match op with
  | Equal => x =? y | Different => negb (x =? y) | Less => x <? y | Greater => y <? x
  | AtMost => x <=? y | AtLeast => y <=? x
  end.
(** the truth value of a condition under given setting values *)
Fixpoint truth (settings : Z -> Z) (c : condition) : bool :=
  match c with
  | COr terms => existsb (truth settings) terms
  | CAnd terms => forallb (truth settings) terms
  | CSettings op a b => holds op (settings a) (settings b)
  | CConst op a const | CQuick op a const => holds op (settings a) const
  end.
Definition operator_code (op : operator) : Z :=
  match op with Equal => 0 | Different => 1 | Less => 2 | Greater => 3 | AtMost => 4 | AtLeast => 5 end.
Definition quick_code (op : operator) : Z :=
  match op with Equal => 96 | Different => 128 | Less => 160 | Greater => 192 | _ => 224 end.
Fixpoint condition_bytes (c : condition) : list Z :=
  match c with
  | COr terms => zlen terms :: concat (map condition_bytes terms)
  | CAnd terms => (32 + zlen terms) :: concat (map condition_bytes terms)
  | CSettings op a b => [64 + operator_code op; a; b]
  | CConst op a const => [80 + operator_code op; a; const]
  | CQuick op a const => [quick_code op + const; a]
  end.
Definition conditions_bytes (l : list condition) : list Z := zlen l :: indexed 2 (map condition_bytes l).

(** ** Rewrite sets, specification.md:276-278: ranges (first element and how many follow it)
    and single elements. Elements take [w] bytes: 4 for code points, 2 for glyphs. *)
Record rewrite_set := mkSet { set_ranges : list (Z * Z); set_elements : list Z }.
Definition set_bytes (w : nat) (s : rewrite_set) : list Z :=
  zlen (set_ranges s) :: concat (map (fun r => le_digits w (fst r) ++ [snd r]) (set_ranges s)) ++
  zlen (set_elements s) :: concat (map (le_digits w) (set_elements s)).
Definition sets_bytes (w : nat) (l : list rewrite_set) : list Z := zlen l :: indexed 2 (map (set_bytes w) l).

(** ** Rewrite rules, specification.md:280-283. A block is a list of fragments, each with some
    sets followed by some elements. *)
Notation fragment := (list Z * list Z)%type (only parsing).
Record rewrite_rule := mkRule {
  rule_condition : Z; rule_head : list fragment; rule_body : list fragment; rule_tail : list fragment;
  rule_out : list Z }.
Definition fragment_length (f : fragment) : Z := zlen (fst f) + zlen (snd f).
Definition block_length (b : list fragment) : Z := fold_right Z.add 0 (map fragment_length b).
Definition fragment_bytes (w : nat) (f : fragment) : list Z :=
  (16 * zlen (fst f) + zlen (snd f)) :: fst f ++ concat (map (le_digits w) (snd f)).
Definition block_bytes (w : nat) (b : list fragment) : list Z := concat (map (fragment_bytes w) b).
Definition rule_bytes (w : nat) (r : rewrite_rule) : list Z :=
  [rule_condition r; block_length (rule_head r); block_length (rule_body r); block_length (rule_tail r); zlen (rule_out r)] ++
  concat (map (le_digits w) (rule_out r)) ++
  block_bytes w (rule_head r) ++ block_bytes w (rule_body r) ++ block_bytes w (rule_tail r).
Definition rules_bytes (w : nat) (l : list rewrite_rule) : list Z :=
  le_digits 2 (zlen l) ++ indexed 3 (map (rule_bytes w) l).

(** ** A whole font, specification.md:48-330: the sections one after another. *)
Record layout := mkLayout {
  l_header : header_fields; l_metrics : metrics_fields; l_dyes : list dye; l_palettes : list palette;
  l_names : list (list Z * Z); l_glyphs : list glyph;
  l_words : list (list Z); l_settings : list setting;
  l_switches : list (list Z); l_mapping : list (Z * entry);
  l_conditions : list condition; l_utf8_sets : list rewrite_set; l_glyph_sets : list rewrite_set;
  l_utf8_rules : list rewrite_rule; l_glyph_rules : list rewrite_rule;
  l_horz : list kerning_pair; l_vert : list kerning_pair }.
Definition sections (l : layout) : list (list Z) :=
  [ header_bytes (l_header l); metrics_bytes (l_metrics l); dyes_bytes (l_dyes l); palettes_bytes (l_palettes l);
    glyph_names_bytes (l_names l); glyph_masks_bytes (m_vert (l_metrics l)) (l_glyphs l);
    words_bytes (l_words l); setting_names_bytes (l_settings l); setting_defs_bytes (l_settings l);
    switches_bytes (l_switches l); mapping_bytes (l_mapping l);
    conditions_bytes (l_conditions l); sets_bytes 4 (l_utf8_sets l); sets_bytes 2 (l_glyph_sets l);
    rules_bytes 4 (l_utf8_rules l); rules_bytes 2 (l_glyph_rules l);
    kernings_bytes (l_horz l); kernings_bytes (l_vert l) ].
Definition font_bytes (l : layout) : list Z := concat (sections l).
(** where the section with the given number starts *)
Definition section_start (l : layout) (k : nat) : Z := zlen (concat (firstn k (sections l))).

(** ** Well-formed rewrite data *)
Definition quick_operator (op : operator) : Prop :=
  match op with Equal | Different | Less | Greater => True | _ => False end.
(** a condition over [n] settings *)
Fixpoint condition_ok (n : Z) (c : condition) : Prop :=
  match c with
  | COr terms | CAnd terms => 2 <= zlen terms <= 31 /\ fold_right (fun t P => condition_ok n t /\ P) True terms
  | CSettings _ a b => 0 <= a < n /\ 0 <= b < n
  | CConst _ a const => 0 <= a < n /\ byte const
  | CQuick op a const => quick_operator op /\ 0 <= a < n /\ 0 <= const < 32
  end.
(** what a callback that may stop the enumeration sees of a list, and what it leaves behind *)
Fixpoint each_of {T A E} (each : T -> A -> T * option E) (s : T) (l : list A) : T * option E :=
  match l with
  | [] => (s, None)
  | a :: r => match each s a with (s', Some err) => (s', Some err) | (s', None) => each_of each s' r end
  end.
Definition set_in_range (limit : Z) (s : rewrite_set) : Prop :=
  Forall (fun r => 0 <= fst r < limit /\ byte (snd r)) (set_ranges s) /\
  Forall (fun x => 0 <= x < limit) (set_elements s).
(** a block without elements is one empty fragment, others have no empty fragments *)
Definition block_shaped (b : list fragment) : Prop :=
  b = [([], [])] \/ (b <> [] /\ Forall (fun f => 0 < fragment_length f) b).
(** the value of a setting *)
Definition value_of (settings : list Z) (a : Z) : Z := nth (Z.to_nat a) settings 0.
(** Conditions none of whose groups is decided before its last term or by it (so all terms of
    an AND are true and all terms of an OR are false), with generic comparisons only where the
    index of the setting does as well as its value *)
Fixpoint straight (settings : list Z) (c : condition) : Prop :=
  match c with
  | COr ts => fold_right (fun t P => truth (value_of settings) t = false /\ straight settings t /\ P) True ts
  | CAnd ts => fold_right (fun t P => truth (value_of settings) t = true /\ straight settings t /\ P) True ts
  | CSettings op a b => holds op a (value_of settings b) = holds op (value_of settings a) (value_of settings b)
  | CConst op a const => holds op a const = holds op (value_of settings a) const
  | CQuick _ _ _ => True
  end.
