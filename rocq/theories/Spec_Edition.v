(** The edition data of a font, specification.md:333-363. *)
From Verif Require Import Base Spec_Helpers Spec_Names Spec_Format.

(** pairs are two glyph indices and a class; classes are numbered from one *)
Record edition := mkEdition {
  e_id : Z;
  e_categories : list (list Z * Z);
  e_classes : list (list Z * Z);
  e_horz : list (Z * Z * Z);
  e_vert : list (Z * Z * Z);
  e_conditions : list (list Z) }.
Definition pair_bytes (p : Z * Z * Z) : list Z := le_digits 2 (fst (fst p)) ++ le_digits 2 (snd (fst p)) ++ le_digits 2 (snd p).
(** [w] is the width of the numbers of pairs: 3 in the specification *)
Definition edition_bytes (w : nat) (e : edition) : list Z :=
  le_digits 8 (e_id e) ++
  [zlen (e_categories e)] ++ concat (map (fun c => short_string (fst c)) (e_categories e)) ++ concat (map (fun c => le_digits 2 (snd c)) (e_categories e)) ++
  le_digits 2 (zlen (e_classes e)) ++ concat (map (fun c => short_string (fst c)) (e_classes e)) ++ map (fun c => snd c mod 256) (e_classes e) ++
  le_digits w (zlen (e_horz e)) ++ concat (map pair_bytes (e_horz e)) ++
  le_digits w (zlen (e_vert e)) ++ concat (map pair_bytes (e_vert e)) ++
  [zlen (e_conditions e)] ++ concat (map short_string (e_conditions e)).

(** values within the ranges of their types *)
Definition edition_typed (e : edition) : Prop :=
  0 <= e_id e < 2 ^ 64 /\ zlen (e_categories e) < 256 /\ Forall (fun c => bytes (fst c) /\ zlen (fst c) < 256 /\ 0 <= snd c < 65536) (e_categories e) /\
  zlen (e_classes e) < 65536 /\ Forall (fun c => bytes (fst c) /\ zlen (fst c) < 256 /\ -128 <= snd c < 128) (e_classes e) /\
  Forall (fun p => 0 <= fst (fst p) < 65536 /\ 0 <= snd (fst p) < 65536 /\ 0 <= snd p < 65536) (e_horz e ++ e_vert e) /\
  zlen (e_horz e) < 2 ^ 24 /\ zlen (e_vert e) < 2 ^ 24 /\
  zlen (e_conditions e) < 255 /\ Forall (fun n => bytes n /\ zlen n < 256) (e_conditions e).
(** what the specification asks for, for a font with [glyphs] glyphs and [conditions] rewrite
    conditions: names of at most 60 characters for categories, whose sizes add up to the number of
    glyphs; existing glyphs and classes in pairs; no pair twice *)
Definition category_name (s : list Z) : Prop := s <> [] /\ (length s <= 60)%nat /\ Forall (fun c => alnum c \/ c = hyphen \/ c = 32) s.
Definition pairs_valid (glyphs classes : Z) (l : list (Z * Z * Z)) : Prop :=
  NoDup (map fst l) /\ Forall (fun p => fst (fst p) < glyphs /\ snd (fst p) < glyphs /\ 1 <= snd p <= classes) l.
Definition edition_valid (id glyphs conditions : Z) (e : edition) : Prop :=
  e_id e = id /\ Forall (fun c => category_name (fst c)) (e_categories e) /\
  fold_right Z.add 0 (map snd (e_categories e)) = glyphs /\
  Forall (fun c => spaced_name (fst c)) (e_classes e) /\
  pairs_valid glyphs (zlen (e_classes e)) (e_horz e) /\ pairs_valid glyphs (zlen (e_classes e)) (e_vert e) /\
  zlen (e_conditions e) = conditions /\ Forall spaced_name (e_conditions e).
(** what the code asks for *)
Definition pairs_taken (glyphs : Z) (l : list (Z * Z * Z)) : Prop :=
  Forall (fun p => fst (fst p) < glyphs /\ snd (fst p) < glyphs /\ 1 <= snd p) l.
Definition edition_taken (id glyphs conditions : Z) (e : edition) : Prop :=
  e_id e = id /\ Forall (fun c => spaced_name (fst c)) (e_categories e) /\ Forall (fun c => spaced_name (fst c)) (e_classes e) /\
  pairs_taken glyphs (e_horz e) /\ pairs_taken glyphs (e_vert e) /\
  zlen (e_conditions e) = conditions /\ Forall spaced_name (e_conditions e).

(** the class listed for two glyphs: the last one *)
Definition listed (order : list Z) (l : list (Z * Z * Z)) (u v : Z) (class : option Z) : Prop :=
  let here (p : Z * Z * Z) := zget order (fst (fst p)) = Ok u /\ zget order (snd (fst p)) = Ok v in
  match class with
  | Some c => exists l1 p l2, l = l1 ++ p :: l2 /\ here p /\ snd p = c /\ Forall (fun q => ~ here q) l2
  | None => Forall (fun q => ~ here q) l
  end.
