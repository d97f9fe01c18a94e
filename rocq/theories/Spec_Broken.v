(** Files of edition data that make the reader panic. *)
From Verif Require Import Base Spec_Helpers Spec_Names Spec_Format Spec_Edition Model_Parse Spec_Reader.

(** a file up to the kerning pairs, and a list of pairs with its length in four bytes *)
Definition front_bytes (e : edition) : list Z :=
  le_digits 8 (e_id e) ++
  [zlen (e_categories e)] ++ concat (map (fun c => short_string (fst c)) (e_categories e)) ++ concat (map (fun c => le_digits 2 (snd c)) (e_categories e)) ++
  le_digits 2 (zlen (e_classes e)) ++ concat (map (fun c => short_string (fst c)) (e_classes e)) ++ map (fun c => snd c mod 256) (e_classes e).
Definition list_bytes (l : list (Z * Z * Z)) : list Z := le_digits 4 (zlen l) ++ concat (map pair_bytes l).
Definition front_taken (id : Z) (e : edition) : Prop :=
  e_id e = id /\ 0 <= id < 2 ^ 64 /\
  zlen (e_categories e) < 256 /\ Forall (fun c => bytes (fst c) /\ zlen (fst c) < 256 /\ 0 <= snd c < 65536) (e_categories e) /\
  zlen (e_classes e) < 65536 /\ Forall (fun c => bytes (fst c) /\ zlen (fst c) < 256 /\ -128 <= snd c < 128) (e_classes e) /\
  Forall (fun c => spaced_name (fst c)) (e_categories e) /\ Forall (fun c => spaced_name (fst c)) (e_classes e).
Definition pairs_typed (l : list (Z * Z * Z)) : Prop :=
  Forall (fun p => 0 <= fst (fst p) < 65536 /\ 0 <= snd (fst p) < 65536 /\ 0 <= snd p < 65536) l.
(** the beginning of a list of pairs, up to the first one that has a class but not two glyphs *)
Definition list_broken (glyphs : Z) (b : list Z) : Prop := exists n l p,
  b = le_digits 4 n ++ concat (map pair_bytes l) ++ pair_bytes p /\ zlen l < n < 2 ^ 32 /\
  pairs_typed (l ++ [p]) /\ pairs_taken glyphs l /\ 1 <= snd p /\ (glyphs <= fst (fst p) \/ glyphs <= snd (fst p)).
Definition broken (id glyphs : Z) (P : list Z) : Prop := exists e b post, front_taken id e /\ list_broken glyphs b /\
  (P = front_bytes e ++ b ++ post \/
   P = front_bytes e ++ list_bytes (e_horz e) ++ b ++ post /\ pairs_typed (e_horz e) /\ pairs_taken glyphs (e_horz e)).
(** the reader reports the end with the result that completes [n] bytes, or with the first one
    after it that is not idle *)
Definition ends_after (n : Z) (i : stream) : bool := let '(_, ended, unread) := received n [] i in ended || closes unread.
