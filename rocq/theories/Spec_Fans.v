(** Rewrite rules no two of which can start with the same glyph (or code point), with any sets. *)
From Verif Require Import Base Spec_Layout Model_Font Model_Rewrites Model_Scanner Spec_Tree.

(** The ranges an element consists of *)
Definition glyph_members (f : Font) (e : element) (rs : list (Z * Z)) : Prop :=
  match e with
  | Single x => rs = [(x, x)]
  | InSet s => s <> 255 /\ rs <> [] /\ exists st, rewrites_GetGlyphSet f s = Ok (set_bytes 2 st) /\ set_in_range 65536 st /\
      rs = map (fun r : Z * Z => (fst r, fst r + snd r)) (set_ranges st) ++ map (fun g => (g, g)) (set_elements st) /\
      Forall (fun r : Z * Z => snd r < 65535) rs
  end.
(** Of ranges of code points only the first one is read, see C38. *)
Definition rune_members (f : Font) (e : element) (rs : list (Z * Z)) : Prop :=
  match e with
  | Single x => rs = [(x, x)]
  | InSet s => s <> 255 /\ rs <> [] /\ exists st, rewrites_GetUtf8Set f s = Ok (set_bytes 4 st) /\ set_in_range 16777216 st /\
      rs = map (fun y => (y, y)) (map fst (set_ranges st) ++ set_elements st)
  end.

(** [members] are the ranges of the elements of the rules: any two are the same or do not overlap,
    no element has one twice, and no two rules have one in common in their first elements. *)
Definition firsts {A} (members : list (list (list A))) : list A := concat (map (hd []) members).
Definition fanned (members : list (list (list (Z * Z)))) : Prop :=
  apart (concat (concat members)) /\ Forall (Forall (@NoDup (Z * Z))) members /\ NoDup (firsts members).

(** What a decision tree has room for: 254 states (the root, and one for every element of a rule
    but its last), and 254 transitions from each. *)
Definition fan_steps {A} (members : list (list (list A))) : Z := fold_right (fun l n => zlen l - 1 + n) 0 members.
Definition fan_limits {A} (members : list (list (list A))) : Prop :=
  1 + fan_steps members <= 254 /\ zlen (firsts members) <= 254 /\ Forall (fun l => Forall (fun N => zlen N <= 254) (tl l)) members.
