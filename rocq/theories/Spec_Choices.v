(** The choices of a group of glyphs in a built font: the glyphs in the order of their indices, or
    every second of them. *)
From Coq Require Import Permutation.
From Verif Require Import Base Spec_Helpers Model_Font Spec_Layout Spec_Format Model_Builder Spec_Builder.

(** [l] are the numbers from [first] on *)
Definition from_on (first : Z) (l : list Z) (n : Z) : Prop := l = map (fun i => first + i) (zseq n).
Definition sorted_choices (b : builder) (f : Font) (g : GlyphMappingGroup) (uids : list Z) : Prop :=
  exists s, ordered Z.le s /\
    (exists idxs, Forall2 (fun uid i => zget (b_order b) i = Ok uid) uids idxs /\ Permutation s idxs) /\
    (forall first, from_on first s (zlen uids) -> forall i x, zget s i = Ok x -> group_Select f g i = Ok x) /\
    ((forall first, ~ from_on first s (zlen uids)) -> forall i x, 0 <= i -> zget s (2 * i) = Ok x -> group_Select f g i = Ok x) /\
    (zlen uids = 1 -> group_AnimationFlags f g = Ok 0) /\
    (1 < zlen uids -> exists x, zget s 0 = Ok x /\ group_AnimationFlags f g = Ok (x mod 256)).

(** the glyphs have consecutive indices, in some order *)
Definition together (b : builder) (uids : list Z) : Prop :=
  exists first idxs, Forall2 (fun uid i => zget (b_order b) i = Ok uid) uids idxs /\ Permutation idxs (map (fun i => first + i) (zseq (zlen uids))).
(** groups that the lookup of a later case steps over rightly *)
Definition stepped_over (b : builder) (uids : list Z) : Prop :=
  zlen uids = 1 \/ zlen uids < 128 /\ ~ together b uids \/ zlen uids = 128 /\ together b uids.
