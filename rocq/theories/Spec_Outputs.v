(** What is passed on for rules with several code points as outputs, and what is found in switches
    behind cases that are skipped wrongly. *)
From Verif Require Import Base Spec_Format.

(** the number made of the upper half of one code point and the lower half of the next *)
Definition between (x y : Z) : Z := i32 (x / 65536 + 65536 * (y mod 65536)).
Fixpoint woven (l : list Z) : list Z :=
  match l with
  | x :: ((y :: _) as r) => x :: between x y :: woven r
  | _ => l
  end.

(** cases that are not skipped rightly: ranges of 2 to 127 glyphs and lists of 128; and how many
    bytes are skipped for them *)
Definition misjudged (g : group) : Prop :=
  match g with GList _ l => zlen l = 128 | GRange _ _ size => 2 <= size <= 127 end.
Definition stride (g : group) : Z :=
  match g with GList _ _ => 4 | GRange _ _ size => 2 * size + 2 end.
