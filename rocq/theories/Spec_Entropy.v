(** When a font ID is varied enough. *)
From Verif Require Import Base.

(** the 32 digits of two bits of a number, of which one starts every [step] bits *)
Definition digits (step id : Z) : list Z := map (fun i => (id / 2 ^ (step * i)) mod 4) (zseq 32).
Definition occurs (k : Z) (l : list Z) : Z := zlen (filter (Z.eqb k) l).
(** how far the numbers of zeros, ones, twos and threes are from eight *)
Definition unevenness (l : list Z) : Z :=
  Z.abs (occurs 0 l - 8) + Z.abs (occurs 1 l - 8) + Z.abs (occurs 2 l - 8) + Z.abs (occurs 3 l - 8).
(** 1 - unevenness / 48 is at least 0.26 *)
Definition varied (l : list Z) : Prop := 26 * 48 <= 100 * (48 - unevenness l).
