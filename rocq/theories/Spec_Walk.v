(** How the lookup of code points walks over the cases of a switch. *)
From Verif Require Import Base.

(** the bytes taken for one case, from its first byte: one more than its lower seven bits is the number of glyphs; 128 glyphs
    are taken for a range of four bytes, others for lists *)
Definition pace (info : Z) : Z :=
  let n := info mod 128 + 1 in if n =? 128 then 4 else if n =? 1 then 3 else 2 + 2 * n.
(** the bytes left after some cases, if the walk stays inside *)
Fixpoint walk (cases : nat) (l : list Z) : option (list Z) :=
  match cases, l with
  | O, _ => Some l
  | S n, i :: _ => if pace i <? zlen l then walk n (skipn (Z.to_nat (pace i)) l) else None
  | S _, [] => None
  end.
