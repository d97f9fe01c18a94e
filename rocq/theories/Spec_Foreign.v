(** What the mask of a glyph index behind the last glyph is read from. *)
From Verif Require Import Base.

(** the number in three bytes of [t] from [k] on *)
Definition three (t : list Z) (k : Z) : option Z :=
  match skipn (Z.to_nat k) t with a :: b :: c :: _ => Some (a + 256 * b + 65536 * c) | _ => None end.
(** [t]: the bytes of a font behind the end offsets of its [n] glyphs, of which the glyphs take [total]; each glyph starts with
    [skip] bytes of placement. Behind the table the bytes of the glyphs are taken for further end offsets. *)
Definition foreign_mask (t : list Z) (n total skip i : Z) : option (list Z) :=
  match (if i =? n then Some total else three t (3 * (i - n - 1))), three t (3 * (i - n)) with
  | Some s, Some e => if (s + skip <=? e) && (e <=? zlen t) then Some (firstn (Z.to_nat (e - (s + skip))) (skipn (Z.to_nat (s + skip)) t)) else None
  | _, _ => None
  end.
