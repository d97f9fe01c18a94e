(** Raster operations as specification.md:181-197 describes them, and images as functions
    from positions to values. *)
From Verif Require Import Base Model_Mask.

(** *** Images *)

Definition inside (r : rect) (x y : Z) : Prop := rx0 r <= x < rx1 r /\ ry0 r <= y < ry1 r.
Definition insideb (r : rect) (x y : Z) : bool :=
  (rx0 r <=? x) && (x <? rx1 r) && (ry0 r <=? y) && (y <? ry1 r).
Definition incl_rect (a b : rect) : Prop :=
  rx0 b <= rx0 a /\ ry0 b <= ry0 a /\ rx1 a <= rx1 b /\ ry1 a <= ry1 b.

(** Value at a position, zero outside the image. *)
Definition pixel (m : alpha) (x y : Z) : Z :=
  if insideb (Rect m) x y
  then nth (Z.to_nat ((y - ry0 (Rect m)) * Stride m + (x - rx0 (Rect m)))) (Pix m) 0
  else 0.

(** A packed image as image.NewAlpha makes them. *)
Definition alpha_ok (m : alpha) : Prop :=
  rx0 (Rect m) <= rx1 (Rect m) /\ ry0 (Rect m) <= ry1 (Rect m) /\
  Stride m = rx1 (Rect m) - rx0 (Rect m) /\
  zlen (Pix m) = (rx1 (Rect m) - rx0 (Rect m)) * (ry1 (Rect m) - ry0 (Rect m)) /\
  bytes (Pix m).

(** every position of the rectangle has a byte in Pix (any stride) *)
Definition alpha_readable (m : alpha) : Prop :=
  forall x y, inside (Rect m) x y ->
    0 <= (y - ry0 (Rect m)) * Stride m + (x - rx0 (Rect m)) < zlen (Pix m).

(** coordinates fit in an int *)
Definition int_rect (r : rect) : Prop := MinInt <= rx0 r /\ rx1 r <= MaxInt /\ MinInt <= ry0 r /\ ry1 r <= MaxInt.

Definition rect_area (r : rect) : Z := (rx1 r - rx0 r) * (ry1 r - ry0 r).

(** *** Operations *)

(** nzint8 and nzuint8 (specification.md:29) *)
Definition nz_signed (b : Z) : Z := if b <? 128 then b + 1 else b - 256.
Definition nz_unsigned (b : Z) : Z := b + 1.

Inductive vmove := VNone | VRow | VMove (b : Z).
Inductive draw :=
| DNone | DPixel | DHorz (n : Z) | DVert (n : Z) | DRect (w h : Z) | DDiag (ascending : bool) (n : Z).
(** one operation: new palette index, horizontal move, vertical move, what is drawn; the
    numbers are the data bytes *)
Record rop := mkOp { ocolor : option Z; ohmove : option Z; ovmove : vmove; odraw : draw }.

Definition opt_wf (o : option Z) : Prop := match o with None => True | Some b => byte b end.
Definition vmove_wf (v : vmove) : Prop := match v with VMove b => byte b | _ => True end.
Definition draw_wf (d : draw) : Prop :=
  match d with
  | DNone | DPixel => True
  | DHorz n | DVert n | DDiag _ n => byte n
  | DRect w h => byte w /\ byte h
  end.
Definition rop_wf (o : rop) : Prop :=
  opt_wf (ocolor o) /\ opt_wf (ohmove o) /\ vmove_wf (ovmove o) /\ draw_wf (odraw o).

(** Encoding: control byte, then the data bytes in flag order *)
Definition opt_bytes (o : option Z) : list Z := match o with None => [] | Some b => [b] end.
Definition rop_ctrl (o : rop) : Z :=
  (match ocolor o with None => 0 | Some _ => 1 end) +
  (match ohmove o with None => 0 | Some _ => 2 end) +
  (match ovmove o with VNone => 0 | VMove _ => 4 | VRow => 8 end) +
  (match odraw o with
   | DNone => 0 | DPixel => 128 | DHorz _ => 32 | DVert _ => 64 | DRect _ _ => 32 + 64
   | DDiag false _ => 16 + 32 | DDiag true _ => 16 + 32 + 64
   end).
Definition enc_op (o : rop) : list Z :=
  rop_ctrl o :: opt_bytes (ocolor o) ++ opt_bytes (ohmove o) ++
  (match ovmove o with VMove b => [b] | _ => [] end) ++
  (match odraw o with
   | DNone | DPixel => [] | DHorz n | DVert n | DDiag _ n => [n] | DRect w h => [w; h]
   end).
Definition enc_ops (ops : list rop) : list Z := concat (map enc_op ops).

(** *** Meaning *)

(** pen position and palette index *)
Record pen := mkPen { penx : Z; peny : Z; penc : Z }.
Definition pen0 : pen := mkPen 0 0 255.

(** before drawing *)
Definition pen_at (o : rop) (p : pen) : pen :=
  mkPen (penx p + match ohmove o with None => 0 | Some b => nz_signed b end)
        (peny p + match ovmove o with VNone => 0 | VRow => 1 | VMove b => nz_signed b end)
        (match ocolor o with None => penc p | Some c => c end).

Definition draw_width (d : draw) : Z :=
  match d with
  | DNone => 0 | DPixel => 1 | DHorz n => nz_unsigned n | DVert _ => 1
  | DRect w _ => nz_unsigned w | DDiag _ n => nz_unsigned n
  end.
(** after drawing: the width is advanced, the height is not *)
Definition pen_after (o : rop) (p : pen) : pen :=
  let q := pen_at o p in mkPen (penx q + draw_width (odraw o)) (peny q) (penc q).

(** positions drawn by d at (x, y) *)
Definition covers (d : draw) (x y px py : Z) : bool :=
  match d with
  | DNone => false
  | DPixel => (px =? x) && (py =? y)
  | DHorz n => (x <=? px) && (px <? x + nz_unsigned n) && (py =? y)
  | DVert n => (px =? x) && (y <=? py) && (py <? y + nz_unsigned n)
  | DRect w h => (x <=? px) && (px <? x + nz_unsigned w) && (y <=? py) && (py <? y + nz_unsigned h)
  | DDiag false n => (x <=? px) && (px <? x + nz_unsigned n) && (py =? y + (px - x))
  | DDiag true n => (x <=? px) && (px <? x + nz_unsigned n) && (py =? y + nz_unsigned n - 1 - (px - x))
  end.

(** is the position drawn by some operation? *)
Fixpoint drawn (ops : list rop) (p : pen) (px py : Z) : bool :=
  match ops with
  | [] => false
  | o :: rest =>
    covers (odraw o) (penx (pen_at o p)) (peny (pen_at o p)) px py || drawn rest (pen_after o p) px py
  end.

(** value of the last operation drawing the position, v if there is none *)
Fixpoint value_at (ops : list rop) (p : pen) (px py : Z) (v : Z) : Z :=
  match ops with
  | [] => v
  | o :: rest =>
    value_at rest (pen_after o p) px py
      (if covers (odraw o) (penx (pen_at o p)) (peny (pen_at o p)) px py then penc (pen_at o p) else v)
  end.

(** r is the smallest rectangle containing the positions in P *)
Definition smallest_rect (P : Z -> Z -> Prop) (r : rect) : Prop :=
  (forall x y, P x y -> inside r x y) /\
  (forall r', (forall x y, P x y -> inside r' x y) -> incl_rect r r').
