(** Model of /repo/mask: rasterize.go, compute_rect.go, encoder.go,
    encoder_helper_funcs.go, raster_fragment.go, and the few functions of Go's standard
    package image they use. Go's int is modelled by Z: coordinate overflow (needing inputs
    of 2^50 bytes or more) is not modelled. Values returned together with an error are
    not modelled. *)
From Verif Require Import Base.

(** image.Rectangle: Min inclusive, Max exclusive *)
Record rect := mkRect { rx0 : Z; ry0 : Z; rx1 : Z; ry1 : Z }.
(** image.Alpha *)
Record alpha := mkAlpha { Pix : list Z; Stride : Z; Rect : rect }.

(** image.Rectangle.Empty *)
Definition rect_Empty (r : rect) : bool := (rx0 r >=? rx1 r) || (ry0 r >=? ry1 r).
(** image.Rect: swaps the corners if needed *)
Definition image_Rect (a b c d : Z) : rect :=
  mkRect (Z.min a c) (Z.min b d) (Z.max a c) (Z.max b d).

(** the bounds of Go's int on 64 bits *)
Definition MaxInt : Z := 9223372036854775807.
Definition MinInt : Z := -9223372036854775808.
(** Largest allocation of Go's runtime on 64-bit Linux; make panics beyond it. *)
Definition maxAlloc : Z := 281474976710656.

(** image.NewAlpha (pixelBufferLength and make) *)
Definition NewAlpha (r : rect) : outcome alpha :=
  let w := rx1 r - rx0 r in let h := ry1 r - ry0 r in
  if (w <? 0) || (h <? 0) || (w * h >? maxAlloc) then Panic
  else Ok (mkAlpha (repeat 0 (Z.to_nat (w * h))) w r).

(** image.Alpha.SetAlpha *)
Definition SetAlpha (im : alpha) (x y v : Z) : outcome alpha :=
  let r := Rect im in
  if (rx0 r <=? x) && (x <? rx1 r) && (ry0 r <=? y) && (y <? ry1 r) then
    do p <- zset (Pix im) ((y - ry0 r) * Stride im + (x - rx0 r)) v;
    Ok (mkAlpha p (Stride im) r)
  else Ok im.

(** rasterize.go:245-251 *)
Definition nzint8AsInt (value : Z) : Z := if value >=? 128 then i8 value else value + 1.

(** ctrl & flag != 0 *)
Definition has (ctrl flag : Z) : bool := negb (Z.land ctrl flag =? 0).

Definition ErrUnexpectedRasterOptsEnd : string := "unexpected raster data termination".
Definition ErrIncompatibleRowAdvance : string := "row advance with vertical pre move".
Definition ErrIncompatibleSinglePixDraw : string := "single pixel draw with other draw flags".
Definition ErrSuperfluousDiagonal : string := "diagonal mode without drawing".
Definition ErrDiagonalSinglePixDraw : string := "single pixel draw on diagonal mode".

(** "index += 1; if index >= len(rasterOps) { return ..., err }; rasterOps[index]",
    repeated through both decoders *)
Definition next_byte (ops : list Z) (index : Z) : outcome (Z * Z) :=
  let index := index + 1 in
  if index >=? zlen ops then Err ErrUnexpectedRasterOptsEnd
  else do v <- zget ops index; Ok (index, v).

(** rasterize.go:80-96 (descending and ascending cases of the diagonal drawing loop) *)
Fixpoint draw_desc (n : nat) (im : alpha) (x y v : Z) : outcome (alpha * Z * Z) :=
  match n with
  | O => Ok (im, x, y)
  | S n => do im <- SetAlpha im x y v; draw_desc n im (x + 1) (y + 1) v
  end.
Fixpoint draw_asc (n : nat) (im : alpha) (x y v : Z) : outcome (alpha * Z * Z) :=
  match n with
  | O => Ok (im, x, y)
  | S n => do im <- SetAlpha im x (y - 1) v; draw_asc n im (x + 1) (y - 1) v
  end.

(** rasterize.go:124-128 (rectangle drawing loops) *)
Fixpoint draw_row (n : nat) (im : alpha) (x y v : Z) : outcome alpha :=
  match n with O => Ok im | S n => do im <- SetAlpha im x y v; draw_row n im (x + 1) y v end.
Fixpoint draw_rows (n : nat) (w : nat) (im : alpha) (x y v : Z) : outcome alpha :=
  match n with O => Ok im | S n => do im <- draw_row w im x y v; draw_rows n w im x (y + 1) v end.

(** rasterize.go:99-121: reading of the rectangle draw sizes; the flag [draws] and the sizes are returned. *)
Definition read_draw_sizes (ops : list Z) (ctrl index : Z) : outcome (Z * bool * Z * Z) :=
  do ' (index, draws, xInc, yInc) <-
    (if has ctrl 32 then do ' (index, v) <- next_byte ops index; Ok (index, true, v + 1, 1)
     else Ok (index, false, 0, 0));
  do ' (index, draws, xInc, yInc) <-
    (if has ctrl 64 then
       do ' (index, v) <- next_byte ops index;
       Ok (index, true, if negb draws then 1 else xInc, v + 1)
     else Ok (index, draws, xInc, yInc));
  if has ctrl 128 then
    if draws then Err ErrIncompatibleSinglePixDraw else Ok (index, true, 1, 1)
  else Ok (index, draws, xInc, yInc).

(** rasterize.go:49-64: moves before drawing (palette index excluded) *)
Definition read_moves (ops : list Z) (ctrl index x y : Z) : outcome (Z * Z * Z) :=
  do ' (index, x) <-
    (if has ctrl 2 then do ' (index, v) <- next_byte ops index; Ok (index, x + nzint8AsInt v)
     else Ok (index, x));
  do ' (index, y) <-
    (if has ctrl 4 then do ' (index, v) <- next_byte ops index; Ok (index, y + nzint8AsInt v)
     else Ok (index, y));
  if has ctrl 8 then
    if has ctrl 4 then Err ErrIncompatibleRowAdvance else Ok (index, x, y + 1)
  else Ok (index, x, y).

(** Drawing part of the loop body, rasterize.go:66-131: new index, mask and position *)
Definition raster_draw (ops : list Z) (ctrl : Z) (mask : alpha) (index paletteIndex x y : Z)
    : outcome (Z * alpha * Z * Z) :=
  if has ctrl 16 then
    if has ctrl 128 then Err ErrDiagonalSinglePixDraw
    else if negb (has ctrl 32) then Err ErrSuperfluousDiagonal
    else
      do ' (index, v) <- next_byte ops index;
      let diagonalLen := v + 1 in
      if has ctrl 64 then
        do ' (mask, x, y) <- draw_asc (Z.to_nat diagonalLen) mask x (y + diagonalLen) paletteIndex;
        Ok (index, mask, x, y)
      else
        do ' (mask, x, y) <- draw_desc (Z.to_nat diagonalLen) mask x y paletteIndex;
        Ok (index, mask, x, y - diagonalLen)
  else
    do ' (index, draws, xInc, yInc) <- read_draw_sizes ops ctrl index;
    if (draws : bool) then
      do mask <- draw_rows (Z.to_nat yInc) (Z.to_nat xInc) mask x y paletteIndex;
      Ok (index, mask, x + xInc, y)
    else Ok (index, mask, x, y).

(** Loop of rasterize.go:38-138 *)
Fixpoint raster_loop (fuel : nat) (ops : list Z) (mask : alpha) (index paletteIndex x y : Z)
    : outcome alpha :=
  match fuel with
  | O => Hang
  | S fuel =>
    do ctrl <- zget ops index;
    do ' (index, paletteIndex) <-
      (if has ctrl 1 then next_byte ops index else Ok (index, paletteIndex));
    do ' (index, x, y) <- read_moves ops ctrl index x y;
    do ' (index, mask, x, y) <- raster_draw ops ctrl mask index paletteIndex x y;
    let index := index + 1 in
    if index =? zlen ops then Ok mask
    else raster_loop fuel ops mask index paletteIndex x y
  end.

(** rasterize.go:199-221: reading of the rectangle draw sizes in the bounds pass; the flag [draws] and the sizes are returned. *)
Definition rect_read_draw_sizes (ops : list Z) (ctrl index : Z) : outcome (Z * bool * Z * Z) :=
  do ' (index, draws, xInc, yInc) <-
    (if has ctrl 32 then do ' (index, v) <- next_byte ops index; Ok (index, true, v + 1, 1)
     else Ok (index, false, 0, 0));
  do ' (index, draws, xInc, yInc) <-
    (if has ctrl 64 then
       do ' (index, v) <- next_byte ops index;
       Ok (index, true, if negb draws then 1 else xInc, v + 1)
     else Ok (index, draws, xInc, yInc));
  if has ctrl 128 then
    if draws then Err ErrIncompatibleSinglePixDraw else Ok (index, true, 1, 1)
  else Ok (index, draws, xInc, yInc).

(** rasterize.go:159-174: moves before drawing (palette index excluded) *)
Definition rect_read_moves (ops : list Z) (ctrl index x y : Z) : outcome (Z * Z * Z) :=
  do ' (index, x) <-
    (if has ctrl 2 then do ' (index, v) <- next_byte ops index; Ok (index, x + nzint8AsInt v)
     else Ok (index, x));
  do ' (index, y) <-
    (if has ctrl 4 then do ' (index, v) <- next_byte ops index; Ok (index, y + nzint8AsInt v)
     else Ok (index, y));
  if has ctrl 8 then
    if has ctrl 4 then Err ErrIncompatibleRowAdvance else Ok (index, x, y + 1)
  else Ok (index, x, y).

(** rasterize.go:191-196 and 224-229: growing the bounds *)
Definition grow_rect (r : rect) (x y xInc yInc : Z) : rect :=
  let r := if x <? rx0 r then mkRect x (ry0 r) (rx1 r) (ry1 r) else r in
  let r := if y <? ry0 r then mkRect (rx0 r) y (rx1 r) (ry1 r) else r in
  let r := if x + xInc >? rx1 r then mkRect (rx0 r) (ry0 r) (x + xInc) (ry1 r) else r in
  if y + yInc >? ry1 r then mkRect (rx0 r) (ry0 r) (rx1 r) (y + yInc) else r.

(** Drawing part of the bounds pass, rasterize.go:176-231: new index, bounds and x *)
Definition rect_draw (ops : list Z) (ctrl : Z) (r : rect) (index x y : Z) : outcome (Z * rect * Z) :=
  if has ctrl 16 then
    if has ctrl 128 then Err ErrDiagonalSinglePixDraw
    else if negb (has ctrl 32) then Err ErrSuperfluousDiagonal
    else
      do ' (index, v) <- next_byte ops index;
      let diagonalLen := v + 1 in
      Ok (index, grow_rect r x y diagonalLen diagonalLen, x + diagonalLen)
  else
    do ' (index, draws, xInc, yInc) <- rect_read_draw_sizes ops ctrl index;
    if (draws : bool) then Ok (index, grow_rect r x y xInc yInc, x + xInc)
    else Ok (index, r, x).

(** Loop of rasterize.go:149-238 *)
Fixpoint rect_loop (fuel : nat) (ops : list Z) (r : rect) (index x y : Z) : outcome rect :=
  match fuel with
  | O => Hang
  | S fuel =>
    do ctrl <- zget ops index;
    do index <-
      (if has ctrl 1 then do ' (index, v) <- next_byte ops index; Ok index else Ok index);
    do ' (index, x, y) <- rect_read_moves ops ctrl index x y;
    do ' (index, r, x) <- rect_draw ops ctrl r index x y;
    let index := index + 1 in
    if index =? zlen ops then Ok r
    else rect_loop fuel ops r index x y
  end.

(** rasterize.go:145-241 *)
Definition computeRasterOpsRect (ops : list Z) : outcome rect :=
  let r := mkRect MaxInt MaxInt MinInt MinInt in
  if zlen ops =? 0 then Ok r
  else rect_loop (length ops) ops r 0 0 0.

(** rasterize.go:29-141; None stands for a nil mask *)
Definition Rasterize (ops : list Z) : outcome (option alpha) :=
  do r <- computeRasterOpsRect ops;
  if rect_Empty r then Ok None
  else
    do mask <- NewAlpha r;
    do mask <- raster_loop (length ops) ops mask 0 255 0 0;
    Ok (Some mask).

(** *** compute_rect.go *)

Record crect := mkCR { minX : Z; maxX : Z; minY : Z; maxY : Z }.

(** compute_rect.go:15-23 *)
Fixpoint cr_row (n : nat) (m : alpha) (index x : Z) (active : bool) (c : crect)
    : outcome (bool * crect) :=
  match n with
  | O => Ok (active, c)
  | S n =>
    do value <- zget (Pix m) index;
    if negb (value =? 0) then
      let c := if x <? minX c then mkCR x (maxX c) (minY c) (maxY c) else c in
      let c := if x >? maxX c then mkCR (minX c) x (minY c) (maxY c) else c in
      cr_row n m (index + 1) (x + 1) true c
    else cr_row n m (index + 1) (x + 1) active c
  end.
(** compute_rect.go:12-30 *)
Fixpoint cr_rows (n : nat) (m : alpha) (y : Z) (empty : bool) (c : crect) : outcome (bool * crect) :=
  match n with
  | O => Ok (empty, c)
  | S n =>
    do ' (active, c) <- cr_row (Z.to_nat (rx1 (Rect m) - rx0 (Rect m))) m
        ((y - ry0 (Rect m)) * Stride m) (rx0 (Rect m)) false c;
    if (active : bool) then
      let c := if y <? minY c then mkCR (minX c) (maxX c) y (maxY c) else c in
      let c := if y >? maxY c then mkCR (minX c) (maxX c) (minY c) y else c in
      cr_rows n m (y + 1) false c
    else cr_rows n m (y + 1) empty c
  end.
(** compute_rect.go:5-34 *)
Definition ComputeRect (m : alpha) : outcome rect :=
  let r := Rect m in
  do ' (empty, c) <- cr_rows (Z.to_nat (ry1 r - ry0 r)) m (ry0 r) true
      (mkCR (rx1 r + 1) (rx0 r - 1) (ry1 r + 1) (ry0 r - 1));
  if (empty : bool) then Ok (mkRect 0 0 0 0)
  else Ok (image_Rect (minX c) (minY c) (maxX c + 1) (maxY c + 1)).

(** *** raster_fragment.go *)

(** raster_fragment.go:5-10 *)
Inductive diagType := diagNone | diagAsc | diagDesc.
(** raster_fragment.go:12-19; all bounds inclusive *)
Record fragment := mkFrag {
  fx0 : Z; fy0 : Z; fx1 : Z; fy1 : Z; fvalue : Z; fdiag : diagType
}.

(** raster_fragment.go:26-29 *)
Fixpoint clear_row (n : nat) (pix : list Z) (index : Z) (step : Z) : outcome (list Z) :=
  match n with
  | O => Ok pix
  | S n => do pix <- zset pix index 0; clear_row n pix (index + step) step
  end.
(** raster_fragment.go:24-30 *)
Fixpoint clear_rows (n w : nat) (pix : list Z) (x y stride : Z) : outcome (list Z) :=
  match n with
  | O => Ok pix
  | S n => do pix <- clear_row w pix (y * stride + x) 1; clear_rows n w pix x (y + 1) stride
  end.
(** raster_fragment.go:21-48 *)
Definition ClearFrom (f : fragment) (im : alpha) : outcome alpha :=
  let r := Rect im in
  let steps := Z.to_nat (fx1 f + 1 - fx0 f) in
  do pix <-
    match fdiag f with
    | diagNone =>
      clear_rows (Z.to_nat (fy1 f + 1 - fy0 f)) steps (Pix im) (fx0 f - rx0 r) (fy0 f - ry0 r) (Stride im)
    | diagAsc =>
      clear_row steps (Pix im) ((fy0 f - ry0 r) * Stride im + (fx1 f - rx0 r)) (Stride im - 1)
    | diagDesc =>
      clear_row steps (Pix im) ((fy0 f - ry0 r) * Stride im + (fx0 f - rx0 r)) (Stride im + 1)
    end;
  Ok (mkAlpha pix (Stride im) r).

(** *** encoder_helper_funcs.go *)

(** encoder_helper_funcs.go:9-11 *)
Definition getPixelIndex (im : alpha) (x y : Z) : Z :=
  (y - ry0 (Rect im)) * Stride im + (x - rx0 (Rect im)).

(** "cond && img.Pix[index] == value" with short-circuit evaluation *)
Definition pix_is (im : alpha) (cond : bool) (index value : Z) : outcome bool :=
  if cond then do v <- zget (Pix im) index; Ok (v =? value) else Ok false.

Definition above (im : alpha) (y index value : Z) := pix_is im (y >? ry0 (Rect im)) (index - Stride im) value.
Definition below (im : alpha) (y index value : Z) := pix_is im (y + 1 <? ry1 (Rect im)) (index + Stride im) value.
Definition left_of (im : alpha) (x index value : Z) := pix_is im (x >? rx0 (Rect im)) (index - 1) value.
Definition right_of (im : alpha) (x index value : Z) := pix_is im (x + 1 <? rx1 (Rect im)) (index + 1) value.

Definition b2z (b : bool) : Z := if b then 1 else 0.

(** encoder_helper_funcs.go:17-28; applySafetyChecks is the constant true *)
Definition countNeighbours (im : alpha) (x y index value : Z) : outcome Z :=
  if negb (index =? getPixelIndex im x y) then Panic else
  do a <- above im y index value;
  do b <- below im y index value;
  do l <- left_of im x index value;
  do r <- right_of im x index value;
  Ok (b2z a + b2z b + b2z l + b2z r).

(** The four scanning loops of encoder_helper_funcs.go:55-58, 69-72, 80-83, 89-92: move
    [pos] by [dir] and [index] by [step] while [pos] is inside [limit] and the pixel matches. *)
Fixpoint scan_line (fuel : nat) (im : alpha) (inside : Z -> bool) (dir step : Z) (pos index value : Z)
    : outcome Z :=
  match fuel with
  | O => Hang
  | S fuel =>
    do ok <- pix_is im (inside pos) index value;
    if (ok : bool) then scan_line fuel im inside dir step (pos + dir) (index + step) value
    else Ok pos
  end.

Definition line_fuel (im : alpha) : nat :=
  S (Z.to_nat (rx1 (Rect im) - rx0 (Rect im) + (ry1 (Rect im) - ry0 (Rect im)))).

(** panics when the neighbour test holds *)
Definition panic_if (o : outcome bool) : outcome unit := do b <- o; if (b : bool) then Panic else Ok tt.

(** encoder_helper_funcs.go:38-97 *)
Definition findLine (im : alpha) (x y index value : Z) : outcome fragment :=
  if negb (index =? getPixelIndex im x y) then Panic else
  do v <- zget (Pix im) index;
  if negb (v =? value) then Panic else
  do n <- countNeighbours im x y index value;
  if negb (n =? 1) then Panic else
  let r := Rect im in
  do goesLeft <- left_of im x index value;
  if (goesLeft : bool) then
    do _u <- panic_if (above im y index value);
    do _u <- panic_if (below im y index value);
    do _u <- panic_if (right_of im x index value);
    do p <- scan_line (line_fuel im) im (fun p => p >? rx0 r) (-1) (-1) (x - 1) (index - 2) value;
    Ok (mkFrag p y x y value diagNone)
  else
  do goesUp <- above im y index value;
  if (goesUp : bool) then
    do _u <- panic_if (below im y index value);
    do _u <- panic_if (right_of im x index value);
    do p <- scan_line (line_fuel im) im (fun p => p >? ry0 r) (-1) (- Stride im) (y - 1) (index - Stride im * 2) value;
    Ok (mkFrag x p x y value diagNone)
  else
  do goesDown <- below im y index value;
  if (goesDown : bool) then
    do _u <- panic_if (right_of im x index value);
    do p <- scan_line (line_fuel im) im (fun p => p + 1 <? ry1 r) 1 (Stride im) (y + 1) (index + Stride im * 2) value;
    Ok (mkFrag x y x p value diagNone)
  else
  do goesRight <- right_of im x index value;
  if (goesRight : bool) then
    do p <- scan_line (line_fuel im) im (fun p => p + 1 <? rx1 r) 1 1 (x + 1) (index + 2) value;
    Ok (mkFrag x y p y value diagNone)
  else Panic.

(** encoder_helper_funcs.go:115-122 and 135-142: are [n] pixels from [index] on equal? *)
Fixpoint all_equal (n : nat) (im : alpha) (index step value : Z) : outcome bool :=
  match n with
  | O => Ok true
  | S n =>
    do v <- zget (Pix im) index;
    if v =? value then all_equal n im (index + step) step value else Ok false
  end.

(** Loop of encoder_helper_funcs.go:111-151; width and height are maxX + 1 - minX and
    maxY + 1 - minY throughout *)
Fixpoint rect_expand (fuel : nat) (im : alpha) (f : fragment) (stopDown stopRight : bool)
    : outcome fragment :=
  match fuel with
  | O => Hang
  | S fuel =>
    if stopDown && stopRight then Ok f
    else
      let r := Rect im in
      do ' (f, stopDown) <-
        (if negb stopDown then
           let index := (fy1 f + 1 - ry0 r) * Stride im + (fx0 f - rx0 r) in
           do e <- all_equal (Z.to_nat (fx1 f + 1 - fx0 f)) im index 1 (fvalue f);
           if (e : bool) then
             Ok (mkFrag (fx0 f) (fy0 f) (fx1 f) (fy1 f + 1) (fvalue f) (fdiag f), fy1 f + 1 + 1 >=? ry1 r)
           else Ok (f, true)
         else Ok (f, stopDown));
      do ' (f, stopRight) <-
        (if negb stopRight then
           let index := (fy0 f - ry0 r) * Stride im + (fx1 f - rx0 r) + 1 in
           do e <- all_equal (Z.to_nat (fy1 f + 1 - fy0 f)) im index (Stride im) (fvalue f);
           if (e : bool) then
             Ok (mkFrag (fx0 f) (fy0 f) (fx1 f + 1) (fy1 f) (fvalue f) (fdiag f), fx1 f + 1 + 1 >=? rx1 r)
           else Ok (f, true)
         else Ok (f, stopRight));
      rect_expand fuel im f stopDown stopRight
  end.

(** encoder_helper_funcs.go:99-154 *)
Definition findRect (im : alpha) (x y value : Z) : outcome fragment :=
  do v <- zget (Pix im) (getPixelIndex im x y);
  if negb (v =? value) then Panic else
  rect_expand (S (S (line_fuel im))) im (mkFrag x y x y value diagNone)
    (y + 1 >=? ry1 (Rect im)) (x + 1 >=? rx1 (Rect im)).

(** encoder_helper_funcs.go:178-187 and 201-210: extend a diagonal from its last pixel
    (x, y) by steps of (dx, 1); the result is the x and y of the last pixel *)
Fixpoint diag_scan (maxSteps : nat) (im : alpha) (dx x y index value : Z) : outcome (Z * Z) :=
  match maxSteps with
  | O => Ok (x, y)
  | S maxSteps =>
    let index := index + Stride im + dx in
    do v <- zget (Pix im) index;
    if negb (v =? value) then Ok (x, y)
    else
      do n <- countNeighbours im (x + dx) (y + 1) index value;
      if negb (n =? 0) then Ok (x, y)
      else diag_scan maxSteps im dx (x + dx) (y + 1) index value
  end.

(** One of the two halves of findDiagonal (encoder_helper_funcs.go:170-191, 193-214): None
    when no diagonal starts in direction dx; otherwise its last pixel *)
Definition diag_try (im : alpha) (maxSteps dx x y index value : Z) : outcome (option (Z * Z)) :=
  if maxSteps >? 0 then
    let diagIndex := index + Stride im + dx in
    do v <- zget (Pix im) diagIndex;
    if v =? value then
      do n <- countNeighbours im (x + dx) (y + 1) diagIndex value;
      if n =? 0 then
        do p <- diag_scan (Z.to_nat (maxSteps - 1)) im dx (x + dx) (y + 1) diagIndex value;
        Ok (Some p)
      else Ok None
    else Ok None
  else Ok None.

(** encoder_helper_funcs.go:160-217; None for found = false *)
Definition findDiagonal (im : alpha) (x y index value : Z) : outcome (option fragment) :=
  if negb (index =? getPixelIndex im x y) then Panic else
  do v <- zget (Pix im) index;
  if negb (v =? value) then Panic else
  do n <- countNeighbours im x y index value;
  if negb (n =? 0) then Panic else
  let r := Rect im in
  do d <- diag_try im (Z.min (rx1 r - 1 - x) (ry1 r - 1 - y)) 1 x y index value;
  match d with
  | Some (mx, my) => Ok (Some (mkFrag x y mx my value diagDesc))
  | None =>
    do d <- diag_try im (Z.min (x - rx0 r) (ry1 r - 1 - y)) (-1) x y index value;
    match d with
    | Some (mx, my) => Ok (Some (mkFrag mx y x my value diagAsc))
    | None => Ok None
    end
  end.

(** *** encoder.go *)

(** State of the fragment search: the working copy, the fragments found so far and the
    bounding box of the pixels left for the second pass. *)
Record search := mkSearch { sim : alpha; sfrags : list fragment; sbox : crect }.

(** encoder.go:140-141, 144-145, 149-150: append a fragment and clear its pixels *)
Definition take_fragment (s : search) (f : fragment) : outcome search :=
  do im <- ClearFrom f (sim s);
  Ok (mkSearch im (sfrags s ++ [f]) (sbox s)).

Definition point (x y value : Z) : fragment := mkFrag x y x y value diagNone.

(** Body of the loop of encoder.go:132-161 *)
Definition pass1_pixel (s : search) (x y index : Z) : outcome search :=
  do value <- zget (Pix (sim s)) index;
  if value =? 0 then Ok s
  else
    do n <- countNeighbours (sim s) x y index value;
    if n =? 0 then
      do d <- findDiagonal (sim s) x y index value;
      match d with
      | Some f => take_fragment s f
      | None => take_fragment s (point x y value)
      end
    else if n =? 1 then
      do f <- findLine (sim s) x y index value;
      take_fragment s f
    else if (n =? 2) || (n =? 3) || (n =? 4) then
      let b := sbox s in
      let b := if x >? maxX b then mkCR (minX b) x (minY b) (maxY b) else b in
      let b := if x <? minX b then mkCR x (maxX b) (minY b) (maxY b) else b in
      let b := if y <? minY b then mkCR (minX b) (maxX b) y (maxY b) else b in
      let b := if y >? maxY b then mkCR (minX b) (maxX b) (minY b) y else b in
      Ok (mkSearch (sim s) (sfrags s) b)
    else Panic.

(** encoder.go:132-161 *)
Fixpoint pass1_row (n : nat) (s : search) (x y index : Z) : outcome (search * Z) :=
  match n with
  | O => Ok (s, index)
  | S n => do s <- pass1_pixel s x y index; pass1_row n s (x + 1) y (index + 1)
  end.
(** encoder.go:131-163 *)
Fixpoint pass1 (fuel : nat) (s : search) (y index : Z) : outcome search :=
  match fuel with
  | O => Hang
  | S fuel =>
    if index <? zlen (Pix (sim s)) then
      let r := Rect (sim s) in
      do ' (s, index) <- pass1_row (Z.to_nat (rx1 r - rx0 r)) s (rx0 r) y index;
      pass1 fuel s (y + 1) index
    else Ok s
  end.

(** encoder.go:176-187 *)
Definition pass2_pixel (s : search) (x y index : Z) : outcome search :=
  do value <- zget (Pix (sim s)) index;
  if value =? 0 then Ok s
  else
    do n <- countNeighbours (sim s) x y index value;
    if n =? 0 then take_fragment s (point x y value)
    else do f <- findRect (sim s) x y value; take_fragment s f.

(** encoder.go:173-190 *)
Fixpoint pass2_row (n : nat) (s : search) (x y index : Z) : outcome search :=
  match n with
  | O => Ok s
  | S n => do s <- pass2_pixel s x y index; pass2_row n s (x + 1) y (index + 1)
  end.
(** encoder.go:171-192 *)
Fixpoint pass2 (n w : nat) (s : search) (x y : Z) : outcome search :=
  match n with
  | O => Ok s
  | S n => do s <- pass2_row w s x y (getPixelIndex (sim s) x y); pass2 n w s x (y + 1)
  end.

(** encoder.go:120-193. "copy(maskCopy.Pix, mask.Pix)" copies the common length. *)
Definition computeMaskFragments (mask : alpha) : outcome (list fragment) :=
  do c <- NewAlpha (Rect mask);
  let pix := firstn (length (Pix c)) (Pix mask) ++ skipn (length (Pix mask)) (Pix c) in
  let c := mkAlpha pix (Stride c) (Rect c) in
  if negb (Stride mask =? Stride c) then Panic
  else
    let r := Rect c in
    do s <- pass1 (S (length pix)) (mkSearch c [] (mkCR (rx1 r) (rx0 r) (ry1 r) (ry0 r))) (ry0 r) 0;
    let b := sbox s in
    let b := if rect_Empty (image_Rect (minX b) (minY b) (maxX b) (maxY b))
             then mkCR (rx0 r) (rx1 r - 1) (ry0 r) (ry1 r - 1) else b in
    do s <- pass2 (Z.to_nat (maxY b + 1 - minY b)) (Z.to_nat (maxX b + 1 - minX b)) s (minX b) (minY b);
    Ok (sfrags s).

(** encoder.go:54-58, 67-71: movement byte *)
Definition move_byte (dist : Z) : Z := if dist >? 0 then u8 (i8 (dist - 1)) else u8 (i8 dist).

(** encoder.go:35-114, one fragment: appended bytes, new position and palette value. The
    array payload[8] is modelled by the control byte and the list of data bytes. *)
Definition emit_fragment (f : fragment) (x y value : Z) : outcome (list Z * Z * Z * Z) :=
  do ' (ctrl, bytes, value) <-
    (if negb (fvalue f =? value) then
       if fvalue f =? 0 then Panic else Ok (1, [fvalue f], fvalue f)
     else Ok (0, [], value));
  let xDist := fx0 f - x in let yDist := fy0 f - y in
  do ' (ctrl, bytes) <-
    (if negb (xDist =? 0) then
       if (xDist <? -128) || (xDist >? 128) then Panic
       else Ok (Z.lor ctrl 2, bytes ++ [move_byte xDist])
     else Ok (ctrl, bytes));
  do ' (ctrl, bytes) <-
    (if negb (yDist =? 0) then
       if yDist =? 1 then Ok (Z.lor ctrl 8, bytes)
       else if (yDist <? -128) || (yDist >? 128) then Panic
       else Ok (Z.lor ctrl 4, bytes ++ [move_byte yDist])
     else Ok (ctrl, bytes));
  let xDraw := fx1 f + 1 - fx0 f in let yDraw := fy1 f + 1 - fy0 f in
  do ' (ctrl, bytes) <-
    (if (xDraw =? 1) && (yDraw =? 1) then Ok (Z.lor ctrl 128, bytes)
     else match fdiag f with
     | diagNone =>
       do ' (ctrl, bytes, yDraw) <-
         (if (xDraw >? 0) && ((xDraw >? 1) || (yDraw <=? 1)) then
            if xDraw >? 256 then Panic
            else Ok (Z.lor ctrl 32, bytes ++ [u8 (xDraw - 1)], if yDraw =? 1 then 0 else yDraw)
          else Ok (ctrl, bytes, yDraw));
       if yDraw >? 0 then
         if yDraw >? 256 then Panic
         else Ok (Z.lor ctrl 64, bytes ++ [u8 (yDraw - 1)])
       else Ok (ctrl, bytes)
     | d =>
       let ctrl := Z.lor ctrl 16 in
       do ' (ctrl, bytes) <-
         (if xDraw >? 0 then
            if xDraw >? 256 then Panic
            else Ok (Z.lor ctrl 32, bytes ++ [u8 (xDraw - 1)])
          else Ok (ctrl, bytes));
       match d with
       | diagAsc => Ok (Z.lor ctrl 64, bytes)
       | _ => Ok (ctrl, bytes)
       end
     end);
  if zlen (ctrl :: bytes) >? 8 then Panic
  else Ok (ctrl :: bytes, x + xDist + xDraw, y + yDist, value).

(** Loop of encoder.go:34-115 *)
Fixpoint emit_fragments (fs : list fragment) (data : list Z) (x y value : Z) : outcome (list Z) :=
  match fs with
  | [] => Ok data
  | f :: rest =>
    do ' (bytes, x, y, value) <- emit_fragment f x y value;
    emit_fragments rest (data ++ bytes) x y value
  end.

(** encoder.go:10-118. sort.Slice is an argument: the theorems hold for every
    permutation it may return (the comparison is not a strict order, so its result on
    equal keys is unspecified). *)
Definition AppendRasterOps (sort : list fragment -> list fragment) (data : list Z) (mask : alpha)
    : outcome (list Z) :=
  do fs <- computeMaskFragments mask;
  match fs with
  | [] => Ok data
  | _ => emit_fragments (sort fs) data 0 0 255
  end.

(** The comparison of encoder.go:21-29, for examples *)
Definition frag_less (a b : fragment) : bool :=
  if fvalue a >? fvalue b then true
  else if fvalue a <? fvalue b then false
  else if fy0 a <? fy0 b then true
  else if fy0 a >? fy0 b then false
  else fx0 a <=? fx0 b.
