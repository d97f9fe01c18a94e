(** font.go: Export and Validate; builder: New's font ID, Export; glyph.go: ranges. *)
From Verif Require Import Base Model_Helpers Model_Date Model_Mask Model_Font Model_Parse Model_Builder.

(** An io.Writer: what its next calls of Write return, the number of bytes taken and the error.
    An exhausted list stands for a writer that takes everything. *)
Definition writer := list (Z * option string).
(** one call of Write: bytes that reach the destination, the returned number, the error, the rest *)
Definition write (w : writer) (data : list Z) : list Z * Z * option string * writer :=
  match w with
  | [] => (data, zlen data, None, [])
  | (n, e) :: w' => (firstn (Z.to_nat n) data, n, e, w')
  end.
(** The calls of Write of a gzip.Writer, each with one of [chunks]; compress/gzip and compress/flate
    keep the first error and make no further call; they do not look at the returned numbers. *)
Fixpoint write_chunks (w : writer) (chunks : list (list Z)) : list Z * option string * writer :=
  match chunks with
  | [] => ([], None, w)
  | c :: rest =>
    let '(out, _, e, w') := write w c in
    match e with
    | Some _ => (out, e, w')
    | None => let '(out', e', w2) := write_chunks w' rest in (out ++ out', e', w2)
    end
  end.
(** font.go:32-42. [body] and [closing] are what the gzip.Writer passes on during Write(self.Data) and
    during Close; without an error Write returns len(self.Data), so 40 never fires. The result is
    what reached the destination, and the returned error. *)
Definition Export (body closing : list (list Z)) (w : writer) : list Z * outcome unit :=
  let '(out, n, e, w1) := write w signature in
  match e with
  | Some m => (out, Err m)
  | None =>
    if negb (n =? 6) then (out, Err "short write") else
    let '(out1, e1, w2) := write_chunks w1 body in
    match e1 with
    | Some m => (out ++ out1, Err m)
    | None =>
      let '(out2, e2, _) := write_chunks w2 closing in
      (out ++ out1 ++ out2, match e2 with Some m => Err m | None => Ok tt end)
    end
  end.
(** builder/font_builder.go:674-680; [gzip] gives the chunks of Export for the data of a font *)
Definition builder_Export (o : order) (sort : list Model_Mask.fragment -> list Model_Mask.fragment)
  (b : builder) (gzip : list Z -> list (list Z) * list (list Z)) (w : writer) : builder * (list Z * outcome unit) :=
  match Build o sort b with
  | (b', Ok f) => (b', let '(body, closing) := gzip (Data f) in Export body closing w)
  | (b', Err m) => (b', ([], Err m)) | (b', Panic) => (b', ([], Panic)) | (b', Hang) => (b', ([], Hang))
  end.

(** font.go:50-54 *)
Definition FmtDefault : bool := false.
Definition FmtStrict : bool := true.
(** font.go:56-75. Every Validate method (139-153, 217-236, 569-581, 396-440, 675-691, 928-939,
    1360-1370) makes its default checks and panics in strict mode. *)
Definition strict (mode : bool) (checks : outcome unit) : outcome unit :=
  do _ <- checks; if mode then Panic else Ok tt.
Definition font_Validate (f : Font) (mode : bool) : outcome unit :=
  do _ <- strict mode (header_Validate (Data f));
  do _ <- strict mode (metrics_Validate (Data f) (OffsetToMetrics f));
  do _ <- strict mode (glyphs_Validate (Data f) (OffsetToMetrics f) (OffsetToGlyphNames f));
  do _ <- strict mode (color_Validate (Data f) (OffsetToDyes f) (OffsetToPalettes f));
  do _ <- strict mode (Ok tt); (* settings *)
  do _ <- strict mode (Ok tt); (* mapping *)
  do _ <- strict mode (Ok tt); (* kerning *)
  Ok tt.

(** builder/font_builder.go:110-122: up to [rerolls] random values, internal/constants.go MinEntropyID;
    [random] are the results of CryptoRandUint64, an exhausted list stands for its error. *)
Fixpoint new_id (rerolls : nat) (random : list Z) : outcome Z :=
  match rerolls with
  | O => Panic
  | S n =>
    match random with
    | [] => Panic
    | id :: rest => if negb (entropy_too_low id) then Ok id else new_id n rest
    end
  end.
(** builder/font_builder.go:109-169 *)
Definition builder_New (random : list Z) (date : Date) : outcome builder :=
  do id <- new_id 8 random; Ok (New id date).

(** glyph.go:16-36; a range is a pair (First, Last) of uint16 *)
Definition range_Contains (r : Z * Z) (index : Z) : bool := (index >=? fst r) && (index <=? snd r).
Definition range_Validate (r : Z * Z) (maxGlyphs : Z) : outcome unit :=
  if fst r >? snd r then Err "invalid glyph range: First > Last"
  else if snd r >=? maxGlyphs then Err "invalid glyph range: Last exceeds maxGlyphs" else Ok tt.
Definition NewRange (first last : Z) : outcome (Z * Z) :=
  if last <? first then Panic else Ok (first, last).
