(** Model of /repo/internal/parsing_buffer.go and of Parse in /repo/parse.go.

    The gzip reader is not modelled: the decompressed data arrives as an arbitrary list of
    results of its Read method, each a chunk of bytes with a nil error, io.EOF or another
    error (an io.Reader may return bytes together with an error). When the list is
    exhausted further reads return no bytes and io.EOF. Chunks may have any size here (the
    code reads into a buffer of 1024 bytes).

    Error messages are the inner messages (the "ggfnt parsing error: " prefix added by
    NewError is dropped). *)
From Verif Require Import Base Model_Helpers Model_Font.

Inductive read_err := NoErr | EOF | Fail (m : string).
Definition stream := list (list Z * read_err).

(** parsing_buffer.go:13-21, without TempBuff and FileType *)
Record pst := mkP { Bytes : list Z; Index : Z; eof : bool; input : stream }.

(** Like [outcome], but an error keeps the buffer state (Parse ignores some errors). *)
Inductive pres (A : Type) : Type :=
| POk (a : A) (s : pst)
| PErr (m : string) (s : pst)
| PPanic
| PHang.
Arguments POk {A} a s.
Arguments PErr {A} m%string s.
Arguments PPanic {A}.
Arguments PHang {A}.

Definition action (A : Type) : Type := pst -> pres A.
(** no Go code: sequencing of statements that may return an error or panic *)
Definition pret {A} (a : A) : action A := fun s => POk a s.
Definition perr {A} (m : string) : action A := fun s => PErr m s.
Definition pbind {A B} (m : action A) (k : A -> action B) : action B :=
  fun s => match m s with
           | POk a s' => k a s'
           | PErr e s' => PErr e s'
           | PPanic => PPanic
           | PHang => PHang
           end.
Notation "'run' x <- m ; k" := (pbind m (fun x => k))
  (at level 200, x name, m at level 100, k at level 200, right associativity).
Notation "'run' ' p <- m ; k" := (pbind m (fun p => k))
  (at level 200, p strict pattern, m at level 100, k at level 200, right associativity).

(** A pure computation on the buffer contents ([font.Data = parser.Bytes] followed by a call). *)
Definition on_bytes {A} (f : list Z -> outcome A) : action A :=
  fun s => match f (Bytes s) with
           | Ok a => POk a s
           | Err m => PErr m s
           | Panic => PPanic
           | Hang => PHang
           end.
(** [x, err := m()] with [err] ignored: the value is then the zero value. *)
Definition ignore_err (m : action Z) : action Z :=
  fun s => match m s with PErr _ s' => POk 0 s' | r => r end.
Definition get_index : action Z := fun s => POk (Index s) s.
Definition when (b : bool) (m : string) : action unit := if b then perr m else pret tt.

(** internal/constants.go:3 *)
Definition MaxFontDataSize : Z := 33554432.

(** One call of gzipReader.Read. *)
Definition next_read (i : stream) : (list Z * read_err) * stream :=
  match i with [] => (([], EOF), []) | r :: rest => (r, rest) end.

(** parsing_buffer.go:53-80. When the size limit is exceeded the buffer has already been
    grown and the new bytes are still zero. *)
Fixpoint readMore_loop (retries : nat) : action unit := fun s =>
  match retries with
  | O => PErr "repeated empty reads" s
  | S retries' =>
    let '((chunk, err), rest) := next_read (input s) in
    if (0 <? zlen chunk) && (MaxFontDataSize <? zlen (Bytes s) + zlen chunk) then
      PErr "font data size exceeds limit"
        (mkP (Bytes s ++ repeat 0 (length chunk)) (Index s) (eof s) rest)
    else
    match err with
    | EOF => POk tt (mkP (Bytes s ++ chunk) (Index s) true rest)
    | Fail m => PErr m (mkP (Bytes s ++ chunk) (Index s) (eof s) rest)
    | NoErr =>
      let s' := mkP (Bytes s ++ chunk) (Index s) (eof s) rest in
      if 0 <? zlen chunk then POk tt s' else readMore_loop retries' s'
    end
  end.
(** parsing_buffer.go:53-80 *)
Definition readMore : action unit := readMore_loop 3.

(** parsing_buffer.go:84-90; every round consumes a read result, or finds the end of the
    input and sets [eof], so the fuel given below is never exhausted *)
Fixpoint readUpTo_loop (fuel : nat) (newIndex : Z) : action unit := fun s =>
  if zlen (Bytes s) <? newIndex then
    if eof s then PErr "premature end of file (or font offsets are wrong)" s else
    match fuel with
    | O => PHang
    | S fuel' => pbind readMore (fun _ => readUpTo_loop fuel' newIndex) s
    end
  else POk tt (mkP (Bytes s) newIndex (eof s) (input s)).
(** parsing_buffer.go:82-93 *)
Definition readUpTo (newIndex : Z) : action unit := fun s =>
  if newIndex <=? Index s then PPanic
  else readUpTo_loop (S (S (length (input s)))) newIndex s.

(** parsing_buffer.go:40-50 *)
Definition EnsureEOF : action unit := fun s =>
  if eof s then POk tt s else
  match readMore s with
  | POk _ s' =>
    if Index s' >? Index s then PErr "file continues beyond the expected end" s'
    else if negb (eof s') then PPanic else POk tt s'
  | r => r
  end.

(** parsing_buffer.go:95-99 *)
Definition AdvanceBytes (n : Z) : action unit :=
  if n =? 0 then pret tt else
  if n <? 0 then fun _ => PPanic else
  fun s => readUpTo (Index s + n) s.

(** the common part of parsing_buffer.go:107-153: advance [n] bytes, then decode at the old
    index *)
Definition read_with {A} (n : Z) (decode : list Z -> outcome A) : action A :=
  run index <- get_index;
  run _ <- readUpTo (index + n);
  on_bytes (fun b => do t <- zfrom b index; decode t).
Definition ReadUint64 : action Z := read_with 8 DecodeUint64LE.   (* 107-112 *)
Definition ReadUint32 : action Z := read_with 4 DecodeUint32LE.   (* 114-119 *)
Definition ReadUint24 : action Z := read_with 3 DecodeUint24LE.   (* 121-126 *)
(** parsing_buffer.go:128-131 *)
Definition ReadInt32 : action Z := run n <- ReadUint32; pret (i32 n).
Definition ReadUint16 : action Z := read_with 2 DecodeUint16LE.   (* 133-138 *)
Definition ReadUint8 : action Z := read_with 1 (fun t => zget t 0). (* 140-145 *)
Definition ReadInt8 : action Z := read_with 1 (fun t => do b <- zget t 0; Ok (i8 b)). (* 147-152 *)

(** parsing_buffer.go:101-105 *)
Definition AdvanceShortSlice : action unit := run n <- ReadUint8; AdvanceBytes n.

(** parsing_buffer.go:155-161 *)
Definition ReadBool : action bool :=
  run value <- ReadUint8;
  if value =? 0 then pret false else
  if value =? 1 then pret true else perr "bool value must be 0 or 1".

(** the common part of parsing_buffer.go:166-170 and 176-180 *)
Definition read_str (length : Z) : action (list Z) :=
  if length =? 0 then pret [] else
  run index <- get_index;
  run _ <- readUpTo (index + length);
  on_bytes (fun b => unsafe_string b index length).
(** parsing_buffer.go:163-171 *)
Definition ReadShortStr : action (list Z) := run length <- ReadUint8; read_str length.
(** parsing_buffer.go:173-181 *)
Definition ReadString : action (list Z) := run length <- ReadUint16; read_str length.

(** ** parse.go, section by section *)

(** parse.go:71-82 *)
Definition parse_header : action unit :=
  run _ <- AdvanceBytes 28;
  run _ <- ReadShortStr;
  run _ <- ReadShortStr;
  run _ <- ReadShortStr;
  run _ <- ReadString;
  on_bytes header_Validate.

(** parse.go:86-92; gives OffsetToMetrics *)
Definition parse_metrics : action Z :=
  run om <- get_index;
  run _ <- AdvanceBytes 15;
  run _ <- on_bytes (fun b => metrics_Validate b om);
  pret om.

(** parse.go:96-122; gives OffsetToDyes and the number of used color indices *)
Definition parse_dyes : action (Z * Z) :=
  run od <- get_index;
  run numDyes <- ReadUint8;
  if numDyes >? 0 then
    run _ <- AdvanceBytes (numDyes - 1);
    run used <- ReadUint8;
    run _ <- when (used <? numDyes) "invalid dye end index";
    run _ <- AdvanceBytes used;
    run _ <- AdvanceBytes ((numDyes - 1) * 2);
    run lastEnd <- ReadUint16;
    run _ <- when (lastEnd <? numDyes) "invalid dye name offset";
    run _ <- AdvanceBytes lastEnd;
    pret (od, used)
  else pret (od, 0).

(** parse.go:124-153; gives OffsetToPalettes *)
Definition parse_palettes (used : Z) : action Z :=
  run op <- get_index;
  run numPalettes <- ReadUint8;
  if numPalettes >? 0 then
    run _ <- AdvanceBytes (numPalettes - 1);
    run lastIndex <- ReadUint8;
    run _ <- when (used + lastIndex >? 255) "dyes and palettes exceeding 255 color indices";
    run _ <- when (lastIndex <? numPalettes) "invalid palette end index";
    run _ <- AdvanceBytes (lastIndex * 4);
    run _ <- AdvanceBytes ((numPalettes - 1) * 2);
    run lastEnd <- ReadUint16;
    run _ <- when (lastEnd <? numPalettes) "invalid palette name offset";
    run _ <- AdvanceBytes lastEnd;
    pret op
  else pret op.

(** parse.go:160-187; gives OffsetToGlyphNames, NumGlyphs and HasVertLayout *)
Definition parse_glyph_names (om : Z) : action (Z * Z * bool) :=
  run og <- get_index;
  run numNamed <- ReadUint16;
  run numGlyphs <- on_bytes (fun b => metrics_NumGlyphs b om);
  run vert <- on_bytes (fun b => metrics_HasVertLayout b om);
  if numNamed >? 0 then
    run _ <- when (numNamed >? numGlyphs) "NumNamedGlyphs can't exceed NumGlyphs";
    run _ <- AdvanceBytes (numNamed * 2);
    run _ <- AdvanceBytes ((numNamed - 1) * 3);
    run namesLen <- ReadUint24;
    run _ <- when (namesLen >? numNamed * 32)
               "GlyphNameEndOffsets declares GlyphNames to end beyond allowed";
    run _ <- AdvanceBytes namesLen;
    pret (og, numGlyphs, vert)
  else pret (og, numGlyphs, vert).

(** parse.go:189-203; [numGlyphs - 1] is uint16 arithmetic, numGlyphs is not 0 here *)
Definition parse_glyph_masks (numGlyphs : Z) (vert : bool) : action Z :=
  run ok <- get_index;
  run _ <- AdvanceBytes (u16 (numGlyphs - 1) * 3);
  run masksLen <- ReadUint24;
  let placementSize := if vert then 4 else 1 in
  run _ <- when (masksLen <? placementSize * numGlyphs)
             "GlyphMaskEndOffsets declares GlyphMasks to end before allowed";
  run _ <- when (masksLen >? (placementSize + 255) * numGlyphs)
             "GlyphMaskEndOffsets declares GlyphMasks to end beyond allowed";
  run _ <- AdvanceBytes masksLen;
  pret ok.

(** parse.go:212-231; gives OffsetToWords *)
Definition parse_words : action Z :=
  run ow <- get_index;
  run numWords <- ReadUint8;
  if numWords >? 0 then
    run _ <- AdvanceBytes ((numWords - 1) * 2);
    run wordsLen <- ReadUint16;
    run _ <- when (wordsLen <? numWords) "WordEndOffsets declares Words to end before allowed";
    run _ <- when (wordsLen >? numWords * 32) "WordEndOffsets declares Words to end beyond allowed";
    run _ <- AdvanceBytes wordsLen;
    pret ow
  else pret ow.

(** parse.go:233-263; gives OffsetToSettingNames, OffsetToSettingDefinitions, NumSettings *)
Definition parse_settings : action (Z * Z * Z) :=
  run os <- get_index;
  run numSettings <- ReadUint8;
  if numSettings >? 0 then
    run _ <- AdvanceBytes ((numSettings - 1) * 2);
    run namesLen <- ReadUint16;
    run _ <- when (namesLen <? numSettings)
               "SettingNameEndOffsets declares SettingNames to end before allowed";
    run _ <- when (namesLen >? numSettings * 32)
               "SettingNameEndOffsets declares SettingNames to end beyond allowed";
    run _ <- AdvanceBytes namesLen;
    run odef <- get_index;
    run _ <- AdvanceBytes ((numSettings - 1) * 2);
    run settingsLen <- ReadUint16;
    run _ <- when (settingsLen <? numSettings)
               "SettingEndOffsets declares Settings to end before allowed";
    run _ <- AdvanceBytes settingsLen;
    pret (os, odef, numSettings)
  else pret (os, os + 1, numSettings).

(** parse.go:273-295; gives OffsetToMappingSwitches *)
Definition parse_switches (numSettings : Z) : action Z :=
  run osw <- get_index;
  run num <- ReadUint8;
  run _ <- when (num >? 253) "NumMappingSwitches can't exceed 254 (both 254 and 255 are reserved)";
  if num >? 0 then
    run _ <- AdvanceBytes ((num - 1) * 2);
    run len <- ReadUint16;
    run _ <- when (len <? num)
               "MappingSwitchEndOffsets declares MappingSwitches to end before allowed";
    run _ <- when (len >? num * numSettings)
               "MappingSwitchEndOffsets declares MappingSwitches to end beyond allowed";
    run _ <- AdvanceBytes len;
    pret osw
  else pret osw.

(** parse.go:298-317; gives OffsetToMapping *)
Definition parse_mapping : action Z :=
  run omap <- get_index;
  run num <- ReadUint16;
  if num >? 0 then
    run _ <- AdvanceBytes (num * 4);
    run _ <- AdvanceBytes ((num - 1) * 3);
    run len <- ReadUint24;
    run _ <- when (len <? num * 3) "MappingEndOffsets declares Mappings to end before allowed";
    run _ <- AdvanceBytes len;
    pret omap
  else pret omap.

(** parse.go:325-341, 343-359 and 361-377, which differ in the minimal length and the message *)
Definition parse_u16_blocks (minLen : Z -> Z) (msg : string) : action Z :=
  run o <- get_index;
  run num <- ReadUint8;
  if num >? 0 then
    run _ <- AdvanceBytes ((num - 1) * 2);
    run len <- ReadUint16;
    run _ <- when (len <? minLen num) msg;
    run _ <- AdvanceBytes len;
    pret o
  else pret o.
Definition parse_conditions : action Z :=
  parse_u16_blocks (fun n => n * 2) "MappingEndOffsets declares Mappings to end before allowed".
Definition parse_utf8_sets : action Z :=
  parse_u16_blocks (fun n => 1 + n * 5) "UTF8SetEndOffsets declares UTF8Sets to end before allowed".
Definition parse_glyph_sets : action Z :=
  parse_u16_blocks (fun n => 1 + n * 3) "GlyphSetEndOffsets declares GlyphSets to end before allowed".

(** parse.go:379-397 and 399-417; the error of the length read is ignored *)
Definition parse_rules (maxSize : Z) (before beyond : string) : action Z :=
  run o <- get_index;
  run num <- ReadUint16;
  if num >? 0 then
    run _ <- AdvanceBytes ((num - 1) * 3);
    run len <- ignore_err ReadUint24;
    run _ <- when (len <? num * 8) before;
    run _ <- when (len >? num * maxSize) beyond;
    run _ <- AdvanceBytes len;
    pret o
  else pret o.
Definition parse_utf8_rules : action Z :=
  parse_rules 1026 "UTF8RuleEndOffsets declares UTF8Rules to end before allowed"
    "UTF8RuleEndOffsets declares UTF8Rules to end beyond allowed".
Definition parse_glyph_rules : action Z :=
  parse_rules 514 "GlyphRuleEndOffsets declares GlyphRules to end before allowed"
    "GlyphRuleEndOffsets declares GlyphRules to end beyond allowed".

(** parse.go:425-437 and 439-449; the error of the count read is ignored. The product
    [uint32(numGlyphs)*uint32(numGlyphs)] is below 2^32. *)
Definition parse_kernings (numGlyphs : Z) (msg : string) : action Z :=
  run o <- get_index;
  run num <- ignore_err ReadUint24;
  if num >? 0 then
    run _ <- when (num >? numGlyphs * numGlyphs) msg;
    run _ <- AdvanceBytes (num * 5);
    pret o
  else pret o.

(** parse.go:71-454: everything between the gzip setup and the EOF check; the Data field is
    set below. The Validate methods of settings, mapping, rewrites and kerning check nothing
    in FmtDefault mode. *)
Definition parse_sections : action Font :=
  run _ <- parse_header;
  run om <- parse_metrics;
  run ' (od, used) <- parse_dyes;
  run op <- parse_palettes used;
  run _ <- on_bytes (fun b => color_Validate b od op);
  run ' (ogn, numGlyphs, vert) <- parse_glyph_names om;
  run ogm <- parse_glyph_masks numGlyphs vert;
  run _ <- on_bytes (fun b => glyphs_Validate b om ogn);
  run ow <- parse_words;
  run ' (osn, osd, numSettings) <- parse_settings;
  run osw <- parse_switches numSettings;
  run omp <- parse_mapping;
  run oc <- parse_conditions;
  run ous <- parse_utf8_sets;
  run ogs <- parse_glyph_sets;
  run our <- parse_utf8_rules;
  run ogr <- parse_glyph_rules;
  run ohk <- parse_kernings numGlyphs "NumHorzKerningPairs can't exceed NumGlyphs^2";
  run ovk <- parse_kernings numGlyphs "NumVertKerningPairs can't exceed NumGlyphs^2";
  pret (mkFont [] om od op ogn ogm ow osn osd osw omp oc ous ogs our ogr ohk ovk).

Definition set_Data (f : Font) (data : list Z) : Font :=
  mkFont data (OffsetToMetrics f) (OffsetToDyes f) (OffsetToPalettes f) (OffsetToGlyphNames f)
    (OffsetToGlyphMasks f) (OffsetToWords f) (OffsetToSettingNames f)
    (OffsetToSettingDefinitions f) (OffsetToMappingSwitches f) (OffsetToMapping f)
    (OffsetToRewriteConditions f) (OffsetToRewriteUtf8Sets f) (OffsetToRewriteGlyphSets f)
    (OffsetToUtf8Rewrites f) (OffsetToGlyphRewrites f) (OffsetToHorzKernings f)
    (OffsetToVertKernings f).

(** parse.go:71-463: the last assignment of Data (451) and the EOF check (458) *)
Definition parse_body : action Font :=
  run f <- parse_sections;
  run data <- on_bytes (fun b => Ok b);
  run _ <- EnsureEOF;
  pret (set_Data f data).

(** 'tggfnt' *)
Definition signature : list Z := [116; 103; 103; 102; 110; 116].
Fixpoint list_eqb (a b : list Z) : bool :=
  match a, b with
  | [], [] => true
  | x :: a', y :: b' => (x =? y) && list_eqb a' b'
  | _, _ => false
  end.

(** internal/parsing_buffer.go:27-32 *)
Definition initial (i : stream) : pst := mkP [] 0 false i.

(** parse.go:46-464. [first] is the result of the one Read call with a buffer of six bytes;
    [gzip_init] the error of gzip.NewReader; [i] the results of reading the gzip stream. A
    font returned together with an error is dropped. *)
Definition Parse (first : list Z * read_err) (gzip_init : option string) (i : stream)
  : outcome Font :=
  let '(sig, err) := first in
  if negb (match err with NoErr => true | _ => false end) || negb (zlen sig =? 6) then
    if zlen sig =? 0 then Err "failed to read any data from the file"
    else Err "failed to read file signature"
  else if negb (list_eqb sig signature) then Err "invalid signature" else
  match gzip_init with
  | Some m => Err m
  | None =>
    match parse_body (initial i) with
    | POk f _ => Ok f
    | PErr m _ => Err m
    | PPanic => Panic
    | PHang => Hang
    end
  end.
