(** The rewrite section of font.go: conditions, rules and sets, lines 941-1284. As in
    Model_Font.v, uint32 data indices are unbounded and slices are checked. *)
From Verif Require Import Base Model_Helpers Model_Font.

(** font.go:945-955, 1221-1223, 1265-1267 *)
Definition rewrites_NumConditions (f : Font) : outcome Z := zget (Data f) (OffsetToRewriteConditions f).
Definition rewrites_NumGlyphRules (f : Font) : outcome Z :=
  do b <- zfrom (Data f) (OffsetToGlyphRewrites f); DecodeUint16LE b.
Definition rewrites_NumUTF8Rules (f : Font) : outcome Z :=
  do b <- zfrom (Data f) (OffsetToUtf8Rewrites f); DecodeUint16LE b.
Definition rewrites_NumGlyphSets (f : Font) : outcome Z := zget (Data f) (OffsetToRewriteGlyphSets f).
Definition rewrites_NumUTF8Sets (f : Font) : outcome Z := zget (Data f) (OffsetToRewriteUtf8Sets f).

(** [n] iterations of [dataIndex = step(dataIndex)]; with the check behind each one for the
    loops of font.go:1072-1075 and 1080-1083, without for 996-999 and 1012-1015 *)
Fixpoint skip_terms (n : nat) (check : bool) (maxDataIndex : Z) (step : Z -> outcome Z) (dataIndex : Z) : outcome Z :=
  match n with
  | O => Ok dataIndex
  | S m =>
      do i <- step dataIndex;
      if check && (i >? maxDataIndex) then Panic else skip_terms m check maxDataIndex step i
  end.

(** font.go:1064-1115. The recursion of the code is on positions of the data; [fuel] bounds
    its depth and running out of it is [Hang] (never reached with the fuel used below, see
    Proofs_Rewrites.v). *)
Fixpoint skipConditionSubexpr (fuel : nat) (d : list Z) (maxDataIndex numSettings dataIndex : Z) : outcome Z :=
  match fuel with
  | O => Hang
  | S k =>
      if dataIndex >? maxDataIndex then Panic
      else
        do ctrl <- zget d dataIndex;
        let kind := Z.land ctrl 224 in
        if (kind =? 0) || (kind =? 32) then
          skip_terms (Z.to_nat (Z.land ctrl 31)) true maxDataIndex
            (skipConditionSubexpr k d maxDataIndex numSettings) (dataIndex + 1)
        else if kind =? 64 then
          do a <- zget d (dataIndex + 1);
          if a >? numSettings then Panic
          else
            do _ <- (if Z.land ctrl 16 =? 0 then do b <- zget d (dataIndex + 2); if b >? numSettings then Panic else Ok tt else Ok tt);
            if Z.land ctrl 15 <=? 5 then Ok (dataIndex + 3) else Panic
        else if (kind =? 96) || (kind =? 128) || (kind =? 160) || (kind =? 192) then
          do a <- zget d (dataIndex + 1);
          if a >? numSettings then Panic else Ok (dataIndex + 2)
        else Panic
  end.

(** The loops of font.go:989-1003 (OR, [stop = true]) and 1005-1019 (AND, [stop = false]):
    evaluate terms until one equals [stop], then skip terms with the counter of the
    evaluated term. *)
Fixpoint eval_terms (n : nat) (stop : bool) (maxDataIndex : Z) (eval : Z -> outcome (Z * bool)) (skip : Z -> outcome Z)
    (dataIndex : Z) : outcome (Z * bool) :=
  match n with
  | O => Ok (dataIndex, negb stop)
  | S m =>
      do ' (i, satisfied) <- eval dataIndex;
      if i >? maxDataIndex then Panic
      else if Bool.eqb satisfied stop then
        do j <- skip_terms n false maxDataIndex skip i; Ok (j, stop)
      else eval_terms m stop maxDataIndex eval skip i
  end.

(** font.go:1021-1041: the left operand is the setting's index, not its value *)
Definition compare_op (ctrl setting operand : Z) : outcome bool :=
  let op := Z.land ctrl 15 in
  if op =? 0 then Ok (setting =? operand) else if op =? 1 then Ok (negb (setting =? operand))
  else if op =? 2 then Ok (setting <? operand) else if op =? 3 then Ok (setting >? operand)
  else if op =? 4 then Ok (setting <=? operand) else if op =? 5 then Ok (setting >=? operand)
  else Panic.

(** font.go:1042-1061: [settings[setting]] with the weak check in front of it *)
Definition quick_value (d settings : list Z) (dataIndex : Z) : outcome Z :=
  do setting <- zget d (dataIndex + 1);
  if setting >? zlen settings then Panic else zget settings setting.

(** font.go:982-1062 *)
Fixpoint evalConditionSubexpr (fuel : nat) (d settings : list Z) (maxDataIndex dataIndex : Z) : outcome (Z * bool) :=
  match fuel with
  | O => Hang
  | S k =>
      if dataIndex >? maxDataIndex then Panic
      else
        do ctrl <- zget d dataIndex;
        let kind := Z.land ctrl 224 in
        let const := Z.land ctrl 31 in
        if (kind =? 0) || (kind =? 32) then
          eval_terms (Z.to_nat const) (kind =? 0) maxDataIndex (evalConditionSubexpr k d settings maxDataIndex)
            (skipConditionSubexpr k d maxDataIndex (Z.min (zlen settings) 255)) (dataIndex + 1)
        else if kind =? 64 then
          do setting <- zget d (dataIndex + 1);
          if setting >? zlen settings then Panic
          else
            do operand <- zget d (dataIndex + 2);
            do operand <- (if Z.land ctrl 16 =? 0
              then if operand >? zlen settings then Panic else zget settings operand
              else Ok operand);
            do r <- compare_op ctrl setting operand;
            Ok (dataIndex + 3, r)
        else if kind =? 96 then do v <- quick_value d settings dataIndex; Ok (dataIndex + 2, v =? const)
        else if kind =? 128 then do v <- quick_value d settings dataIndex; Ok (dataIndex + 2, negb (v =? const))
        else if kind =? 160 then do v <- quick_value d settings dataIndex; Ok (dataIndex + 2, v <? const)
        else if kind =? 192 then do v <- quick_value d settings dataIndex; Ok (dataIndex + 2, v >? const)
        else Panic
  end.

(** font.go:957-979 *)
Definition rewrites_EvaluateCondition (f : Font) (conditionKey : Z) (settings : list Z) : outcome bool :=
  do numConditions <- rewrites_NumConditions f;
  if conditionKey >=? numConditions then Panic
  else
    let off := OffsetToRewriteConditions f in
    do b <- zfrom (Data f) (off + 1 + conditionKey);
    do endOffset <- DecodeUint16LE b;
    do startOffset <- (if conditionKey >? 0 then do b <- zfrom (Data f) (off + conditionKey); DecodeUint16LE b else Ok 0);
    if endOffset <=? startOffset then Panic
    else
      let data := off + 1 + Z.shiftl numConditions 1 in
      let maxDataIndex := data + (endOffset - 1) in
      if maxDataIndex >=? zlen (Data f) then Panic
      else
        do ' (endDataIndex, satisfied) <-
          evalConditionSubexpr (S (length (Data f))) (Data f) settings maxDataIndex (data + startOffset);
        if negb (endDataIndex =? maxDataIndex) then Panic else Ok satisfied.

(** ** Rules. A rule is its raw block of bytes. The accessors are the same for glyph and utf8
    rules. *)
(** font.go:1119-1124, 1157-1162 *)
Definition rule_Condition (r : list Z) : outcome Z := zget r 0.
Definition rule_HeadLen (r : list Z) : outcome Z := zget r 1.
Definition rule_BodyLen (r : list Z) : outcome Z := zget r 2.
Definition rule_TailLen (r : list Z) : outcome Z := zget r 3.
Definition rule_InLen (r : list Z) : outcome Z :=
  do h <- zget r 1; do b <- zget r 2; do t <- zget r 3; Ok (u8 (u8 (h + b) + t)).
Definition rule_OutLen (r : list Z) : outcome Z := zget r 4.
(** font.go:1125-1130, 1163-1168: the elements passed to the callback. The loop steps by two
    up to 5 + outSize, whatever the element size, so it runs (outSize + 1) / 2 times. *)
Definition glyph_rule_EachOut (r : list Z) : outcome (list Z) :=
  do outSize <- zget r 4;
  omap (fun k => do b <- zfrom r (5 + 2 * k); DecodeUint16LE b) (zseq ((outSize + 1) / 2)).
Definition utf8_rule_EachOut (r : list Z) : outcome (list Z) :=
  do outSize <- zget r 4;
  omap (fun k => do b <- zfrom r (5 + 2 * k); do v <- DecodeUint32LE b; Ok (i32 v)) (zseq ((outSize + 1) / 2)).
(** font.go:1131-1137, 1169-1175 *)
Fixpoint equal_bytes (n : nat) (i : Z) (a b : list Z) : outcome bool :=
  match n with
  | O => Ok true
  | S m => do x <- zget a i; do y <- zget b i; if negb (x =? y) then Ok false else equal_bytes m (i + 1) a b
  end.
Definition rule_Equals (a b : list Z) : outcome bool :=
  if negb (zlen a =? zlen b) then Ok false else equal_bytes (length a) 0 a b.

(** font.go:1139-1154, 1180-1195 *)
Definition get_rule (d : list Z) (off index : Z) : outcome (list Z) :=
  do numRules <- (do b <- zfrom d off; DecodeUint16LE b);
  if index >=? numRules then Panic
  else
    let e := off + 2 + (Z.shiftl index 1 + index) in
    do b <- zslice d e (e + 3);
    do ruleEnd <- DecodeUint24LE b;
    do ruleStart <- (if index >? 0 then do b <- zslice d (e - 3) e; DecodeUint24LE b else Ok 0);
    let base := off + 2 + (Z.shiftl numRules 1 + numRules) in
    zslice d (base + ruleStart) (base + ruleEnd).
Definition rewrites_GetGlyphRule (f : Font) (index : Z) : outcome (list Z) := get_rule (Data f) (OffsetToGlyphRewrites f) index.
Definition rewrites_GetUtf8Rule (f : Font) (index : Z) : outcome (list Z) := get_rule (Data f) (OffsetToUtf8Rewrites f) index.

(** ** Sets *)
(** font.go:1225-1240, 1269-1284 *)
Definition get_set (d : list Z) (off set : Z) : outcome (list Z) :=
  do numSets <- zget d off;
  if set >=? numSets then Panic
  else
    let e := off + 1 + Z.shiftl set 1 in
    do b <- zslice d e (e + 2);
    do setEnd <- DecodeUint16LE b;
    let base := off + 1 + Z.shiftl numSets 1 in
    if set =? 0 then zslice d base (base + setEnd)
    else
      let s := off + 1 + Z.shiftl (set - 1) 1 in
      do b <- zslice d s (s + 2);
      do setStart <- DecodeUint16LE b;
      if setStart >=? setEnd then Panic else zslice d (base + setStart) (base + setEnd).
Definition rewrites_GetGlyphSet (f : Font) (set : Z) : outcome (list Z) := get_set (Data f) (OffsetToRewriteGlyphSets f) set.
Definition rewrites_GetUtf8Set (f : Font) (set : Z) : outcome (list Z) := get_set (Data f) (OffsetToRewriteUtf8Sets f) set.

(** The enumerations call [each] with successive elements until it returns an error. A
    callback is a state transformer [each : T -> A -> T * option E]; the enumeration returns
    its last state and error. [next i] reads the element at position [i]. *)
Section Each.
  Context {T A E : Type}.
  Variable each : T -> A -> T * option E.
  Fixpoint each_loop (n : nat) (step i : Z) (next : Z -> outcome A) (s : T) : outcome (T * option E) :=
    match n with
    | O => Ok (s, None)
    | S m =>
        do a <- next i;
        match each s a with
        | (s', Some err) => Ok (s', Some err)
        | (s', None) => each_loop m step (i + step) next s'
        end
    end.
End Each.
(** font.go:1198-1206: range (first, last), uint16 addition *)
Definition glyph_set_EachRange {T E} (each : T -> Z * Z -> T * option E) (set : list Z) (s : T) : outcome (T * option E) :=
  do numRanges <- zget set 0;
  each_loop each (Z.to_nat numRanges) 3 1 (fun i =>
    do b <- zslice set i (i + 2); do g <- DecodeUint16LE b; do n <- zget set (i + 2); Ok (g, u16 (g + n))) s.
(** font.go:1208-1219 *)
Definition glyph_set_EachListGlyph {T E} (each : T -> Z -> T * option E) (set : list Z) (s : T) : outcome (T * option E) :=
  do numRanges <- zget set 0;
  let elems := 1 + numRanges * 3 in
  do numElems <- zget set elems;
  each_loop each (Z.to_nat numElems) 1 0 (fun i =>
    let k := elems + 1 + Z.shiftl i 1 in do b <- zslice set k (k + 2); DecodeUint16LE b) s.
(** font.go:1243-1251: 1, 6, 11, ... below numRanges*5 are numRanges positions; the size is
    read from the last byte of the code point *)
Definition utf8_set_EachRange {T E} (each : T -> Z * Z -> T * option E) (set : list Z) (s : T) : outcome (T * option E) :=
  do numRanges <- zget set 0;
  each_loop each (Z.to_nat numRanges) 5 1 (fun i =>
    do b <- zslice set i (i + 4); do v <- DecodeUint32LE b; let c := i32 v in
    do n <- zget set (i + 3); Ok (c, i32 (c + n))) s.
(** font.go:1253-1263 *)
Definition utf8_set_EachListRune {T E} (each : T -> Z -> T * option E) (set : list Z) (s : T) : outcome (T * option E) :=
  do numRanges <- zget set 0;
  let elems := 1 + numRanges * 5 in
  do numElems <- zget set elems;
  each_loop each (Z.to_nat numElems) 1 0 (fun i =>
    let k := elems + 1 + Z.shiftl i 2 in do b <- zslice set k (k + 4); do v <- DecodeUint32LE b; Ok (i32 v)) s.
