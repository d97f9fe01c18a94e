(** Scanning of rewrite rules: /repo/internal/rerules/glyphrule/rule_scanner.go and
    /repo/internal/rerules/utf8rule/rule_scanner.go. The two files differ only in the width of
    an element, the minimal rule length, the test for valid elements and the type of the
    error; the line numbers below are those of the glyphrule file. *)
From Verif Require Import Base Model_Helpers.

(** What the two packages do not share. [k_succ] and [k_pred] are the machine arithmetic of
    the element type (uint16 for glyph indices, int32 for runes). *)
Record kind := mkKind {
  k_width : Z;
  k_min : Z;
  k_decode : list Z -> outcome Z;
  k_valid : Z -> bool;
  k_succ : Z -> Z;
  k_pred : Z -> Z }.
(** internal/constants.go:28 (MinGlyphReRuleFmtLen), glyphrule/misc.go:33-35 *)
Definition glyph_kind : kind :=
  mkKind 2 11 DecodeUint16LE (fun x => x <? 56789) (fun x => u16 (x + 1)) (fun x => u16 (x - 1)).
(** internal/constants.go:29 (MinUtf8ReRuleFmtLen), utf8rule/misc.go:31-33 (RuneError is 65533) *)
Definition utf8_kind : kind :=
  mkKind 4 13 (fun b => do v <- DecodeUint32LE b; Ok (i32 v)) (fun x => negb (x =? 65533))
    (fun x => i32 (x + 1)) (fun x => i32 (x - 1)).

(** rule_scanner.go:7-17. The blocks RuleHead, RuleBody and RuleTail are 0, 1 and 2
    (misc.go:14-19). *)
Record scanner := mkScanner {
  sc_data : list Z;
  sc_index : Z;
  sc_block : Z;
  sc_sets : Z;
  sc_elems : Z;
  sc_left : Z;
  sc_accSets : Z;
  sc_accElems : Z }.

(** rerules/errors.go: ErrInvalidReRule and InvalidUtf8RuleErr *)
Definition invalid_rule {A} : outcome A := Err "invalid rewrite rule".

(** What Next returns: a set index (with GlyphNone or RuneError as the element), or an element
    (with no set). *)
Inductive element := InSet (set : Z) | Single (x : Z).

(** rule_scanner.go:68-70 *)
Definition HasNext (s : scanner) : bool := sc_index s <? zlen (sc_data s).

(** rule_scanner.go:141-167. The flag tells whether the result is nil; the state is changed
    either way. *)
Definition parseFragmentControl (s : scanner) : outcome (scanner * bool) :=
  do ctrl <- zget (sc_data s) (sc_index s);
  let sets := Z.shiftr (Z.land ctrl 240) 4 in
  let elems := Z.land ctrl 15 in
  let accSets := u8 (sc_accSets s + sets) in
  let accElems := u8 (sc_accElems s + elems) in
  let numElems := u8 (sets + elems) in
  let s' left := mkScanner (sc_data s) (u16 (sc_index s + 1)) (sc_block s) sets elems left accSets accElems in
  do blockLen <- zget (sc_data s) (1 + sc_block s);
  let sum := u8 (accSets + accElems) in
  if numElems =? 0 then
    if negb (sum =? blockLen) then Ok (s' (sc_left s), false) else Ok (s' (u8 (sc_left s - numElems)), true)
  else if sum <? accSets then Ok (s' (sc_left s), false)
  else if sum >? blockLen then Ok (s' (sc_left s), false)
  else if numElems >? sc_left s then Ok (s' (sc_left s), false)
  else Ok (s' (u8 (sc_left s - numElems)), true).

(** rule_scanner.go:22-54 *)
Definition startChecks (k : kind) (data : list Z) : outcome scanner :=
  if zlen data <? k_min k then invalid_rule
  else
    do outLen <- zget data 4;
    if outLen =? 0 then invalid_rule
    else
      do headLen <- zget data 1;
      do bodyLen <- zget data 2;
      do tailLen <- zget data 3;
      let lenSum := u8 (headLen + bodyLen) in
      if headLen >? lenSum then invalid_rule
      else
        let lenSum := u8 (lenSum + tailLen) in
        if tailLen >? lenSum then invalid_rule
        else if bodyLen <? outLen then invalid_rule
        else
          let index := u16 (5 + outLen * k_width k) in
          if headLen =? 0 then
            if (bodyLen =? 0) || (bodyLen <? outLen) then invalid_rule
            else Ok (mkScanner data (u16 (index + 1)) 1 0 0 bodyLen 0 0)
          else Ok (mkScanner data index 0 0 0 headLen 0 0).
(** rule_scanner.go:21-60. The error of parseFragmentControl is dropped on line 57. *)
Definition Start (k : kind) (data : list Z) : outcome scanner :=
  do s <- startChecks k data;
  do ' (s, _) <- parseFragmentControl s;
  Ok s.

(** rule_scanner.go:124-136, misc.go:21-28: go on to the next block if this one is complete *)
Definition enterBlock (s : scanner) : outcome scanner :=
  if sc_left s =? 0 then
    do blockLen <- zget (sc_data s) (1 + sc_block s);
    if negb (blockLen =? u8 (sc_accElems s + sc_accSets s)) then invalid_rule
    else if (sc_block s =? 0) || (sc_block s =? 1) then
      let block := sc_block s + 1 in
      do left <- zget (sc_data s) (1 + block);
      Ok (mkScanner (sc_data s) (sc_index s) block (sc_sets s) (sc_elems s) left 0 0)
    else invalid_rule
  else Ok s.
(** rule_scanner.go:123-139 *)
Definition advanceControl (s : scanner) : outcome scanner :=
  do s <- enterBlock s;
  do ' (s, ok) <- parseFragmentControl s;
  if ok : bool then Ok s else invalid_rule.

(** rule_scanner.go:170-190 *)
Definition checkTermination (s : scanner) : outcome unit :=
  if (sc_sets s >? 0) || (sc_elems s >? 0) || (sc_left s >? 0) then invalid_rule
  else if sc_block s =? 0 then invalid_rule
  else if sc_block s =? 1 then
    do tailLen <- zget (sc_data s) 3; if negb (tailLen =? 0) then invalid_rule else Ok tt
  else if sc_block s =? 2 then
    do tailLen <- zget (sc_data s) 3;
    if negb (tailLen =? u8 (sc_accSets s + sc_accElems s)) then invalid_rule else Ok tt
  else Panic.

(** rule_scanner.go:85-91 and 108-114: what follows reading an element *)
Definition after_element (s : scanner) : outcome scanner :=
  if sc_index s >=? zlen (sc_data s) then do _ <- checkTermination s; Ok s
  else if (sc_sets s =? 0) && (sc_elems s =? 0) then advanceControl s
  else Ok s.

(** rule_scanner.go:75-121 *)
Definition Next (k : kind) (s : scanner) : outcome (scanner * element) :=
  if sc_sets s >? 0 then
    if sc_index s >=? zlen (sc_data s) then invalid_rule
    else
      do set <- zget (sc_data s) (sc_index s);
      do s <- after_element (mkScanner (sc_data s) (u16 (sc_index s + 1)) (sc_block s) (sc_sets s - 1) (sc_elems s)
                               (sc_left s) (sc_accSets s) (sc_accElems s));
      Ok (s, InSet set)
  else if sc_elems s >? 0 then
    if sc_index s + (k_width k - 1) >=? zlen (sc_data s) then invalid_rule
    else
      do b <- zfrom (sc_data s) (sc_index s);
      do x <- k_decode k b;
      if negb (k_valid k x) then invalid_rule
      else
        do s <- after_element (mkScanner (sc_data s) (u16 (sc_index s + k_width k)) (sc_block s) (sc_sets s) (sc_elems s - 1)
                                 (sc_left s) (sc_accSets s) (sc_accElems s));
        Ok (s, Single x)
  else Panic.

(** The loop all users of the scanner run (decision_tree_compiler.go:93-98): Start, then Next
    while HasNext. Every element takes at least one byte, so the length of the data is enough
    [fuel]; running out of it is [Hang]. *)
Fixpoint scan_loop (fuel : nat) (k : kind) (s : scanner) : outcome (list element) :=
  if HasNext s then
    match fuel with
    | O => Hang
    | S n => do ' (s, e) <- Next k s; do r <- scan_loop n k s; Ok (e :: r)
    end
  else Ok [].
Definition scan (k : kind) (data : list Z) : outcome (list element) :=
  do s <- Start k data; scan_loop (length data) k s.
