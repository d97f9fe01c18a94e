(** Rewrite conditions in the builder: their text and their compilation. Texts are lists of
    bytes. *)
From Verif Require Import Base Model_Helpers Model_Words.

(** ** Printing *)
(** builder/font_builder_rewrite_condition.go:59-80 (the loops over terms): the separator
    between terms, and [last] after the last one. In String (25-44) nothing comes after it. *)
Fixpoint append_terms (term : Z -> list Z -> outcome (Z * list Z)) (n : nat) (sep last : list Z)
    (index : Z) (str : list Z) : outcome (Z * list Z) :=
  match n with
  | O => Ok (index, str)
  | S m =>
      do ' (index, str) <- term index str;
      append_terms term m sep last index (str ++ match m with O => last | _ => sep end)
  end.

(** font_builder_rewrite_condition.go:88-99 *)
Definition operator_text (op : Z) : outcome (list Z) :=
  if op =? 0 then Ok (str_bytes "==") else if op =? 1 then Ok (str_bytes "!=")
  else if op =? 2 then Ok (str_bytes "<") else if op =? 3 then Ok (str_bytes ">")
  else if op =? 4 then Ok (str_bytes "<=") else if op =? 5 then Ok (str_bytes ">=")
  else Panic.

(** font_builder_rewrite_condition.go:109-132: a comparison in two bytes *)
Definition append_quick (data : list Z) (index ctrl : Z) (op : string) (str : list Z) : outcome (Z * list Z) :=
  do a <- zget data (index + 1);
  Ok (index + 2, AppendByteDigits (Z.land ctrl 31) (AppendByteDigits a (str ++ [35]) ++ str_bytes op)).

(** font_builder_rewrite_condition.go:54-140. Recursion on fuel; with the length of the data as
    fuel it is not reached. *)
Fixpoint appendSubTerm (fuel : nat) (data : list Z) (index : Z) (str : list Z) : outcome (Z * list Z) :=
  match fuel with
  | O => Hang
  | S k =>
      if index >=? zlen data then Panic
      else
        do ctrl <- zget data index;
        let kind := Z.shiftr ctrl 5 in
        let numTerms := Z.land ctrl 31 in
        if kind =? 0 then
          if numTerms <? 2 then Panic
          else append_terms (appendSubTerm k data) (Z.to_nat numTerms) (str_bytes " OR ") [41] (index + 1) (str ++ [40])
        else if kind =? 1 then
          if numTerms <? 2 then Panic
          else append_terms (appendSubTerm k data) (Z.to_nat numTerms) (str_bytes " AND ") [41] (index + 1) (str ++ [40])
        else if kind =? 2 then
          do a <- zget data (index + 1);
          let str := AppendByteDigits a (str ++ [35]) in
          do op <- operator_text (Z.land ctrl 15);
          let str := str ++ [32] ++ op ++ [32] in
          let str := if Z.land ctrl 16 =? 0 then str ++ [35] else str in
          do b <- zget data (index + 2);
          Ok (index + 3, AppendByteDigits b str)
        else if kind =? 3 then append_quick data index ctrl " == " str
        else if kind =? 4 then append_quick data index ctrl " != " str
        else if kind =? 5 then append_quick data index ctrl " < " str
        else if kind =? 6 then append_quick data index ctrl " > " str
        else Panic
  end.

(** font_builder_rewrite_condition.go:19-50 *)
Definition condition_String (data : list Z) : outcome (list Z) :=
  do ctrl <- zget data 0;
  let kind := Z.shiftr ctrl 5 in
  let numTerms := Z.land ctrl 31 in
  let fuel := length data in
  do ' (index, str) <-
    (if kind =? 0 then
       if numTerms <? 2 then Panic
       else append_terms (appendSubTerm fuel data) (Z.to_nat numTerms) (str_bytes " OR ") [] 1 []
     else if kind =? 1 then
       if numTerms <? 2 then Panic
       else append_terms (appendSubTerm fuel data) (Z.to_nat numTerms) (str_bytes " AND ") [] 1 []
     else appendSubTerm fuel data 0 []);
  if negb (index =? zlen data) then Panic
  else do _ <- zget str 0; Ok str.

(** ** Compiling *)
(** builder/helpers.go:5-12 *)
Fixpoint same_from (definition : list Z) (start : Z) (expr : list Z) : outcome bool :=
  match expr with
  | [] => Ok true
  | c :: rest => do x <- zget definition start; if x =? c then same_from definition (start + 1) rest else Ok false
  end.
Definition startsWith (definition : list Z) (start end_ : Z) (expr : list Z) : outcome bool :=
  if (start <? 0) || (end_ + 1 >? zlen definition) then Panic
  else if zlen expr >? end_ + 1 - start then Ok false
  else same_from definition start expr.

(** builder/helpers.go:15-32; [end_] is inclusive. The loops over spaces at both ends, [n] being
    how often they may run at most. The outer loop does nothing when it runs again: then there is
    no space at either end, or nothing is lhs. *)
Fixpoint skip_start (n : nat) (definition : list Z) (start : Z) : outcome Z :=
  match n with
  | O => Ok start
  | S m => do c <- zget definition start; if c =? 32 then skip_start m definition (start + 1) else Ok start
  end.
Fixpoint skip_end (n : nat) (definition : list Z) (end_ : Z) : outcome Z :=
  match n with
  | O => Ok end_
  | S m => do c <- zget definition end_; if c =? 32 then skip_end m definition (end_ - 1) else Ok end_
  end.
Definition trimSpaces (definition : list Z) (start end_ : Z) : outcome (Z * Z) :=
  if start <=? end_ then
    do start <- skip_start (Z.to_nat (end_ + 1 - start)) definition start;
    do end_ <- skip_end (Z.to_nat (end_ + 1)) definition end_;
    Ok (start, end_)
  else Ok (start, end_).

(** font_builder_rewrite_condition.go:246: the regular expression
    [^#([0-9]+) *(==|!=|<|>|<=|>=) *(#?)([0-9]+)]. Everything is taken as long as possible, and
    giving back digits or spaces never helps; the operators are tried in this order. *)
Fixpoint take_while (p : Z -> bool) (l : list Z) : list Z * list Z :=
  match l with
  | [] => ([], [])
  | x :: rest => if p x then let (a, b) := take_while p rest in (x :: a, b) else ([], l)
  end.
Definition is_digit (x : Z) : bool := (48 <=? x) && (x <=? 57).
Definition is_space (x : Z) : bool := x =? 32.
Fixpoint strip (pre l : list Z) : option (list Z) :=
  match pre, l with
  | [], _ => Some l
  | c :: pre, x :: l => if x =? c then strip pre l else None
  | _ :: _, [] => None
  end.
(** the submatches of the regular expression, line 248 *)
Record matches := mkMatches { mt_left : list Z; mt_op : string; mt_hash : bool; mt_right : list Z; mt_rest : list Z }.
Fixpoint match_operator (ops : list string) (lhs l : list Z) : option matches :=
  match ops with
  | [] => None
  | op :: ops =>
      let this :=
        match strip (str_bytes op) l with
        | None => None
        | Some l =>
            let l := snd (take_while is_space l) in
            let (hash, l) := match l with x :: l' => if x =? 35 then (true, l') else (false, l) | [] => (false, l) end in
            let (rhs, rest) := take_while is_digit l in
            match rhs with [] => None | _ => Some (mkMatches lhs op hash rhs rest) end
        end in
      match this with Some m => Some m | None => match_operator ops lhs l end
  end.
Definition match_term (l : list Z) : option matches :=
  match l with
  | [] => None
  | x :: l =>
      if x =? 35 then
        let (lhs, l) := take_while is_digit l in
        match lhs with
        | [] => None
        | _ => match_operator ["=="; "!="; "<"; ">"; "<="; ">="]%string lhs (snd (take_while is_space l))
        end
      else None
  end.

(** strconv.Atoi (lines 253 and 260 call it) of digits: an error if the number exceeds an int *)
Definition Atoi (digits : list Z) : option Z :=
  let v := fold_left (fun v x => 10 * v + (x - 48)) digits 0 in
  if v >? 9223372036854775807 then None else Some v.

(** font_builder_rewrite_condition.go:274-299: the codes of the operators *)
Definition quick_ctrl (op : string) : outcome Z :=
  if (op =? "==")%string then Ok 96 else if (op =? "!=")%string then Ok 128
  else if (op =? "<")%string then Ok 160 else if (op =? ">")%string then Ok 192 else Panic.
Definition op_code (op : string) : outcome Z :=
  if (op =? "==")%string then Ok 0 else if (op =? "!=")%string then Ok 1
  else if (op =? "<")%string then Ok 2 else if (op =? ">")%string then Ok 3
  else if (op =? "<=")%string then Ok 4 else if (op =? ">=")%string then Ok 5 else Panic.

(** font_builder_rewrite_condition.go:247-302. Error messages are shortened here and below, but
    slicing [definition] for them is checked. The second operand is not appended. *)
Definition appendNextTerm (definition data : list Z) (start end_ : Z) : outcome (list Z * Z * Z) :=
  do text <- zslice definition start (end_ + 1);
  match match_term text with
  | None => do _ <- zslice definition 0 start; Err "invalid setting comparison"
  | Some m =>
      match Atoi (mt_left m) with
      | None => Panic
      | Some lhs =>
          if lhs >? 254 then Err "setting out of range"
          else
            match Atoi (mt_right m) with
            | None => Panic
            | Some rhs =>
                if (rhs >? 254) && mt_hash m then Err "setting out of range"
                else if rhs >? 255 then Err "constant out of range"
                else
                  do added <-
                    (if negb (mt_hash m) && (rhs <? 32) && negb (mt_op m =? "<=")%string && negb (mt_op m =? ">=")%string then
                       do ctrl <- quick_ctrl (mt_op m);
                       Ok [Z.lor ctrl (u8 rhs); u8 lhs]
                     else
                       do op <- op_code (mt_op m);
                       Ok [Z.lor (if mt_hash m then 64 else 80) op; u8 lhs]);
                  Ok (data ++ added, start + (zlen text - zlen (mt_rest m)), end_)
            end
      end
  end.

(** font_builder_rewrite_condition.go:218-226 and 235-243: the loop over the terms of a group;
    it goes forward in the definition, so it ends *)
Fixpoint chain (n : nat) (next : list Z -> Z -> Z -> outcome (list Z * Z * Z)) (definition word : list Z) (skip : Z)
    (data : list Z) (start end_ count : Z) : outcome (list Z * Z * Z * Z) :=
  match n with
  | O => Hang
  | S m =>
      do ' (data, start, end_) <- next data (start + skip) end_;
      do more <- startsWith definition start end_ word;
      if negb more then Ok (data, start, end_, count)
      else chain m next definition word skip data (start + zlen word) end_ (count + 1)
  end.

(** font_builder_rewrite_condition.go:173-244. Recursion on fuel: when it runs out whatever the
    fuel, the code recurses for ever. *)
Fixpoint appendNextExpr (fuel : nat) (definition data : list Z) (start end_ : Z) (inner : bool) : outcome (list Z * Z * Z) :=
  match fuel with
  | O => Hang
  | S k =>
      do ' (start, end_) <- trimSpaces definition start end_;
      if end_ <? start then do _ <- zslice definition 0 start; Err "expected expression"
      else if end_ + 1 >? zlen definition then Panic
      else
        do c <- zget definition start;
        if c =? 40 then
          do ' (data, start, end_) <- appendNextExpr k definition data start end_ false;
          do ' (start, end_) <- trimSpaces definition start end_;
          do closed <- (if end_ >=? zlen definition then Ok false else do x <- zget definition end_; Ok (x =? 41));
          if negb closed then do _ <- zslice definition 0 end_; Err "expected closing parenthesis"
          else Ok (data, start, end_)
        else if inner || (c =? 35) then appendNextTerm definition data start end_
        else
          do ' (data, start, end_) <- appendNextExpr k definition data start end_ true;
          do isOr <- startsWith definition start end_ (str_bytes "OR ");
          if (isOr : bool) then
            let index := zlen data in
            do ' (data, start, end_, count) <- chain (S (length definition)) (fun data start end_ => appendNextExpr k definition data start end_ true)
                definition (str_bytes "OR ") 3 (data ++ [0]) (start + 3) end_ 2;
            if count >=? 32 then Err "too many terms"
            else do data <- zset data index (u8 count); Ok (data, start, end_)
          else
            do isAnd <- startsWith definition start end_ (str_bytes "AND ");
            if (isAnd : bool) then
              let index := zlen data in
              do ' (data, start, end_, count) <- chain (S (length definition)) (fun data start end_ => appendNextExpr k definition data start end_ true)
                  definition (str_bytes "AND ") 0 (data ++ [0]) (start + 4) end_ 2;
              if count >=? 32 then Err "too many terms"
              else do data <- zset data index (Z.lor 32 (u8 count)); Ok (data, start, end_)
            else if end_ =? start then Ok (data, start, end_)
            else do _ <- zslice definition 0 start; Err "expected AND, OR or expression end"
  end.

(** font_builder_rewrite_condition.go:152-171: the data of the condition *)
Definition compileRewriteCondition (fuel : nat) (definition : list Z) : outcome (list Z) :=
  if zlen definition >? 1024 then Err "definitions limited to 1024 ascii characters max"
  else
    do ' (start, end_) <- trimSpaces definition 0 (zlen definition - 1);
    if end_ <? start then Err "invalid empty definition"
    else
      do ' (data, start, end_) <- appendNextExpr fuel definition [] start end_ false;
      if start <? end_ + 1 then do _ <- zslice definition 0 start; Err "definition expected to end"
      else if negb (start =? end_ + 1) then Panic
      else Ok data.
