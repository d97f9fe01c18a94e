(** The decision trees of rewrite rules and their compiler:
    /repo/internal/rerules/glyphrule/decision_tree{,_state,_transition,_compiler}.go, and the
    files of the same names in utf8rule, which differ only in the element type. Line numbers
    are those of the glyphrule files. *)
From Verif Require Import Base Model_Helpers Model_Font Model_Rewrites Model_Scanner.

(** decision_tree_transition.go:7-14. RuleNone and StateNone are 255. *)
Record transition := mkTransition { t_first : Z; t_last : Z; t_match : Z; t_next : Z }.
(** decision_tree_state.go:8-15 *)
Record state := mkState { s_trans : list transition; s_min : Z; s_max : Z }.

(** decision_tree_compiler.go:18-42. Not kept: the font (an argument), the scanner and
    FromStates (local to Feed), StateIndex (never read) and [compiling] (see Model_Tester.v).
    [c_grown] is not in the code: it tells that [states] has grown during the running call of
    AppendRange, whose receiver may then be an outdated copy. *)
Record compiler := mkCompiler {
  c_states : list state;
  c_rule : Z;
  c_depth : Z;
  c_to : list Z;
  c_freed : list Z;
  c_uses : list Z;
  c_rules : list (list Z);
  c_depths : list (list Z);
  c_grown : bool }.
(** assignments to the fields of the compiler *)
Definition with_states (c : compiler) s := mkCompiler s (c_rule c) (c_depth c) (c_to c) (c_freed c) (c_uses c) (c_rules c) (c_depths c) (c_grown c).
Definition with_to (c : compiler) t := mkCompiler (c_states c) (c_rule c) (c_depth c) t (c_freed c) (c_uses c) (c_rules c) (c_depths c) (c_grown c).
Definition with_freed (c : compiler) f := mkCompiler (c_states c) (c_rule c) (c_depth c) (c_to c) f (c_uses c) (c_rules c) (c_depths c) (c_grown c).
Definition with_uses (c : compiler) u := mkCompiler (c_states c) (c_rule c) (c_depth c) (c_to c) (c_freed c) u (c_rules c) (c_depths c) (c_grown c).
Definition with_rules (c : compiler) r := mkCompiler (c_states c) (c_rule c) (c_depth c) (c_to c) (c_freed c) (c_uses c) r (c_depths c) (c_grown c).
Definition with_depths (c : compiler) d := mkCompiler (c_states c) (c_rule c) (c_depth c) (c_to c) (c_freed c) (c_uses c) (c_rules c) d (c_grown c).
Definition with_grown (c : compiler) g := mkCompiler (c_states c) (c_rule c) (c_depth c) (c_to c) (c_freed c) (c_uses c) (c_rules c) (c_depths c) g.

(** decision_tree_compiler.go:9-10 *)
Definition hit_limits {A} : outcome A := Err "DecisionTreeCompiler hit a limit".
(** Not an outcome of the code: inserting into the transitions of a state that may have been
    moved by growing [states] within the same call of AppendRange is not modelled. *)
Definition not_modelled {A} : outcome A := Err "not modelled".

(** ** decision_tree_state.go *)
(** decision_tree_state.go:17-21 *)
Definition state_empty : state := mkState [] 255 0.
(** decision_tree_state.go:33-36 *)
Definition UpdateHeadLen (s : state) (headLen : Z) : state :=
  mkState (s_trans s) (if headLen <? s_min s then headLen else s_min s) (if headLen >? s_max s then headLen else s_max s).
(** decision_tree_state.go:48-50 *)
Definition SatisfiesMinRequiredHead (s : state) (len : Z) : bool := (len >=? s_min s) && (len <=? s_max s).

(** decision_tree_state.go:162-181. The interval shrinks in every round, so the number of
    transitions is enough [fuel]. *)
Fixpoint find_loop (fuel : nat) (ts : list transition) (g lo hi : Z) : outcome (Z * bool) :=
  if lo <? hi then
    match fuel with
    | O => Hang
    | S n =>
        let mid := Z.shiftr (lo + hi) 1 in
        do t <- zget ts mid;
        if g <? t_first t then find_loop n ts g lo mid
        else if g >? t_last t then find_loop n ts g (mid + 1) hi
        else Ok (u8 mid, true)
    end
  else if lo <? zlen ts then
    do t <- zget ts lo;
    let found := (t_first t <=? g) && (g <=? t_last t) in
    if found && (lo >? 254) then Panic else Ok (u8 lo, found)
  else Ok (u8 lo, false).
(** decision_tree_state.go:162-181 *)
Definition findGlyphTransition (ts : list transition) (g : Z) : outcome (Z * bool) :=
  find_loop (length ts) ts g 0 (zlen ts - 1).

(** decision_tree_state.go:40-46 *)
Definition Trigger (s : state) (g : Z) : outcome (Z * Z) :=
  do ' (i, found) <- findGlyphTransition (s_trans s) g;
  if negb found then Ok (255, 255)
  else do t <- zget (s_trans s) i; Ok (t_next t, t_match t).

(** decision_tree_state.go:110-119 *)
Inductive splitMode := noSplitPre | splitFirstMid | splitFirstLast | splitMidMid | splitMidLast | noSplitPost.

Section Tree.
  Variable k : kind.

  (** decision_tree_state.go:122-144 *)
  Definition confrontRanges (candidate incoming : Z * Z) : splitMode * (Z * Z) :=
    let '(cf, cl) := candidate in
    let '(f, l) := incoming in
    if f <? cf then if l <? cf then (noSplitPre, incoming) else (noSplitPre, (f, k_pred k cl))
    else if f =? cf then if l >=? cl then (splitFirstLast, (f, cl)) else (splitFirstMid, incoming)
    else if f <=? cl then if l <? cl then (splitMidMid, incoming) else (splitMidLast, (f, cl))
    else (noSplitPost, incoming).

  (** ** Tracking, decision_tree_compiler.go *)
  Definition eqb_list (a b : list Z) : bool := if list_eq_dec Z.eq_dec a b then true else false.
  (** internal/helpers.go:71-89 on lists *)
  Definition ordered_insert (l : list Z) (x : Z) : outcome (list Z) :=
    do s <- BasicOrderedNonRepeatInsert Z.ltb Z.eqb 0 (mkSlice l []) x; Ok (elems s).

  (** decision_tree_compiler.go:237-259. Comparing lengths and then element by element is
      comparing with the reference's rules with the current rule inserted at [position]. *)
  Fixpoint reuse_loop (c : compiler) (target : list Z) (candidates : list Z) : outcome Z :=
    match candidates with
    | [] => Ok 255
    | i :: r => do rules <- zget (c_rules c) (i - 1); if eqb_list rules target then Ok i else reuse_loop c target r
    end.
  (** decision_tree_compiler.go:211-260. The loop of lines 228-232 leaves after its first
      round. *)
  Definition fetchReusableState (c : compiler) (ref : Z) : outcome Z :=
    if ref =? 0 then Panic
    else if c_depth c >=? zlen (c_depths c) then Ok 255
    else
      do candidates <- zget (c_depths c) (c_depth c);
      if zlen candidates =? 0 then Ok 255
      else
        do rules <- (if ref =? 255 then Ok [] else zget (c_rules c) (ref - 1));
        do position <- match rules with
                       | [] => Ok O
                       | x :: _ => if x =? c_rule c then Panic else Ok (if x <? c_rule c then 1%nat else O)
                       end;
        reuse_loop c (firstn position rules ++ c_rule c :: skipn position rules) candidates.

  (** decision_tree_compiler.go:265-279. The contents of the state are set by the caller. *)
  Definition fetchFreedOrNewState (c : compiler) : outcome (compiler * Z) :=
    match c_freed c with
    | _ :: _ => Ok (with_freed c (removelast (c_freed c)), last (c_freed c) 0)
    | [] =>
        if zlen (c_states c) >=? 254 then hit_limits
        else Ok (with_grown (with_states c (c_states c ++ [state_empty])) true, zlen (c_states c))
    end.

  (** decision_tree_compiler.go:281-283 *)
  Definition appendStateToNextRound (c : compiler) (i : Z) : outcome compiler :=
    do t <- ordered_insert (c_to c) i; Ok (with_to c t).
  (** decision_tree_compiler.go:286-300 *)
  Definition adjustStateUseCount (c : compiler) (i delta : Z) : outcome compiler :=
    if i =? 0 then Panic
    else
      let i := i - 1 in
      do ' (uses, result) <-
        (if zlen (c_uses c) <=? i
         then if negb (zlen (c_uses c) =? i) then Panic else Ok (c_uses c ++ [0], delta)
         else do u <- zget (c_uses c) i; Ok (c_uses c, u + delta));
      if (result >? 255) || (result <? 0) then Panic
      else do uses <- zset uses i (u8 result); Ok (with_uses c uses).

  (** The common part of decision_tree_compiler.go:312-315 and 339-342 *)
  Definition grow_rules (c : compiler) (i : Z) : outcome (list (list Z)) :=
    if zlen (c_rules c) <=? i
    then if negb (zlen (c_rules c) =? i) then Panic else Ok (c_rules c ++ [[]])
    else Ok (c_rules c).
  (** decision_tree_compiler.go:303-332. [stateIndex] and [referenceIndex] are different
      states; for equal ones the copies of lines 319-331 could overlap. *)
  Definition initializeStateRulesWithRef (c : compiler) (stateIndex referenceIndex : Z) : outcome compiler :=
    if (stateIndex =? 0) || (referenceIndex =? 0) then Panic
    else
      do refRules <- zget (c_rules c) (referenceIndex - 1);
      do all <- grow_rules c (stateIndex - 1);
      do first <- zget refRules 0;
      do final <- zget refRules (zlen refRules - 1);
      do rules <-
        (if c_rule c <? first then Ok (c_rule c :: refRules)
         else if c_rule c >? final then Ok (refRules ++ [c_rule c])
         else
           do ' (insertionIndex, found) <- BadBinarySearch Z.ltb Z.eqb refRules (c_rule c);
           if found : bool then Panic
           else Ok (firstn (Z.to_nat insertionIndex) refRules ++ c_rule c :: skipn (Z.to_nat insertionIndex) refRules));
      do all <- zset all (stateIndex - 1) rules;
      Ok (with_rules c all).
  (** decision_tree_compiler.go:335-345 *)
  Definition initializeStateRules (c : compiler) (stateIndex : Z) : outcome compiler :=
    if stateIndex =? 0 then Panic
    else
      do all <- grow_rules c (stateIndex - 1);
      do all <- zset all (stateIndex - 1) [c_rule c];
      Ok (with_rules c all).
  (** decision_tree_compiler.go:347-355 *)
  Definition registerNewStateAtDepth (c : compiler) (stateIndex : Z) : outcome compiler :=
    do depths <-
      (if zlen (c_depths c) <=? c_depth c
       then if negb (zlen (c_depths c) =? c_depth c) then Panic else Ok (c_depths c ++ [[]])
       else Ok (c_depths c));
    do l <- zget depths (c_depth c);
    do l <- ordered_insert l stateIndex;
    do depths <- zset depths (c_depth c) l;
    Ok (with_depths c depths).

  (** decision_tree_compiler.go:177-207 *)
  Definition stateLinker (c : compiler) (ref numSplits : Z) : outcome (compiler * Z) :=
    do reusable <- fetchReusableState c ref;
    do ' (c, result) <-
      (if reusable =? 255 then
         do ' (c, result) <- fetchFreedOrNewState c;
         do c <-
           (if negb (ref =? 255) then
              do other <- zget (c_states c) ref;
              do states <- zset (c_states c) result other;
              initializeStateRulesWithRef (with_states c states) result ref
            else
              do states <- zset (c_states c) result state_empty;
              initializeStateRules (with_states c states) result);
         do c <- registerNewStateAtDepth c result;
         Ok (c, result)
       else Ok (c, reusable));
    do c <- appendStateToNextRound c result;
    do c <- adjustStateUseCount c result 1;
    if (ref =? 255) && negb (numSplits =? 0) then Panic
    else if negb (ref =? 255) then
      if (numSplits <? 0) || (numSplits >? 2) then Panic
      else do c <- adjustStateUseCount c ref (numSplits - 1); Ok (c, result)
    else Ok (c, result).

  (** ** Transitions of state [i]. *)
  (** [self.Transitions[j] = f(self.Transitions[j])] *)
  Definition set_transition (c : compiler) (i j : Z) (f : transition -> transition) : outcome compiler :=
    do st <- zget (c_states c) i;
    do t <- zget (s_trans st) j;
    do ts <- zset (s_trans st) j (f t);
    do states <- zset (c_states c) i (mkState ts (s_min st) (s_max st));
    Ok (with_states c states).

  (** decision_tree_state.go:214-221: how many of the transitions, counted from the left,
      stay in front of a range starting at [first] *)
  Fixpoint ordered_index (ts : list transition) (first : Z) (n : nat) : outcome nat :=
    match n with
    | O => Ok O
    | S m => do t <- zget ts (Z.of_nat m); if t_first t <? first then Ok n else ordered_index ts first m
    end.
  (** decision_tree_state.go:207-231. RuleMatch and NextState are unspecified in the code
      until the caller sets them. *)
  Definition unsafeInsertUninitializedTransition (c : compiler) (i first last : Z) : outcome (compiler * Z) :=
    if c_grown c then not_modelled
    else
      do st <- zget (c_states c) i;
      if zlen (s_trans st) >=? 254 then hit_limits
      else
        do n <- ordered_index (s_trans st) first (length (s_trans st));
        let ts := firstn n (s_trans st) ++ mkTransition first last 255 255 :: skipn n (s_trans st) in
        do states <- zset (c_states c) i (mkState ts (s_min st) (s_max st));
        Ok (with_states c states, u8 (Z.of_nat n)).

  (** decision_tree_state.go:146-160 *)
  Definition insertNewTransition (c : compiler) (i first last ruleMatch numSplits : Z) : outcome compiler :=
    do ' (c, index) <- unsafeInsertUninitializedTransition c i first last;
    if ruleMatch =? 255 then
      do ' (c, next) <- stateLinker c 255 numSplits;
      set_transition c i index (fun t => mkTransition (t_first t) (t_last t) 255 next)
    else set_transition c i index (fun t => mkTransition (t_first t) (t_last t) ruleMatch 255).

  (** decision_tree_transition.go:16-27 of transition [j] *)
  Definition Link (c : compiler) (i j ruleMatch numSplits : Z) : outcome compiler :=
    do st <- zget (c_states c) i;
    do t <- zget (s_trans st) j;
    if negb (ruleMatch =? 255) then
      if t_match t =? 255 then set_transition c i j (fun t => mkTransition (t_first t) (t_last t) ruleMatch (t_next t))
      else Ok c
    else
      do ' (c, next) <- stateLinker c (t_next t) numSplits;
      set_transition c i j (fun t => mkTransition (t_first t) (t_last t) (t_match t) next).

  (** decision_tree_transition.go:33-42 and decision_tree_state.go:183-194 *)
  Definition splitTransitionAt (c : compiler) (i j lastOfPre : Z) : outcome compiler :=
    do st <- zget (c_states c) i;
    do t <- zget (s_trans st) j;
    if lastOfPre <? t_first t then Panic
    else if lastOfPre >=? t_last t then Panic
    else
      do c <- set_transition c i j (fun t => mkTransition (t_first t) lastOfPre (t_match t) (t_next t));
      do ' (c, n) <- unsafeInsertUninitializedTransition c i (k_succ k lastOfPre) (t_last t);
      if negb (j =? u8 (n + 1)) then Panic
      else
        do st <- zget (c_states c) i;
        do t <- zget (s_trans st) j;
        set_transition c i n (fun t' => mkTransition (t_first t') (t_last t') (t_match t) (t_next t)).
  (** decision_tree_state.go:196-202 *)
  Definition splitTransitionBy (c : compiler) (i j first last : Z) : outcome compiler :=
    do c <- splitTransitionAt c i j (k_pred k first); splitTransitionAt c i (u8 (j + 1)) last.

  (** decision_tree_state.go:60-105. Every transition there was at the start is visited at
      most twice (before and after an insertion in front of it). *)
  Fixpoint append_loop (fuel : nat) (c : compiler) (i first last ruleMatch candidate : Z) : outcome compiler :=
    do st <- zget (c_states c) i;
    if (first <=? last) && (candidate <? zlen (s_trans st)) then
      match fuel with
      | O => Hang
      | S n =>
          do t <- zget (s_trans st) candidate;
          let next := u8 (candidate + 1) in
          match confrontRanges (t_first t, t_last t) (first, last) with
          | (noSplitPre, (a, b)) =>
              do c <- insertNewTransition c i a b ruleMatch 0;
              append_loop n c i (k_succ k b) last ruleMatch next
          | (splitFirstMid, (a, b)) =>
              do c <- splitTransitionAt c i candidate b; Link c i candidate ruleMatch 1
          | (splitFirstLast, (a, b)) =>
              do c <- Link c i candidate ruleMatch 0;
              append_loop n c i (k_succ k b) last ruleMatch next
          | (splitMidMid, (a, b)) =>
              do c <- splitTransitionBy c i candidate a b; Link c i next ruleMatch 2
          | (splitMidLast, (a, b)) =>
              do c <- splitTransitionBy c i candidate a b;
              do c <- Link c i next ruleMatch 1;
              append_loop n c i (k_succ k b) last ruleMatch next
          | (noSplitPost, _) => append_loop n c i first last ruleMatch next
          end
      end
    else if first >? last then Ok c
    else insertNewTransition c i first last ruleMatch 0.
  (** decision_tree_state.go:56-106 *)
  Definition AppendRange (c : compiler) (i first last ruleMatch : Z) : outcome compiler :=
    let c := with_grown c false in
    do st <- zget (c_states c) i;
    do ' (candidate, _) <- findGlyphTransition (s_trans st) first;
    append_loop (S (2 * length (s_trans st))) c i first last ruleMatch candidate.

  (** decision_tree_compiler.go:147-174. Compacting the slice while freeing is filtering it. *)
  Definition unused (c : compiler) (i : Z) : outcome bool :=
    if i =? 0 then Panic else do u <- zget (c_uses c) (i - 1); Ok (u =? 0).
  Fixpoint split_unused (c : compiler) (l : list Z) : outcome (list Z * list Z) :=
    match l with
    | [] => Ok ([], [])
    | i :: r =>
        do b <- unused c i;
        do ' (free, kept) <- split_unused c r;
        Ok (if b : bool then (i :: free, kept) else (free, i :: kept))
    end.
  Definition freeUnusedStates (c : compiler) : outcome compiler :=
    if c_depth c =? 0 then Ok c
    else
      do l <- zget (c_depths c) (c_depth c - 1);
      do ' (free, kept) <- split_unused c l;
      do depths <- zset (c_depths c) (c_depth c - 1) kept;
      Ok (with_depths (with_freed c (c_freed c ++ free)) depths).

  (** The sets of a font: reading the set with the given index and calling a callback with
      all its ranges, then with all its single elements (decision_tree_compiler.go:121-130).
      The callback's state is the outcome so far; it asks to stop when that is not [Ok]. *)
  Definition callback := outcome compiler -> Z * Z -> outcome compiler * option unit.
  Definition set_reader := Z -> callback -> compiler -> outcome compiler.
  Variable sets : set_reader.
  Definition append_callback (state rule : Z) : callback := fun s range =>
    let s := do c <- s; AppendRange c state (fst range) (snd range) rule in
    (s, if is_ok s then None else Some tt).

  (** decision_tree_compiler.go:106-132 *)
  Definition feed_state (headLen : Z) (e : element) (matchRule : Z) (c : compiler) (state : Z) : outcome compiler :=
    do st <- zget (c_states c) state;
    do states <- zset (c_states c) state (UpdateHeadLen st headLen);
    let c := with_states c states in
    match e with
    | Single g => AppendRange c state g g matchRule
    | InSet set => if set =? 255 then Panic else sets set (append_callback state matchRule) c
    end.
  (** decision_tree_compiler.go:134-139 *)
  Definition next_round (c : compiler) : outcome (compiler * list Z) :=
    do c <- freeUnusedStates c;
    let depth := u8 (c_depth c + 1) in
    if depth =? 0 then Panic
    else Ok (mkCompiler (c_states c) (c_rule c) depth [] (c_freed c) (c_uses c) (c_rules c) (c_depths c) (c_grown c), c_to c).

  (** decision_tree_compiler.go:96-140, rule_scanner.go:64-66 (HeadLen). As in [scan], the
      length of the data is enough [fuel]. *)
  Fixpoint feed_loop (fuel : nat) (headLen : Z) (s : scanner) (c : compiler) (from : list Z) : outcome compiler :=
    if HasNext s then
      match fuel with
      | O => Hang
      | S n =>
          do ' (s, e) <- Next k s;
          let matchRule := if HasNext s then 255 else c_rule c in
          do c <- ofold (feed_state headLen e matchRule) from c;
          do ' (c, from) <- next_round c;
          feed_loop n headLen s c from
      end
    else Ok c.
  (** decision_tree_compiler.go:76-143 *)
  Definition compiler_Feed (c : compiler) (rule : list Z) (index : Z) : outcome compiler :=
    let states := match c_states c with [] => [state_empty] | l => l end in
    let c := mkCompiler states index 0 [] (c_freed c) (c_uses c) (c_rules c) (c_depths c) (c_grown c) in
    do s <- Start k rule;
    do headLen <- zget rule 1;
    feed_loop (length rule) headLen s c [0].
  (** decision_tree_compiler.go:46-57: the state after Begin *)
  Definition compiler_Begin : compiler := mkCompiler [] 0 0 [] [] [] [] [] false.
  (** Begin, Feed for rules with their indices, Finish (decision_tree_compiler.go:46-73) *)
  Definition compile (rules : list (list Z * Z)) : outcome (list state) :=
    do c <- ofold (fun c r => compiler_Feed c (fst r) (snd r)) rules compiler_Begin;
    Ok (c_states c).
End Tree.

(** font.go:1197-1240, 1242-1284 through decision_tree_compiler.go:121-130 *)
Definition glyph_sets (f : Font) : set_reader := fun set each c =>
  do d <- rewrites_GetGlyphSet f set;
  do ' (r, stop) <- glyph_set_EachRange each d (Ok c);
  match stop with
  | Some _ => r
  | None => do ' (r, _) <- glyph_set_EachListGlyph (fun s g => each s (g, g)) d r; r
  end.
Definition utf8_sets (f : Font) : set_reader := fun set each c =>
  do d <- rewrites_GetUtf8Set f set;
  do ' (r, stop) <- utf8_set_EachRange each d (Ok c);
  match stop with
  | Some _ => r
  | None => do ' (r, _) <- utf8_set_EachListRune (fun s g => each s (g, g)) d r; r
  end.

(** ** decision_tree.go *)
(** decision_tree.go:11-17 *)
Record tree := mkTree { d_states : list state; d_index : Z; d_best : Z; d_scanning : bool }.
(** decision_tree.go:29-34 *)
Definition tree_BeginSequence (d : tree) : outcome tree :=
  if d_scanning d then Panic else Ok (mkTree (d_states d) 0 255 true).
(** decision_tree.go:36-39 *)
Definition tree_BreakSequence (d : tree) : outcome tree :=
  if negb (d_scanning d) then Panic else Ok (mkTree (d_states d) (d_index d) (d_best d) false).
(** decision_tree.go:41-48 *)
Definition tree_Feed (d : tree) (g : Z) : outcome tree :=
  if negb (d_scanning d) then Panic
  else
    do st <- zget (d_states d) (d_index d);
    do ' (index, ruleMatch) <- Trigger st g;
    Ok (mkTree (d_states d) index (if negb (ruleMatch =? 255) then ruleMatch else d_best d) (negb (index =? 255))).
(** decision_tree.go:50-58 *)
Definition tree_FeedHead (d : tree) (g len : Z) : outcome tree :=
  if negb (d_scanning d) then Panic
  else
    do st <- zget (d_states d) (d_index d);
    if SatisfiesMinRequiredHead st len then tree_Feed d g
    else Ok (mkTree (d_states d) (d_index d) (d_best d) false).
(** decision_tree.go:62-72 *)
Fixpoint match_loop (d : tree) (glyphs : list Z) : outcome Z :=
  match glyphs with
  | [] => do d <- tree_BreakSequence d; Ok (d_best d)
  | g :: r => do d <- tree_Feed d g; if negb (d_scanning d) then Ok (d_best d) else match_loop d r
  end.
Definition tree_Match (d : tree) (glyphs : list Z) : outcome Z :=
  do d <- tree_BeginSequence d; match_loop d glyphs.
