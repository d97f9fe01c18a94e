(** The rewrite testers: /repo/internal/rerules/glyphrule/tester.go and
    tester_tree_instance.go, and the files of the same names in utf8rule, which differ only in
    the element type and in the check of Feed. Line numbers are those of the glyphrule files.
    The exported testers of /repo/rerules (glyph_tester.go, utf8_tester.go) forward every call.

    Simplified: the callback is a list of the elements reported; the settings cache and the
    evaluation of conditions are an argument (Model_Rewrites.v and Model_Settings.v have them);
    the pool of compilers is its shared instance, of which only the flag [compiling] outlives a
    call (no two recompilations run at the same time); a new tree starts from the zero value,
    while the code may find an old one in the spare capacity of the slice (all of it is
    overwritten before it is read); after a failed compilation the states of the tree being
    compiled are left as they were, while the code may have overwritten some. *)
From Verif Require Import Base Model_Helpers Model_Font Model_Rewrites Model_Scanner Model_CircularBuffer Model_Tree.

(** tester_tree_instance.go:3-10 *)
Record instance := mkInstance { i_tree : tree; i_cond : Z; i_cached : bool; i_value : bool; i_resync : bool }.
Definition with_tree (i : instance) d := mkInstance d (i_cond i) (i_cached i) (i_value i) (i_resync i).
Definition with_value (i : instance) v := mkInstance (i_tree i) (i_cond i) true v (i_resync i).
Definition with_resync (i : instance) := mkInstance (i_tree i) (i_cond i) (i_cached i) (i_value i) true.
(** tester_tree_instance.go:12-17, on the zero value *)
Definition new_instance (condition : Z) : instance := mkInstance (mkTree [] 0 0 false) condition false false true.

(** tester.go:10-18 *)
Record tester := mkTester {
  ts_rules : list (list Z);
  ts_trees : list instance;
  ts_acc : cbuf Z;
  ts_tail : Z;
  ts_recompile : bool;
  ts_operating : bool }.
Definition new_tester : tester := mkTester [] [] cb_init 0 false false.
Definition with_trees (t : tester) l := mkTester (ts_rules t) l (ts_acc t) (ts_tail t) (ts_recompile t) (ts_operating t).
Definition with_acc (t : tester) a := mkTester (ts_rules t) (ts_trees t) a (ts_tail t) (ts_recompile t) (ts_operating t).
Definition with_tail (t : tester) n := mkTester (ts_rules t) (ts_trees t) (ts_acc t) n (ts_recompile t) (ts_operating t).
Definition with_operating (t : tester) b := mkTester (ts_rules t) (ts_trees t) (ts_acc t) (ts_tail t) (ts_recompile t) b.

(** What differs between the two kinds: the scanner's parameters, the outputs of a rule and
    what Feed does with an element: [Ok true] to go on, [Ok false] to ignore it, or an error. *)
Record tester_kind := mkTesterKind { tk_kind : kind; tk_out : list Z -> outcome (list Z); tk_feed : Z -> outcome bool }.
(** glyphrule/tester.go:114-117 *)
Definition glyph_tester : tester_kind := mkTesterKind glyph_kind glyph_rule_EachOut
  (fun g => if g =? 56790 then Ok false else if g >? 56789 then Err "unxpected control glyph index" else Ok true).
(** utf8rule/tester.go:115-117, with utf8.ValidRune *)
Definition valid_rune (r : Z) : bool := ((0 <=? r) && (r <? 55296)) || ((57343 <? r) && (r <=? 1114111)).
Definition utf8_tester : tester_kind := mkTesterKind utf8_kind utf8_rule_EachOut
  (fun r => if negb (valid_rune r) || (r =? 65533) then Err "invalid rune" else Ok true).

(** The font and the settings cache passed to a call *)
Record env := mkEnv { e_sets : set_reader; e_cond : Z -> outcome bool }.

Section Tester.
  Variable k : tester_kind.

  (** tester.go:157-170. The index and whether it is the tree looked for. *)
  Definition findTreeByCondition (trees : list instance) (condition : Z) : outcome (Z * bool) :=
    do start <- lower_bound_loop (length trees) (fun mid => do i <- zget trees mid; Ok (i_cond i <? condition)) 0 (zlen trees);
    if start <? zlen trees then do i <- zget trees start; Ok (start, i_cond i =? condition) else Ok (start, false).

  (** tester.go:33-39 *)
  Definition RemoveAllRules (t : tester) : outcome tester :=
    if ts_operating t then Panic
    else Ok (mkTester [] [] (cb_Clear (ts_acc t)) (ts_tail t) false (ts_operating t)).

  (** tester.go:53-58: the new last tree moves down while it is smaller; [l] is reversed. *)
  Fixpoint move_down (l : list instance) (i : instance) : list instance :=
    match l with
    | [] => [i]
    | j :: r => if i_cond i >=? i_cond j then i :: l else j :: move_down r i
    end.
  (** tester.go:41-63 *)
  Definition AddRule (t : tester) (rule : list Z) : outcome tester :=
    if ts_operating t then Panic
    else if zlen rule <? k_min (tk_kind k) then Err "invalid rewrite rule"
    else if zlen (ts_rules t) >=? 254 then Err "too many rules"
    else
      let rules := ts_rules t ++ [rule] in
      do condition <- rule_Condition rule;
      do ' (index, found) <- findTreeByCondition (ts_trees t) condition;
      do trees <- (if (found : bool) then do i <- zget (ts_trees t) index; Ok (upd (ts_trees t) (Z.to_nat index) (with_resync i))
                   else Ok (rev (move_down (rev (ts_trees t)) (new_instance condition))));
      Ok (mkTester rules trees (ts_acc t) (ts_tail t) true (ts_operating t)).

  (** tester.go:69-71: the first rule equal to the given one is deleted. *)
  Fixpoint delete_rule (rules : list (list Z)) (rule : list Z) : outcome (option (list (list Z))) :=
    match rules with
    | [] => Ok None
    | r :: rest =>
        do eq <- rule_Equals r rule;
        if (eq : bool) then Ok (Some rest)
        else do o <- delete_rule rest rule; Ok (match o with Some l => Some (r :: l) | None => None end)
    end.
  (** tester.go:66-81 *)
  Definition RemoveRule (t : tester) (rule : list Z) : outcome (tester * bool) :=
    if ts_operating t then Panic
    else
      do o <- delete_rule (ts_rules t) rule;
      match o with
      | None => Ok (t, false)
      | Some rules =>
          do condition <- rule_Condition rule;
          do ' (index, found) <- findTreeByCondition (ts_trees t) condition;
          if negb found then Panic
          else
            do i <- zget (ts_trees t) index;
            Ok (mkTester rules (upd (ts_trees t) (Z.to_nat index) (with_resync i)) (ts_acc t) (ts_tail t) true (ts_operating t), true)
      end.

  (** tester.go:172-183 *)
  Definition testCondition (e : env) (condition : Z) : outcome bool :=
    if condition =? 255 then Ok true else e_cond e condition.
  (** tester.go:85-92 *)
  Definition RefreshConditions (e : env) (t : tester) : outcome tester :=
    do trees <- omap (fun i => do b <- testCondition e (i_cond i); Ok (with_value i b)) (ts_trees t);
    Ok (with_trees t trees).

  (** tester.go:208-215: the rules of a condition, with their indices *)
  Fixpoint rules_with (condition from : Z) (rules : list (list Z)) : outcome (list (list Z * Z)) :=
    match rules with
    | [] => Ok []
    | r :: rest =>
        do c <- rule_Condition r;
        do l <- rules_with condition (from + 1) rest;
        Ok (if c =? condition then (r, u8 from) :: l else l)
    end.
  (** tester.go:193-225. [compiling] is the flag of the shared compiler. The result: the flag
      and the trees afterwards, and the error if there is one. *)
  Fixpoint recompile_trees (e : env) (rules : list (list Z)) (compiling : bool) (trees : list instance)
    : outcome (bool * list instance * option string) :=
    match trees with
    | [] => Ok (compiling, [], None)
    | i :: rest =>
        do i <- (if i_cached i then Ok i else do b <- testCondition e (i_cond i); Ok (with_value i b));
        if negb (i_resync i) then
          do ' (c, l, err) <- recompile_trees e rules compiling rest; Ok (c, i :: l, err)
        else if compiling then Panic
        else
          do own <- rules_with (i_cond i) 0 rules;
          match compile (tk_kind k) (e_sets e) own with
          | Ok states =>
              let i := with_tree i (mkTree states (d_index (i_tree i)) (d_best (i_tree i)) (d_scanning (i_tree i))) in
              do ' (c, l, err) <- recompile_trees e rules false rest;
              Ok (c, match own with [] => l | _ => i :: l end, err)
          | Err m => Ok (true, i :: rest, Some m)
          | Panic => Panic
          | Hang => Hang
          end
    end.
  (** tester.go:229-232 *)
  Definition max_in_len (rules : list (list Z)) : outcome Z :=
    ofold (fun m r => do n <- rule_InLen r; Ok (Z.max m n)) rules 0.
  (** tester.go:185-239 *)
  Definition recompile (e : env) (compiling : bool) (t : tester) : outcome (bool * tester * option string) :=
    do ' (compiling, trees, err) <- recompile_trees e (ts_rules t) compiling (ts_trees t);
    match err with
    | Some m => Ok (compiling, with_trees t trees, Some m)
    | None =>
        do n <- max_in_len (ts_rules t);
        let (acc, r) := cb_SetCapacity 0 (cb_Clear (ts_acc t)) n in
        do _ <- r;
        Ok (compiling, mkTester (ts_rules t) trees acc (ts_tail t) false (ts_operating t), None)
    end.
  (** tester.go:25-29 *)
  Definition Resync (e : env) (compiling : bool) (t : tester) : outcome (bool * tester * option string) :=
    if ts_operating t then Panic
    else if negb (ts_recompile t) then Ok (compiling, t, None)
    else recompile e compiling t.

  (** tester.go:327-334 *)
  Definition restart_tree (i : instance) : outcome instance :=
    do d <- (if d_scanning (i_tree i) then tree_BreakSequence (i_tree i) else Ok (i_tree i));
    do d <- tree_BeginSequence d;
    Ok (with_tree i d).
  Definition treesRestartDetection (t : tester) : outcome tester :=
    do trees <- omap restart_tree (ts_trees t); Ok (with_trees t trees).
  (** tester.go:98-109 *)
  Definition BeginSequence (e : env) (compiling : bool) (t : tester) : outcome (bool * tester * option string) :=
    if ts_operating t then Panic
    else
      let t := with_operating t true in
      do ' (compiling, t, err) <- (if ts_recompile t then recompile e compiling t else Ok (compiling, t, None));
      match err with
      | Some m => Ok (compiling, t, Some m)
      | None => do t <- treesRestartDetection t; Ok (compiling, t, None)
      end.

  (** tester.go:249-272. The trees that are scanning are fed; is one of them still scanning? *)
  Definition feed_trees (feed : tree -> outcome tree) (t : tester) : outcome (tester * bool) :=
    do trees <- omap (fun i => if d_scanning (i_tree i) then do d <- feed (i_tree i); Ok (with_tree i d) else Ok i) (ts_trees t);
    Ok (with_trees t trees, existsb (fun i => d_scanning (i_tree i)) trees).
  Definition treesFeedHeadGlyph (t : tester) (g : Z) := feed_trees (fun d => tree_FeedHead d g (ts_tail t)) t.
  Definition treesFeedUnrestrictedGlyph (t : tester) (g : Z) := feed_trees (fun d => tree_Feed d g) t.
  (** tester.go:241-247 *)
  Definition treesFeedGlyph (t : tester) (g depth : Z) : outcome (tester * bool) :=
    if depth <? ts_tail t then treesFeedHeadGlyph t g else treesFeedUnrestrictedGlyph t g.
  (** tester.go:274-281 *)
  Definition treesGetBestMatch (t : tester) : Z :=
    fold_left (fun best i => if d_best (i_tree i) <? best then d_best (i_tree i) else best) (ts_trees t) 255.

  (** The accumulator within the tester; what was reported so far goes along as [out]. *)
  Definition pop (t : tester) : outcome (tester * Z) :=
    let (acc, r) := cb_PopHead (ts_acc t) in do g <- r; Ok (with_acc t acc, g).
  (** tester.go:364-372 *)
  Definition popOldestGlyph (t : tester) (out : list Z) : outcome (tester * list Z) :=
    do ' (t, g) <- pop t;
    let '(t, out) := if ts_tail t >? 0 then (with_tail t (u8 (ts_tail t - 1)), out) else (t, out ++ [g]) in
    do t <- treesRestartDetection t;
    Ok (t, out).

  (** tester.go:288-294 *)
  Fixpoint report_head (n : nat) (t : tester) (out : list Z) : outcome (tester * list Z) :=
    match n with
    | O => Ok (t, out)
    | S n =>
        if ts_tail t >? 0 then report_head n (with_tail t (u8 (ts_tail t - 1))) out
        else do ' (t, g) <- pop t; report_head n t (out ++ [g])
    end.
  (** tester.go:301-303 *)
  Fixpoint skip_body (n : nat) (t : tester) : outcome tester :=
    match n with
    | O => Ok t
    | S n => do ' (t, _) <- pop t; skip_body n t
    end.
  (** tester.go:313-317 *)
  Fixpoint report_tail (n : nat) (t : tester) (out : list Z) : outcome (tester * list Z) :=
    match n with
    | O => Ok (t, out)
    | S n =>
        let (acc, r) := cb_PeekAhead 0 (ts_acc t) in
        do ' (g, found) <- r;
        if negb found then Panic else report_tail n (with_acc t acc) (out ++ [g])
    end.
  (** tester.go:283-325 *)
  Definition rewrite_match (t : tester) (index : Z) (out : list Z) : outcome (tester * list Z) :=
    if index =? 255 then Panic
    else
      do rule <- zget (ts_rules t) index;
      do headLen <- rule_HeadLen rule;
      do ' (t, out) <- report_head (Z.to_nat headLen) t out;
      if ts_tail t >? 0 then Panic
      else
        do l <- tk_out k rule;
        do bodyLen <- rule_BodyLen rule;
        do t <- skip_body (Z.to_nat bodyLen) t;
        do t <- treesRestartDetection t;
        do tailLen <- rule_TailLen rule;
        let t := with_tail t tailLen in
        if tailLen >? 0 then
          do g <- cb_Head (ts_acc t);
          report_tail (Z.to_nat (tailLen - 1)) t (out ++ l ++ [g])
        else Ok (t, out ++ l).

  (** tester.go:344-360. [n] bounds the elements left to peek. The result tells whether an
      element was popped or a rule applied (and not whether to go on, which is decided by the
      caller, rerunDetection). *)
  Fixpoint rerun_loop (n : nat) (t : tester) (g depth : Z) (out : list Z) : outcome (tester * list Z * bool) :=
    do ' (t, running) <- treesFeedGlyph t g depth;
    if (running : bool) then
      let (acc, r) := cb_PeekAhead 0 (ts_acc t) in
      do ' (g, hasNext) <- r;
      let t := with_acc t acc in
      if negb hasNext then Ok (t, out, false)
      else match n with O => Hang | S n => rerun_loop n t g (u8 (depth + 1)) out end
    else
      let index := treesGetBestMatch t in
      do ' (t, out) <- (if index =? 255 then popOldestGlyph (with_acc t (cb_DiscardPeeks (ts_acc t))) out else rewrite_match t index out);
      Ok (t, out, negb (cb_IsEmpty (ts_acc t))).
  (** tester.go:336-362 *)
  Definition rerunDetection (t : tester) (out : list Z) : outcome (tester * list Z * bool) :=
    if cb_IsEmpty (ts_acc t) then Ok (t, out, false)
    else
      let t := with_acc t (cb_DiscardPeeks (ts_acc t)) in
      do g <- cb_Head (ts_acc t);
      rerun_loop (Z.to_nat (cb_num (ts_acc t))) t g 0 out.
  (** tester.go:130, 146. Every round that goes on has taken an element out of the
      accumulator, so its size is enough [fuel]. *)
  Fixpoint rerun_all (fuel : nat) (t : tester) (out : list Z) : outcome (tester * list Z) :=
    do ' (t, out, again) <- rerunDetection t out;
    if (again : bool) then match fuel with O => Hang | S fuel => rerun_all fuel t out end
    else Ok (t, out).
  (** tester.go:124-130, 139-146: take out the oldest element or apply a rule, then go on with
      what is left *)
  Definition advance (t : tester) (out : list Z) : outcome (tester * list Z) :=
    let index := treesGetBestMatch t in
    let fuel := Z.to_nat (cb_num (ts_acc t)) in
    do ' (t, out) <- (if index =? 255 then popOldestGlyph t out else rewrite_match t index out);
    rerun_all fuel t out.

  (** tester.go:112-134. The result: the tester, what was reported, and the error if any. *)
  Definition Feed (t : tester) (g : Z) : outcome (tester * list Z * option string) :=
    if negb (ts_operating t) then Panic
    else
      match tk_feed k g with
      | Ok false => Ok (t, [], None)
      | Err m => Ok (t, [], Some m)
      | Ok true =>
          let (acc, r) := cb_Push (ts_acc t) g in
          do _ <- r;
          do ' (t, running) <- treesFeedUnrestrictedGlyph (with_acc t acc) g;
          if (running : bool) then Ok (t, [], None)
          else do ' (t, out) <- advance t []; Ok (t, out, None)
      | Panic => Panic
      | Hang => Hang
      end.
  (** tester.go:136-148. Every round takes an element out of the accumulator. *)
  Fixpoint break_loop (fuel : nat) (t : tester) (out : list Z) : outcome (tester * list Z) :=
    if cb_num (ts_acc t) >? ts_tail t then
      match fuel with
      | O => Hang
      | S fuel => do ' (t, out) <- advance t out; break_loop fuel t out
      end
    else Ok (t, out).
  Definition Break (t : tester) : outcome (tester * list Z) :=
    if negb (ts_operating t) then Panic
    else break_loop (Z.to_nat (cb_num (ts_acc t))) t [].
  (** tester.go:150-153 *)
  Definition FinishSequence (t : tester) : outcome (tester * list Z) :=
    do ' (t, out) <- Break t; Ok (with_operating t false, out).

  (** ** Histories: calls on one tester, with what they report. A panic ends the history. *)
  Inductive call :=
  | CAddRule (rule : list Z) | CRemoveRule (rule : list Z) | CRemoveAllRules
  | CResync (e : env) | CRefreshConditions (e : env) | CBeginSequence (e : env)
  | CFeed (g : Z) | CBreak | CFinishSequence.
  (** what a call reports: elements, and an error *)
  Definition report : Type := list Z * option string.
  Definition do_call (w : bool * tester) (c : call) : outcome (bool * tester * report) :=
    let '(compiling, t) := w in
    match c with
    | CAddRule rule =>
        match AddRule t rule with
        | Ok t => Ok (compiling, t, ([], None)) | Err m => Ok (compiling, t, ([], Some m)) | Panic => Panic | Hang => Hang
        end
    | CRemoveRule rule => do ' (t, _) <- RemoveRule t rule; Ok (compiling, t, ([], None))
    | CRemoveAllRules => do t <- RemoveAllRules t; Ok (compiling, t, ([], None))
    | CResync e => do ' (c, t, err) <- Resync e compiling t; Ok (c, t, ([], err))
    | CRefreshConditions e => do t <- RefreshConditions e t; Ok (compiling, t, ([], None))
    | CBeginSequence e => do ' (c, t, err) <- BeginSequence e compiling t; Ok (c, t, ([], err))
    | CFeed g => do ' (t, out, err) <- Feed t g; Ok (compiling, t, (out, err))
    | CBreak => do ' (t, out) <- Break t; Ok (compiling, t, (out, None))
    | CFinishSequence => do ' (t, out) <- FinishSequence t; Ok (compiling, t, (out, None))
    end.
  Fixpoint do_calls (w : bool * tester) (l : list call) : outcome (bool * tester * list report) :=
    match l with
    | [] => Ok (w, [])
    | c :: r =>
        do ' (w, o) <- do_call w c;
        do ' (w, os) <- do_calls w r;
        Ok (w, o :: os)
    end.
End Tester.
