(** The rewrite testers with rules that have sets or tails: C51, C52 and C55. *)
From Verif Require Import Base BaseFacts Spec_Helpers Spec_Layout Model_Font Model_Rewrites Model_Scanner Spec_Scanner Model_CircularBuffer Model_Tree Spec_Tree Spec_TreeSets
  Model_Tester Spec_Tester Spec_Session Spec_TesterRules Spec_TesterSets Proofs_Tree4 Proofs_Tree5 Proofs_Tester6 Proofs_Tester11 Proofs_Tester12.
From Verif Require Import Model_Builder Properties_Tree.

(** ** C51 *)
(** The elements of the rules may be single glyphs, and sets that are one range; those that
    overlap are the same. Heads are allowed if there are no tails, otherwise tails of one element.
    Then each piece is rewritten as it should be, except that rules with different conditions
    are chosen by their place (see C51_conditions_refuted). Missing: other sets, tails of several
    elements (C51_peeks_refuted), tails together with heads (C51_tail_refuted), several outputs
    (C51_outputs_refuted). *)
Theorem C51_sets_partial : forall f R js, apart R -> (forall r, In r R -> fst r <= snd r) -> q_usable (glyph_rule_in f R) (glyph_sets f) js ->
  run_jobs glyph_tester (false, new_tester) js = Err "DecisionTreeCompiler hit a limit" /\ Exists q_crowded (compilations new_session js) \/
  exists w outs, run_jobs glyph_tester (false, new_tester) js = Ok (w, outs) /\
    Forall2 (fun e o => Forall2 (fun piece out => q_rewriting (q_by_condition (fst e)) (fst e) (filter is_glyph piece) out) (snd e) o) (expected new_session js) outs.
Proof. intros f R js Hap Hle. exact (q_usable_ok glyph_tester (glyph_sets f) is_glyph (glyph_rule_in f R) glyph_feeds (glyph_lettered f R Hap Hle) js). Qed.
Print Assumptions C51_sets_partial.
(** For code points, sets of which one code point is read. *)
Theorem C51_runes_sets_partial : forall f js, q_usable (utf8_rule_in f) (utf8_sets f) js ->
  run_jobs utf8_tester (false, new_tester) js = Err "DecisionTreeCompiler hit a limit" /\ Exists q_crowded (compilations new_session js) \/
  exists w outs, run_jobs utf8_tester (false, new_tester) js = Ok (w, outs) /\
    Forall2 (fun e o => Forall2 (fun piece out => q_rewriting (q_by_condition (fst e)) (fst e) (filter is_rune piece) out) (snd e) o) (expected new_session js) outs.
Proof. intros f js. exact (q_usable_ok utf8_tester (utf8_sets f) is_rune (utf8_rule_in f) utf8_feeds (utf8_lettered f) js). Qed.
Print Assumptions C51_runes_sets_partial.
Theorem C51_sets_room_partial : forall f R js, apart R -> (forall r, In r R -> fst r <= snd r) -> q_usable (glyph_rule_in f R) (glyph_sets f) js ->
  Forall (fun rules => within_limits (q_all rules)) (compilations new_session js) -> exists w outs, run_jobs glyph_tester (false, new_tester) js = Ok (w, outs).
Proof. intros f R js Hap Hle. exact (q_room glyph_tester (glyph_sets f) is_glyph (glyph_rule_in f R) glyph_feeds (glyph_lettered f R Hap Hle) js). Qed.
Print Assumptions C51_sets_room_partial.
Theorem C51_runes_sets_room_partial : forall f js, q_usable (utf8_rule_in f) (utf8_sets f) js ->
  Forall (fun rules => within_limits (q_all rules)) (compilations new_session js) -> exists w outs, run_jobs utf8_tester (false, new_tester) js = Ok (w, outs).
Proof. intros f js. exact (q_room utf8_tester (utf8_sets f) is_rune (utf8_rule_in f) utf8_feeds (utf8_lettered f) js). Qed.
Print Assumptions C51_runes_sets_room_partial.
(** When all rules have the same condition, the rule with the longest pattern is chosen. *)
Theorem C51_sets_longest_partial : forall f R js w outs i rules pieces c, apart R -> (forall r, In r R -> fst r <= snd r) -> q_usable (glyph_rule_in f R) (glyph_sets f) js ->
  run_jobs glyph_tester (false, new_tester) js = Ok (w, outs) -> nth_error (expected new_session js) i = Some (rules, pieces) -> Forall (fun r => q_cond r = c) rules ->
  exists o, nth_error outs i = Some o /\ Forall2 (fun piece out => q_rewriting (q_longest rules) rules (filter is_glyph piece) out) pieces o.
Proof. intros f R js w outs i rules pieces c Hap Hle. exact (q_session_longest glyph_tester (glyph_sets f) is_glyph (glyph_rule_in f R) glyph_feeds (glyph_lettered f R Hap Hle) js w outs i rules pieces c). Qed.
Print Assumptions C51_sets_longest_partial.
Theorem C51_runes_sets_longest_partial : forall f js w outs i rules pieces c, q_usable (utf8_rule_in f) (utf8_sets f) js ->
  run_jobs utf8_tester (false, new_tester) js = Ok (w, outs) -> nth_error (expected new_session js) i = Some (rules, pieces) -> Forall (fun r => q_cond r = c) rules ->
  exists o, nth_error outs i = Some o /\ Forall2 (fun piece out => q_rewriting (q_longest rules) rules (filter is_rune piece) out) pieces o.
Proof. intros f js w outs i rules pieces c. exact (q_session_longest utf8_tester (utf8_sets f) is_rune (utf8_rule_in f) utf8_feeds (utf8_lettered f) js w outs i rules pieces c). Qed.
Print Assumptions C51_runes_sets_longest_partial.
(** The rewriting is unique. *)
Theorem C51_sets_unique_partial : forall rules, zlen rules <= 254 -> Forall (fun r => q_pattern r <> []) rules ->
  forall input out out', q_rewriting (q_by_condition rules) rules input out -> q_rewriting (q_by_condition rules) rules input out' -> out = out'.
Proof. intros rules H1 H2 input out out' H H'. exact (q_rewriting_unique rules H1 H2 _ _ H _ H'). Qed.
Print Assumptions C51_sets_unique_partial.

(** ** C52 *)
Theorem C52_sets_partial : forall f R js js' w outs w' outs' i j e, apart R -> (forall r, In r R -> fst r <= snd r) ->
  q_usable (glyph_rule_in f R) (glyph_sets f) js -> q_usable (glyph_rule_in f R) (glyph_sets f) js' ->
  run_jobs glyph_tester (false, new_tester) js = Ok (w, outs) -> run_jobs glyph_tester (false, new_tester) js' = Ok (w', outs') ->
  nth_error (expected new_session js) i = Some e -> nth_error (expected new_session js') j = Some e ->
  exists o, nth_error outs i = Some o /\ nth_error outs' j = Some o.
Proof. intros f R js js' w outs w' outs' i j e Hap Hle. exact (q_session_independent glyph_tester (glyph_sets f) is_glyph (glyph_rule_in f R) glyph_feeds (glyph_lettered f R Hap Hle) js js' w outs w' outs' i j e). Qed.
Print Assumptions C52_sets_partial.
Theorem C52_runes_sets_partial : forall f js js' w outs w' outs' i j e, q_usable (utf8_rule_in f) (utf8_sets f) js -> q_usable (utf8_rule_in f) (utf8_sets f) js' ->
  run_jobs utf8_tester (false, new_tester) js = Ok (w, outs) -> run_jobs utf8_tester (false, new_tester) js' = Ok (w', outs') ->
  nth_error (expected new_session js) i = Some e -> nth_error (expected new_session js') j = Some e ->
  exists o, nth_error outs i = Some o /\ nth_error outs' j = Some o.
Proof. intros f js js' w outs w' outs' i j e. exact (q_session_independent utf8_tester (utf8_sets f) is_rune (utf8_rule_in f) utf8_feeds (utf8_lettered f) js js' w outs w' outs' i j e). Qed.
Print Assumptions C52_runes_sets_partial.

(** ** C55 *)
Theorem C55_sets_partial : forall f R js w outs i pieces, apart R -> (forall r, In r R -> fst r <= snd r) -> q_usable (glyph_rule_in f R) (glyph_sets f) js ->
  run_jobs glyph_tester (false, new_tester) js = Ok (w, outs) -> nth_error (expected new_session js) i = Some ([], pieces) -> nth_error outs i = Some (map (filter is_glyph) pieces).
Proof. intros f R js w outs i pieces Hap Hle. exact (q_session_empty glyph_tester (glyph_sets f) is_glyph (glyph_rule_in f R) glyph_feeds (glyph_lettered f R Hap Hle) js w outs i pieces). Qed.
Print Assumptions C55_sets_partial.
Theorem C55_runes_sets_partial : forall f js w outs i pieces, q_usable (utf8_rule_in f) (utf8_sets f) js ->
  run_jobs utf8_tester (false, new_tester) js = Ok (w, outs) -> nth_error (expected new_session js) i = Some ([], pieces) -> nth_error outs i = Some (map (filter is_rune) pieces).
Proof. intros f js w outs i pieces. exact (q_session_empty utf8_tester (utf8_sets f) is_rune (utf8_rule_in f) utf8_feeds (utf8_lettered f) js w outs i pieces). Qed.
Print Assumptions C55_runes_sets_partial.

(** An example: a font with a set of glyphs 1 to 2 and a set of glyph 0; two rules with tails
    and one without. *)
Definition tail_rule : rewrite_rule := Spec_Layout.mkRule 255 [([], [])] [([0], [])] [([1], [])] [9].
Definition set_rule : rewrite_rule := Spec_Layout.mkRule 255 [([], [])] [([0], [3])] [([], [])] [8].
Definition end_rule : rewrite_rule := Spec_Layout.mkRule 255 [([], [])] [([], [3; 3])] [([], [4])] [7].
Definition meant (f : Font) (t : rewrite_rule) : srule :=
  mkSRule (rule_condition t) (map (element_pattern f) (block_elements (fun x => x) (rule_head t))) (map (element_pattern f) (block_elements (fun x => x) (rule_body t)))
    (map (element_pattern f) (block_elements (fun x => x) (rule_tail t))) (rule_out t).
Definition sets_session (f : Font) : list (job srule) :=
  let e := mkEnv (glyph_sets f) (fun _ => Ok false) in
  let add t := JAdd (rule_bytes 2 t) (meant f t) in
  [ add tail_rule; add set_rule; add end_rule; JSequence e [[1; 0; 2; 3; 3; 3; 4]] [1; 0; 0; 2; 1; 3]; JRemove (rule_bytes 2 set_rule); JResync e;
    JSequence e [] [2; 3; 3; 4; 1]; JRemoveAll; JSequence e [] [1; 0] ].
Ltac check := repeat first [split | constructor]; unfold byte; vm_compute; first [reflexivity | discriminate | intuition discriminate].
Ltac block_ok := split; [first [left; reflexivity | right; check]|repeat constructor; cbn [fst snd]; check].
Lemma rules_fit : Forall (scannable glyph_kind 2 (fun x => x)) [tail_rule; set_rule; end_rule].
Proof. repeat constructor; cbn [tail_rule set_rule end_rule rule_head rule_body rule_tail]; try block_ok; check. Qed.
Lemma sets_expected f : expected new_session (sets_session f) =
    [(map (meant f) [tail_rule; set_rule; end_rule], [[1; 0; 2; 3; 3; 3; 4]; [1; 0; 0; 2; 1; 3]]); (map (meant f) [tail_rule; end_rule], [[2; 3; 3; 4; 1]]); ([], [[1; 0]])].
Proof. reflexivity. Qed.
Lemma sets_compiled f : compilations new_session (sets_session f) = [map (meant f) [tail_rule; set_rule; end_rule]; map (meant f) [tail_rule; end_rule]].
Proof. reflexivity. Qed.
Lemma meant_tail f t : zlen (q_tail (meant f t)) = zlen (block_elements (fun x => x) (rule_tail t)).
Proof. apply zlen_map. Qed.
Example C51_sets_example : exists f, made range_ops f /\ apart [(1, 2); (0, 0); (3, 3); (4, 4)] /\
  q_usable (glyph_rule_in f [(1, 2); (0, 0); (3, 3); (4, 4)]) (glyph_sets f) (sets_session f) /\
  exists w, run_jobs glyph_tester (false, new_tester) (sets_session f) =
    Ok (w, [[[9; 0; 8; 7; 4]; [9; 0; 0; 2; 8]]; [[2; 7; 4; 1]]; [[1; 0]]]) /\
  Forall (fun rules => within_limits (q_all rules)) (compilations new_session (sets_session f)) /\
  expected new_session (sets_session f) =
    [(map (meant f) [tail_rule; set_rule; end_rule], [[1; 0; 2; 3; 3; 3; 4]; [1; 0; 0; 2; 1; 3]]); (map (meant f) [tail_rule; end_rule], [[2; 3; 3; 4; 1]]); ([], [[1; 0]])].
Proof.
  font_witness range_ops.
  match goal with |- context [made _ ?f] => set (f0 := f) end.
  split; [split; [apply Proofs_Typed.all_typed; vm_compute; reflexivity|vm_compute; reflexivity]|].
  split; [apply apart_check; vm_compute; reflexivity|]. split; [split; [|split]|].
  - assert (G0 : glyph_range f0 (InSet 0) (1, 2)) by (set_range [(1, 1)] (@nil Z)). assert (G1 : glyph_range f0 (InSet 1) (0, 0)) by (set_range (@nil (Z * Z)) [0]).
    pose proof rules_fit as F. inversion F as [|? ? F1 F']; subst. inversion F' as [|? ? F2 F'']; subst. pose proof (Forall_inv F'') as F3. clear F F' F''.
    assert (He : conditions_known (mkEnv (glyph_sets f0) (fun _ => Ok false))) by (intros c; exists false; reflexivity).
    assert (A1 : glyph_rule_in f0 [(1, 2); (0, 0); (3, 3); (4, 4)] (rule_bytes 2 tail_rule) (meant f0 tail_rule)).
    { exists tail_rule. split; [reflexivity|]. split; [split; [exact F1|]; repeat (split; [reflexivity|]); exists 9; split; reflexivity|].
      constructor; [exists (1, 2)|constructor; [exists (0, 0)|constructor]]; (split; [cbn; tauto|assumption]). }
    assert (A2 : glyph_rule_in f0 [(1, 2); (0, 0); (3, 3); (4, 4)] (rule_bytes 2 set_rule) (meant f0 set_rule)).
    { exists set_rule. split; [reflexivity|]. split; [split; [exact F2|]; repeat (split; [reflexivity|]); exists 8; split; reflexivity|].
      constructor; [exists (1, 2); split; [cbn; tauto|assumption]|constructor; [exists (3, 3); split; [cbn; tauto|reflexivity]|constructor]]. }
    assert (A3 : glyph_rule_in f0 [(1, 2); (0, 0); (3, 3); (4, 4)] (rule_bytes 2 end_rule) (meant f0 end_rule)).
    { exists end_rule. split; [reflexivity|]. split; [split; [exact F3|]; repeat (split; [reflexivity|]); exists 7; split; reflexivity|].
      constructor; [exists (3, 3)|constructor; [exists (3, 3)|constructor; [exists (4, 4)|constructor]]]; (split; [cbn; tauto|reflexivity]). }
    clearbody f0. unfold sets_session. cbn [all_legal]. split; [exact A1|]. split; [exact A2|]. split; [exact A3|]. split; [split; [exact He|discriminate]|]. split; [exact I|]. split; [exact He|].
    split; [split; [exact He|discriminate]|]. split; [exact I|]. split; [split; [exact He|intros _; split; reflexivity]|exact I].
  - clearbody f0. unfold same_sets, sets_session. repeat (constructor; try reflexivity; try exact I).
  - rewrite sets_expected. repeat (constructor; [right; repeat constructor; rewrite meant_tail; vm_compute; discriminate|]). constructor.
  - eexists. split; [vm_compute; reflexivity|]. split; [|apply sets_expected]. rewrite sets_compiled. clearbody f0. repeat (constructor; [split; vm_compute; discriminate|]). constructor.
Qed.

(** The same for code points; the font has a set of code point 65 and one of which 48 is read. *)
Definition rune_tail : rewrite_rule := Spec_Layout.mkRule 255 [([], [])] [([0], [])] [([1], [])] [8594].
Definition rune_two : rewrite_rule := Spec_Layout.mkRule 255 [([], [])] [([0], [66])] [([], [])] [8592].
Definition rune_meant (t : rewrite_rule) : srule :=
  mkSRule (rule_condition t) (map (rune_pattern rune_font) (block_elements i32 (rule_head t))) (map (rune_pattern rune_font) (block_elements i32 (rule_body t)))
    (map (rune_pattern rune_font) (block_elements i32 (rule_tail t))) (map i32 (rule_out t)).
Definition runes_session : list (job srule) :=
  let e := mkEnv (utf8_sets rune_font) (fun _ => Ok false) in
  let add t := JAdd (rule_bytes 4 t) (rune_meant t) in
  [ add rune_tail; add rune_two; JSequence e [[65; 48]] [65; 65; 66; 65; 48; 65; 49] ].
Lemma rune_rules_fit : Forall (scannable utf8_kind 4 i32) [rune_tail; rune_two].
Proof. repeat constructor; cbn [rune_tail rune_two rule_head rule_body rule_tail]; try block_ok; check. Qed.
Lemma runes_expected : expected new_session runes_session = [(map rune_meant [rune_tail; rune_two], [[65; 48]; [65; 65; 66; 65; 48; 65; 49]])].
Proof. reflexivity. Qed.
Lemma rune_tail_length t : zlen (q_tail (rune_meant t)) = zlen (block_elements i32 (rule_tail t)).
Proof. apply zlen_map. Qed.
Example C51_runes_sets_example : q_usable (utf8_rule_in rune_font) (utf8_sets rune_font) runes_session /\
  exists w, run_jobs utf8_tester (false, new_tester) runes_session = Ok (w, [[[8594; 48]; [65; 8592; 8594; 48; 65; 49]]]).
Proof.
  split; [split; [|split]|eexists; vm_compute; reflexivity].
  - assert (G0 : rune_element rune_font (InSet 0) 65) by (rune_set (@nil (Z * Z)) [65]). assert (G1 : rune_element rune_font (InSet 1) 48) by (rune_set [(48, 9)] (@nil Z)).
    pose proof rune_rules_fit as F. inversion F as [|? ? F1 F']; subst. pose proof (Forall_inv F') as F2. clear F F'.
    assert (He : conditions_known (mkEnv (utf8_sets rune_font) (fun _ => Ok false))) by (intros c; exists false; reflexivity).
    assert (A1 : utf8_rule_in rune_font (rule_bytes 4 rune_tail) (rune_meant rune_tail)).
    { exists rune_tail. split; [reflexivity|]. split; [split; [exact F1|]; repeat (split; [reflexivity|]); exists 8594; split; reflexivity|].
      constructor; [split; [discriminate|exists 65; exact G0]|constructor; [split; [discriminate|exists 48; exact G1]|constructor]]. }
    assert (A2 : utf8_rule_in rune_font (rule_bytes 4 rune_two) (rune_meant rune_two)).
    { exists rune_two. split; [reflexivity|]. split; [split; [exact F2|]; repeat (split; [reflexivity|]); exists 8592; split; reflexivity|].
      constructor; [split; [discriminate|exists 65; exact G0]|constructor; [split; [discriminate|exists 66; reflexivity]|constructor]]. }
    unfold runes_session. cbn [all_legal]. split; [exact A1|]. split; [exact A2|]. split; [split; [exact He|discriminate]|exact I].
  - unfold same_sets, runes_session. repeat (constructor; try reflexivity; try exact I).
  - rewrite runes_expected. constructor; [right; repeat constructor; rewrite rune_tail_length; vm_compute; discriminate|constructor].
Qed.
