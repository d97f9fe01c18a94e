(** The rewrite testers: C51 to C55. *)
From Verif Require Import Base BaseFacts Spec_Helpers Spec_Format Spec_Layout Model_Scanner Spec_Scanner Model_CircularBuffer Model_Tree Spec_Tree
  Model_Tester Spec_Tester Spec_Session Spec_TesterRules Proofs_Tester5 Proofs_Tester6.

(** A rule of the format with at most 15 elements in head, body and tail, none of them a set *)
Definition simple (c : Z) (h b t o : list Z) : rewrite_rule := Spec_Layout.mkRule c [([], h)] [([], b)] [([], t)] o.
Definition adds (rules : list rewrite_rule) : list call := map (fun r => CAddRule (rule_bytes 2 r)) rules.
Definition sequence (e : env) (input : list Z) : list call := CBeginSequence e :: map CFeed input ++ [CFinishSequence].
Definition reported (reports : list report) : list Z := concat (map fst reports).
Definition valid_rules (rules : list rewrite_rule) : Prop := Forall (scannable glyph_kind 2 (fun x => x)) rules.
(** No sets in the font, and every condition is false. *)
Definition e0 : env := mkEnv (fun _ _ _ => Panic) (fun _ => Ok false).

Definition simple_check (c : Z) (h b t o : list Z) : bool :=
  (0 <=? c) && (c <? 256) && forallb (fun l => (zlen l <=? 15) && forallb (fun x => (0 <=? x) && (x <? 56789)) l) [h; b; t] &&
  (1 <=? zlen o) && (zlen o <=? zlen b) && forallb (fun x => (0 <=? x) && (x <? 65536)) o.
Lemma simple_block l : zlen l <= 15 -> Forall (fun x => 0 <= x < 56789) l -> block_wellformed 2 (k_valid glyph_kind) (fun x => x) [([], l)].
Proof.
  intros Hl H. split.
  - destruct l as [|x l]; [left; reflexivity|right]. split; [discriminate|]. constructor; [|constructor]. unfold fragment_length. cbn [fst snd]. rewrite zlen_nil, zlen_cons. pose proof (zlen_nonneg l). lia.
  - constructor; [|constructor]. cbn [fst snd]. rewrite zlen_nil. split; [lia|]. split; [exact Hl|]. split; [constructor|]. apply Forall_forall. intros x Hx.
    pose proof (proj1 (Forall_forall _ _) H x Hx) as Hr. cbv beta in Hr. change (256 ^ Z.of_nat 2) with 65536. cbn [k_valid glyph_kind]. lia.
Qed.
Lemma simple_ok c h b t o : simple_check c h b t o = true -> scannable glyph_kind 2 (fun x => x) (simple c h b t o).
Proof.
  unfold simple_check. cbn [forallb]. rewrite !andb_true_iff. intros (((((H1 & H2) & (H3 & H3') & (H4 & H4') & (H5 & H5') & _) & H6) & H7) & H8).
  assert (A : forall n l, forallb (fun x => (0 <=? x) && (x <? n)) l = true -> Forall (fun x => 0 <= x < n) l).
  { intros n l H. apply Forall_forall. intros x Hx. rewrite forallb_forall in H. specialize (H x Hx). lia. }
  apply A in H3', H4', H5', H8. unfold simple. constructor; cbn [rule_condition rule_head rule_body rule_tail rule_out]; try (apply simple_block; [lia|assumption]).
  - unfold byte. lia.
  - exact H8.
  - unfold block_length, fragment_length. cbn [map fold_right fst snd]. rewrite zlen_nil. lia.
  - unfold block_length, fragment_length. cbn [map fold_right fst snd]. rewrite zlen_nil. lia.
  - unfold rule_bytes. rewrite zlen_app. cbn [rule_condition rule_head rule_body rule_tail rule_out]. change (zlen [c; block_length [([], h)]; block_length [([], b)]; block_length [([], t)]; zlen o]) with 5.
    unfold block_bytes. cbn [map concat fragment_bytes fst snd app]. rewrite !app_nil_r. repeat (rewrite zlen_app || rewrite zlen_cons).
    assert (L : forall l, zlen (concat (map (le_digits 2) l)) = 2 * zlen l).
    { induction l as [|x l IH]; [reflexivity|]. cbn [map concat]. rewrite zlen_app, IH, zlen_cons. change (zlen (le_digits 2 x)) with 2. lia. }
    rewrite !L. cbn [k_min glyph_kind]. pose proof (zlen_nonneg h). pose proof (zlen_nonneg t). rewrite ?zlen_nil. lia.
Qed.
Ltac valid_rules := repeat (constructor; [apply simple_ok; vm_compute; reflexivity|]); constructor.

(** ** C51 *)
(** Full statement: for every list of valid rules and every input, what is reported is the
    rewriting of the input. False in four ways. *)

(** A rule with two outputs: only the first is reported. *)
Theorem C51_outputs_refuted : exists rules input w reports, valid_rules rules /\
  do_calls glyph_tester (false, new_tester) (adds rules ++ sequence e0 input) = Ok (w, reports) /\
  ~ replaced (map (fun r => (concat (map snd (rule_body r)), rule_out r)) rules) input (reported reports).
Proof.
  exists [simple 255 [] [1; 2] [] [8; 9]], [1; 2; 3]. eexists. eexists. split; [valid_rules|]. split; [vm_compute; reflexivity|].
  intros H. apply can_replace_ok with (n := 9%nat) in H. vm_compute in H. discriminate.
Qed.
Print Assumptions C51_outputs_refuted.

(** A tail and then a head: glyph 7 is replaced and reported nevertheless. *)
Theorem C51_tail_refuted : exists rules input w reports, valid_rules rules /\
  do_calls glyph_tester (false, new_tester) (adds rules ++ sequence e0 input) = Ok (w, reports) /\
  ~ replaced (map (fun r => (concat (map snd (rule_body r)), rule_out r)) rules) input (reported reports).
Proof.
  exists [simple 255 [] [1; 2] [5] [6]; simple 255 [5] [7] [] [8]], [1; 2; 5; 7]. eexists. eexists. split; [valid_rules|]. split; [vm_compute; reflexivity|].
  intros H. apply can_replace_ok with (n := 9%nat) in H. vm_compute in H. discriminate.
Qed.
Print Assumptions C51_tail_refuted.

(** A tail of two glyphs after looking ahead: glyph 8 is reported in the place of glyph 3. *)
Theorem C51_peeks_refuted : exists rules input w reports, valid_rules rules /\
  do_calls glyph_tester (false, new_tester) (adds rules ++ sequence e0 input) = Ok (w, reports) /\
  ~ replaced (map (fun r => (concat (map snd (rule_body r)), rule_out r)) rules) input (reported reports).
Proof.
  exists [simple 255 [] [1] [2; 3] [6]; simple 255 [] [5; 1; 2; 3; 9; 9] [] [7]], [5; 1; 2; 3; 9; 8]. eexists. eexists. split; [valid_rules|]. split; [vm_compute; reflexivity|].
  intros H. apply can_replace_ok with (n := 9%nat) in H. vm_compute in H. discriminate.
Qed.
Print Assumptions C51_peeks_refuted.

(** Two rules with different conditions: the shorter match is taken, since its rule was added
    first. (The conditions do not matter, see C53.) *)
Definition two_conditions : list rrule := [mkRule 1 [] [1] [8]; mkRule 2 [] [1; 2] [9]].
Definition bytes_of (r : rrule) : rewrite_rule := simple (r_cond r) (r_head r) (r_body r) [] (r_out r).
Theorem C51_conditions_refuted : exists rules input w reports, valid_rules (map bytes_of rules) /\
  do_calls glyph_tester (false, new_tester) (adds (map bytes_of rules) ++ sequence e0 input) = Ok (w, reports) /\
  ~ rewriting (longest rules) rules input (reported reports).
Proof.
  exists two_conditions, [1; 2; 3]. eexists. eexists. split; [valid_rules|]. split; [vm_compute; reflexivity|]. change (reported _) with [8; 2; 3].
  intros H. remember [1; 2; 3] as w eqn:Ew in H. remember [8; 2; 3] as o eqn:Eo in H. destruct H as [|x rest out Hc H|m r rest out Hn Hc H]; try discriminate.
  - injection Ew as -> ->. discriminate.
  - destruct m as [|[|m]]; cbn [nth_error two_conditions] in Hn; [| |destruct m; discriminate]; injection Hn as <-; cbn [r_head r_out app] in Eo; [|discriminate].
    rewrite Ew in Hc. destruct Hc as [[E _]|(a & xs & b & E & _ & Hl & _)]; [discriminate|].
    specialize (Hl [1; 2] 1). cbn in Hl. specialize (Hl (or_intror (or_introl eq_refl))). specialize (Hl (ex_intro _ [3] eq_refl)).
    destruct a as [|y a]; cbn in E; [injection E as <- _; cbn in Hl; lia|]. injection E as _ E. destruct a as [|y' a]; cbn in E; [discriminate|]. injection E as _ E. destruct a; discriminate.
Qed.
Print Assumptions C51_conditions_refuted.

(** What holds: for rules without sets, without tails and with one output. In a session of any
    length, each sequence may be broken into pieces by Break; each piece is rewritten from left to
    right, the rule chosen being the one with the longest pattern among those with the same
    condition, and then the first. The compiler gives up only when the rules with one condition
    are too many or too long together. Missing: the other rules. *)
Theorem C51_glyphs_partial : forall js, all_legal glyph_rule new_session js ->
  run_jobs glyph_tester (false, new_tester) js = Err "DecisionTreeCompiler hit a limit" /\ Exists crowded (compilations new_session js) \/
  exists w outs, run_jobs glyph_tester (false, new_tester) js = Ok (w, outs) /\
    Forall2 (fun e o => Forall2 (fun piece out => rewriting (by_condition (fst e)) (fst e) (filter is_glyph piece) out) (snd e) o) (expected new_session js) outs.
Proof. exact (session_ok glyph_tester is_glyph glyph_rule glyph_feeds glyph_plain). Qed.
Print Assumptions C51_glyphs_partial.
Theorem C51_runes_partial : forall js, all_legal utf8_rule new_session js ->
  run_jobs utf8_tester (false, new_tester) js = Err "DecisionTreeCompiler hit a limit" /\ Exists crowded (compilations new_session js) \/
  exists w outs, run_jobs utf8_tester (false, new_tester) js = Ok (w, outs) /\
    Forall2 (fun e o => Forall2 (fun piece out => rewriting (by_condition (fst e)) (fst e) (filter is_rune piece) out) (snd e) o) (expected new_session js) outs.
Proof. exact (session_ok utf8_tester is_rune utf8_rule utf8_feeds utf8_plain). Qed.
Print Assumptions C51_runes_partial.
(** In particular there is no error as long as all rules together are few and short enough. *)
Theorem C51_room_partial : forall js, all_legal glyph_rule new_session js -> Forall (fun rules => within_limits (all_rules rules)) (compilations new_session js) ->
  exists w outs, run_jobs glyph_tester (false, new_tester) js = Ok (w, outs).
Proof. exact (session_room glyph_tester is_glyph glyph_rule glyph_feeds glyph_plain). Qed.
Print Assumptions C51_room_partial.
Theorem C51_runes_room_partial : forall js, all_legal utf8_rule new_session js -> Forall (fun rules => within_limits (all_rules rules)) (compilations new_session js) ->
  exists w outs, run_jobs utf8_tester (false, new_tester) js = Ok (w, outs).
Proof. exact (session_room utf8_tester is_rune utf8_rule utf8_feeds utf8_plain). Qed.
Print Assumptions C51_runes_room_partial.
(** When all rules have the same condition, the rule with the longest pattern is chosen. *)
Theorem C51_glyphs_longest_partial : forall js w outs i rules pieces c, all_legal glyph_rule new_session js ->
  run_jobs glyph_tester (false, new_tester) js = Ok (w, outs) -> nth_error (expected new_session js) i = Some (rules, pieces) -> Forall (fun r => r_cond r = c) rules ->
  exists o, nth_error outs i = Some o /\ Forall2 (fun piece out => rewriting (longest rules) rules (filter is_glyph piece) out) pieces o.
Proof. exact (session_longest glyph_tester is_glyph glyph_rule glyph_feeds glyph_plain). Qed.
Print Assumptions C51_glyphs_longest_partial.
Theorem C51_runes_longest_partial : forall js w outs i rules pieces c, all_legal utf8_rule new_session js ->
  run_jobs utf8_tester (false, new_tester) js = Ok (w, outs) -> nth_error (expected new_session js) i = Some (rules, pieces) -> Forall (fun r => r_cond r = c) rules ->
  exists o, nth_error outs i = Some o /\ Forall2 (fun piece out => rewriting (longest rules) rules (filter is_rune piece) out) pieces o.
Proof. exact (session_longest utf8_tester is_rune utf8_rule utf8_feeds utf8_plain). Qed.
Print Assumptions C51_runes_longest_partial.
(** The rewriting is unique, and does nothing but replace bodies by outputs. *)
Theorem C51_unique_partial : forall rules, zlen rules <= 254 -> Forall (fun r => pattern r <> []) rules ->
  forall input out out', rewriting (by_condition rules) rules input out -> rewriting (by_condition rules) rules input out' -> out = out'.
Proof. intros rules H1 H2 input out out' H H'. exact (rewriting_unique rules H1 H2 _ _ H _ H'). Qed.
Print Assumptions C51_unique_partial.
Theorem C51_replaces_partial : forall choose rules input out, rewriting choose rules input out -> replaced (map (fun r => (r_body r, r_out r)) rules) input out.
Proof. exact rewriting_replaces. Qed.
Print Assumptions C51_replaces_partial.

(** An example: three rules, one of which goes on after a match of another; the third is removed
    between two sequences, and at last all are. *)
Lemma glyph_rule_of r : simple_check (r_cond r) (r_head r) (r_body r) [] (r_out r) = true -> zlen (r_out r) = 1 -> glyph_rule (rule_bytes 2 (bytes_of r)) r.
Proof.
  intros H Ho. exists (bytes_of r). split; [reflexivity|]. split; [apply simple_ok; exact H|]. unfold bytes_of, simple, block_is, block_elements, fragment_elements.
  cbn [rule_condition rule_head rule_body rule_tail rule_out map concat fst snd app]. rewrite !app_nil_r. repeat (split; [reflexivity|]).
  destruct (r_out r) as [|y [|z l]]; [rewrite zlen_nil in Ho; lia|eauto|rewrite !zlen_cons in Ho; pose proof (zlen_nonneg l); lia].
Qed.
Definition rule_a := mkRule 255 [] [1; 2] [6].
Definition rule_b := mkRule 255 [] [1; 2; 3; 4] [7].
Definition rule_c := mkRule 255 [3] [5] [8].
Definition add r := JAdd (rule_bytes 2 (bytes_of r)) r.
Definition example_session : list (job rrule) :=
  [ add rule_a; add rule_b; JResync e0; JSequence e0 [[1; 2; 3]] [1; 2; 3; 4; 1; 2; 3; 1];
    add rule_c; JSequence e0 [] [1; 2; 3; 5; 65535; 5]; JRemove (rule_bytes 2 (bytes_of rule_a)); JRefresh e0; JSequence e0 [] [1; 2; 3; 5; 1; 2; 3; 4];
    JRemoveAll; JSequence e0 [] [1; 2] ].
Lemma e0_known : conditions_known e0.
Proof. intros c. exists false. reflexivity. Qed.
Example C51_example : all_legal glyph_rule new_session example_session /\
  exists w, run_jobs glyph_tester (false, new_tester) example_session =
    Ok (w, [[[6; 3]; [7; 6; 3; 1]]; [[6; 3; 8; 5]]; [[1; 2; 3; 8; 7]]; [[1; 2]]]) /\
  compilations new_session example_session = [[rule_a; rule_b]; [rule_a; rule_b; rule_c]; [rule_b; rule_c]] /\
  Forall (fun rules => within_limits (all_rules rules)) (compilations new_session example_session) /\
  expected new_session example_session =
    [([rule_a; rule_b], [[1; 2; 3]; [1; 2; 3; 4; 1; 2; 3; 1]]); ([rule_a; rule_b; rule_c], [[1; 2; 3; 5; 65535; 5]]);
     ([rule_b; rule_c], [[1; 2; 3; 5; 1; 2; 3; 4]]); ([], [[1; 2]])].
Proof.
  split.
  - split; [apply glyph_rule_of; vm_compute; reflexivity|]. split; [apply glyph_rule_of; vm_compute; reflexivity|]. split; [exact e0_known|]. split; [split; [exact e0_known|discriminate]|].
    split; [apply glyph_rule_of; vm_compute; reflexivity|]. split; [split; [exact e0_known|discriminate]|]. split; [exact I|]. split; [exact e0_known|].
    split; [split; [exact e0_known|vm_compute; discriminate]|]. split; [exact I|]. split; [split; [exact e0_known|intros _; vm_compute; split; reflexivity]|exact I].
  - eexists. split; [vm_compute; reflexivity|]. split; [vm_compute; reflexivity|]. split; [repeat constructor; vm_compute; discriminate|]. vm_compute. reflexivity.
Qed.

(** ** C52 *)
(** Full statement: what a sequence reports does not depend on earlier sequences. False: a
    sequence that ends within the tail of a rule leaves that tail behind, and the next sequence
    panics. *)
Theorem C52_leftover_refuted : exists rules first second w reports w1 reports1, valid_rules rules /\
  do_calls glyph_tester (false, new_tester) (adds rules ++ sequence e0 second) = Ok (w, reports) /\
  do_calls glyph_tester (false, new_tester) (adds rules ++ sequence e0 first) = Ok (w1, reports1) /\
  do_calls glyph_tester (false, new_tester) (adds rules ++ sequence e0 first ++ sequence e0 second) = Panic.
Proof.
  exists [simple 255 [] [1; 2] [5] [6]; simple 255 [] [7] [] [8]; simple 255 [5] [9] [] [4]], [1; 2; 5], [7]. eexists. eexists. eexists. eexists. split; [valid_rules|].
  split; [vm_compute; reflexivity|]. split; vm_compute; reflexivity.
Qed.
Print Assumptions C52_leftover_refuted.
(** What holds: for rules without sets, without tails and with one output, whatever two testers
    went through before, the same pieces with the same rules give the same output. *)
Theorem C52_glyphs_partial : forall js js' w outs w' outs' i j e, all_legal glyph_rule new_session js -> all_legal glyph_rule new_session js' ->
  run_jobs glyph_tester (false, new_tester) js = Ok (w, outs) -> run_jobs glyph_tester (false, new_tester) js' = Ok (w', outs') ->
  nth_error (expected new_session js) i = Some e -> nth_error (expected new_session js') j = Some e ->
  exists o, nth_error outs i = Some o /\ nth_error outs' j = Some o.
Proof. exact (session_independent glyph_tester is_glyph glyph_rule glyph_feeds glyph_plain). Qed.
Print Assumptions C52_glyphs_partial.
Theorem C52_runes_partial : forall js js' w outs w' outs' i j e, all_legal utf8_rule new_session js -> all_legal utf8_rule new_session js' ->
  run_jobs utf8_tester (false, new_tester) js = Ok (w, outs) -> run_jobs utf8_tester (false, new_tester) js' = Ok (w', outs') ->
  nth_error (expected new_session js) i = Some e -> nth_error (expected new_session js') j = Some e ->
  exists o, nth_error outs i = Some o /\ nth_error outs' j = Some o.
Proof. exact (session_independent utf8_tester is_rune utf8_rule utf8_feeds utf8_plain). Qed.
Print Assumptions C52_runes_partial.
Example C52_example : exists w w',
  run_jobs glyph_tester (false, new_tester) [add rule_a; add rule_c; JSequence e0 [] [1; 2; 3]; JSequence e0 [] [1; 1; 2]] = Ok (w, [[[6; 3]]; [[1; 6]]]) /\
  run_jobs glyph_tester (false, new_tester) [add rule_b; JSequence e0 [[1; 2]] [1; 2; 3]; JRemoveAll; add rule_a; add rule_c; JSequence e0 [] [1; 1; 2]] = Ok (w', [[[1; 2]; [1; 2; 3]]; [[1; 6]]]).
Proof. eexists. eexists. split; vm_compute; reflexivity. Qed.

(** ** C53 *)
(** Full statement: a rule whose condition is false is never applied. False: here the condition of
    the only rule is false and the rule is applied. *)
Theorem C53_applied_refuted : exists rule input w reports, valid_rules [rule] /\ e_cond e0 (rule_condition rule) = Ok false /\
  do_calls glyph_tester (false, new_tester) (adds [rule] ++ [CRefreshConditions e0] ++ sequence e0 input) = Ok (w, reports) /\ reported reports <> input.
Proof.
  exists (simple 3 [] [1; 2] [] [6]), [1; 2; 3]. eexists. eexists. split; [valid_rules|]. split; [reflexivity|]. split; [vm_compute; reflexivity|]. vm_compute. discriminate.
Qed.
Print Assumptions C53_applied_refuted.
(** More generally conditions have no effect at all: with rules as above, two sessions that differ
    only in the fonts and settings passed report the same. *)
Theorem C53_no_effect_refuted : forall js js' w outs w' outs', all_legal glyph_rule new_session js -> all_legal glyph_rule new_session js' -> Forall2 same_job js js' ->
  run_jobs glyph_tester (false, new_tester) js = Ok (w, outs) -> run_jobs glyph_tester (false, new_tester) js' = Ok (w', outs') -> outs = outs'.
Proof. exact (session_same glyph_tester is_glyph glyph_rule glyph_feeds glyph_plain). Qed.
Print Assumptions C53_no_effect_refuted.
(** What holds: the values of the conditions are computed rightly, they are just not used. *)
Theorem C53_values_partial : forall e t t', RefreshConditions e t = Ok t' ->
  map i_cond (ts_trees t') = map i_cond (ts_trees t) /\
  Forall (fun i => i_cached i = true /\ (if i_cond i =? 255 then i_value i = true else e_cond e (i_cond i) = Ok (i_value i))) (ts_trees t').
Proof. exact refreshed. Qed.
Print Assumptions C53_values_partial.
Definition e1 : env := mkEnv (fun _ _ _ => Panic) (fun c => Ok (c =? 3)).
Example C53_example :
  match do_calls glyph_tester (false, new_tester) (adds [simple 3 [] [1] [] [6]; simple 255 [] [1] [] [6]; simple 2 [] [1] [] [6]]) with
  | Ok (_, t, _) => exists t', RefreshConditions e1 t = Ok t' /\ map (fun i => (i_cond i, i_value i)) (ts_trees t') = [(2, false); (3, true); (255, true)]
  | _ => False
  end.
Proof. vm_compute. eexists. split; reflexivity. Qed.

(** ** C54 *)
(** Full statement: after a compilation error, other testers and the same one without the
    offending rule work. False: the compiler shared by all testers stays in use for ever. Adding an
    invalid rule is accepted, the error comes when a sequence is begun; from then on any tester
    that has to compile a rule panics. *)
Definition invalid_rule : list Z := [255; 0; 1; 0; 0; 0; 0; 0; 0; 0; 0].
Theorem C54_others_refuted : exists t m, do_calls glyph_tester (false, new_tester) [CAddRule invalid_rule; CBeginSequence e0] = Ok (true, t, [([], None); ([], Some m)]) /\
  forall d r e, glyph_rule d r -> conditions_known e ->
    (exists t', AddRule glyph_tester new_tester d = Ok t') /\
    do_calls glyph_tester (true, new_tester) [CAddRule d; CBeginSequence e] = Panic.
Proof.
  eexists. eexists. split; [vm_compute; reflexivity|]. intros d r e Hr He. pose proof (glyph_plain _ _ Hr) as Hp. pose proof (add_new_ok glyph_tester d r Hp) as (t' & E).
  split; [exists t'; exact E|]. cbn [do_calls do_call]. rewrite E. cbn [bind do_calls do_call].
  rewrite (added_stuck glyph_tester e d t' (plain_min _ _ _ Hp) ltac:(discriminate) E He). reflexivity.
Qed.
Print Assumptions C54_others_refuted.
(** The same tester: the offending rule cannot even be removed, since the sequence counts as begun;
    and if it is removed after FinishSequence, compiling the others panics. *)
Theorem C54_same_refuted : exists w reports w1 reports1,
  do_calls glyph_tester (false, new_tester) ([CAddRule invalid_rule] ++ adds [simple 255 [] [1] [] [6]] ++ [CBeginSequence e0]) = Ok (w, reports) /\
  do_call glyph_tester w (CRemoveRule invalid_rule) = Panic /\
  do_calls glyph_tester w [CFinishSequence; CRemoveRule invalid_rule] = Ok (w1, reports1) /\
  do_call glyph_tester w1 (CBeginSequence e0) = Panic.
Proof. eexists. eexists. eexists. eexists. split; [vm_compute; reflexivity|]. split; [vm_compute; reflexivity|].
  split; [vm_compute; reflexivity|]. vm_compute. reflexivity. Qed.
Print Assumptions C54_same_refuted.
(** What holds: a tester whose rules have been compiled is not affected by failures of others. *)
Theorem C54_compiled_partial : forall k e t l t' reports, ts_recompile t = false -> Forall in_sequence l ->
  do_calls k (false, t) (CBeginSequence e :: l) = Ok (false, t', reports) -> do_calls k (true, t) (CBeginSequence e :: l) = Ok (true, t', reports).
Proof. exact compiled_unaffected. Qed.
Print Assumptions C54_compiled_partial.
Example C54_example :
  match do_calls glyph_tester (false, new_tester) (adds [simple 255 [] [1] [] [6]] ++ [CResync e0]) with
  | Ok (_, t, _) => ts_recompile t = false /\ exists t', do_calls glyph_tester (false, t) (sequence e0 [1]) = Ok (false, t', [([], None); ([6], None); ([], None)])
  | _ => False
  end.
Proof. vm_compute. split; [reflexivity|]. eexists. reflexivity. Qed.

(** ** C55 *)
(** Full statement: a tester without rules reports what it is fed. False in three ways. *)
(** A new tester panics at the first glyph. *)
Theorem C55_new_refuted : forall g e, is_glyph g = true -> do_calls glyph_tester (false, new_tester) [CBeginSequence e; CFeed g] = Panic.
Proof.
  intros g e H. unfold is_glyph in H.
  assert (E : tk_feed glyph_tester g = Ok true) by (cbn [tk_feed glyph_tester]; destruct (Z.eqb_spec g 56790); [lia|]; destruct (Z.gtb_spec g 56789); [lia|reflexivity]).
  cbn [do_calls do_call]. change (BeginSequence glyph_tester e false new_tester) with (Ok (false, with_operating new_tester true, @None string)). cbn [bind do_calls do_call].
  unfold Feed. rewrite E. reflexivity.
Qed.
Print Assumptions C55_new_refuted.
(** So does one whose rules were removed one by one. *)
Theorem C55_removed_refuted : exists rule input, valid_rules [rule] /\ input <> [] /\
  do_calls glyph_tester (false, new_tester) (adds [rule] ++ sequence e0 input ++ [CRemoveRule (rule_bytes 2 rule)] ++ sequence e0 input) = Panic.
Proof. exists (simple 255 [] [7] [] [8]), [7]. split; [valid_rules|]. split; [discriminate|]. vm_compute. reflexivity. Qed.
Print Assumptions C55_removed_refuted.
(** After RemoveAllRules a glyph can be swallowed, because of the tail left behind (see C52). *)
Theorem C55_swallowed_refuted : exists rules first input w reports w1 reports1, valid_rules rules /\
  do_calls glyph_tester (false, new_tester) (adds rules ++ sequence e0 first ++ [CRemoveAllRules]) = Ok (w, reports) /\
  do_calls glyph_tester w (sequence e0 input) = Ok (w1, reports1) /\ reported reports1 <> input.
Proof.
  exists [simple 255 [] [1; 2] [5] [6]; simple 255 [5] [9] [] [4]], [1; 2; 5], [7; 8]. eexists. eexists. eexists. eexists. split; [valid_rules|].
  split; [vm_compute; reflexivity|]. split; [vm_compute; reflexivity|]. vm_compute. discriminate.
Qed.
Print Assumptions C55_swallowed_refuted.
(** What holds: once rules without sets, without tails and with one output have been compiled,
    RemoveAllRules makes the tester pass on what it is fed. *)
Theorem C55_glyphs_partial : forall js w outs i pieces, all_legal glyph_rule new_session js -> run_jobs glyph_tester (false, new_tester) js = Ok (w, outs) ->
  nth_error (expected new_session js) i = Some ([], pieces) -> nth_error outs i = Some (map (filter is_glyph) pieces).
Proof. exact (session_empty glyph_tester is_glyph glyph_rule glyph_feeds glyph_plain). Qed.
Print Assumptions C55_glyphs_partial.
Theorem C55_runes_partial : forall js w outs i pieces, all_legal utf8_rule new_session js -> run_jobs utf8_tester (false, new_tester) js = Ok (w, outs) ->
  nth_error (expected new_session js) i = Some ([], pieces) -> nth_error outs i = Some (map (filter is_rune) pieces).
Proof. exact (session_empty utf8_tester is_rune utf8_rule utf8_feeds utf8_plain). Qed.
Print Assumptions C55_runes_partial.
Example C55_example : nth_error (expected new_session example_session) 3 = Some ([], [[1; 2]]).
Proof. reflexivity. Qed.
