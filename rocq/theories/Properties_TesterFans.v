(** The rewrite testers with rules that have any sets, no two of which can start with the same element:
    C51, C52 and C55. *)
From Verif Require Import Base BaseFacts Spec_Helpers Spec_Layout Model_Font Model_Rewrites Model_Scanner Spec_Scanner Model_CircularBuffer Model_Tree Spec_Tree Spec_TreeSets
  Model_Tester Spec_Tester Spec_Session Spec_TesterRules Spec_TesterSets Spec_Fans Spec_TesterFans Proofs_Tree4 Proofs_Tester6 Proofs_Tester11 Proofs_Fans2 Proofs_TesterFans2.
From Verif Require Import Model_Builder Properties_Tree Properties_TesterSets Properties_Fans.

(** ** C51 *)
(** The elements of the rules may be single glyphs and sets of any ranges and glyphs; [R] has all
    ranges, which do not overlap. Rules with the same condition do not start with the same glyph.
    Heads are allowed if there are no tails, otherwise tails of one element. Then each piece is
    rewritten as it should be, except that rules with different conditions are chosen by their place
    (see C51_conditions_refuted). Missing: rules that start with the same glyph and have sets other
    than ranges (for ranges see C51_sets_partial), ranges that overlap, tails of several elements
    (C51_peeks_refuted), tails together with heads (C51_tail_refuted), several outputs
    (C51_outputs_refuted). *)
Theorem C51_fans_partial : forall f R js, apart R -> fan_usable (glyph_fan_rule f R) (glyph_sets f) js ->
  run_jobs glyph_tester (false, new_tester) js = Err "DecisionTreeCompiler hit a limit" /\ Exists (fan_crowded (one_of R)) (compilations new_session js) \/
  exists w outs, run_jobs glyph_tester (false, new_tester) js = Ok (w, outs) /\
    Forall2 (fun e o => Forall2 (fun piece out => q_rewriting (q_by_condition (fst e)) (fst e) (filter is_glyph piece) out) (snd e) o) (expected new_session js) outs.
Proof. intros f R js Hap. exact (fan_usable_ok glyph_tester (glyph_sets f) (element_pattern f) (one_of R) Hap is_glyph glyph_feeds (glyph_fan_rule f R) (glyph_fan_ok f R) js). Qed.
Print Assumptions C51_fans_partial.
(** For code points, any sets, of whose ranges the first code point is read (see C38). *)
Theorem C51_runes_fans_partial : forall f js, fan_usable (utf8_fan_rule f) (utf8_sets f) js ->
  run_jobs utf8_tester (false, new_tester) js = Err "DecisionTreeCompiler hit a limit" /\ Exists (fan_crowded one_rune) (compilations new_session js) \/
  exists w outs, run_jobs utf8_tester (false, new_tester) js = Ok (w, outs) /\
    Forall2 (fun e o => Forall2 (fun piece out => q_rewriting (q_by_condition (fst e)) (fst e) (filter is_rune piece) out) (snd e) o) (expected new_session js) outs.
Proof. intros f js. exact (fan_usable_ok utf8_tester (utf8_sets f) (rune_pattern f) one_rune one_rune_apart is_rune utf8_feeds (utf8_fan_rule f) (utf8_fan_ok f) js). Qed.
Print Assumptions C51_runes_fans_partial.
Theorem C51_fans_room_partial : forall f R js, apart R -> (forall r, In r R -> fst r <= snd r) -> zlen R <= 254 -> fan_usable (glyph_fan_rule f R) (glyph_sets f) js ->
  Forall (fun rules => 1 + steps (q_all rules) <= 254) (compilations new_session js) -> exists w outs, run_jobs glyph_tester (false, new_tester) js = Ok (w, outs).
Proof. exact glyph_fan_room. Qed.
Print Assumptions C51_fans_room_partial.
(** When all rules have the same condition, the rule with the longest pattern is chosen. *)
Theorem C51_fans_longest_partial : forall f R js w outs i rules pieces c, apart R -> fan_usable (glyph_fan_rule f R) (glyph_sets f) js ->
  run_jobs glyph_tester (false, new_tester) js = Ok (w, outs) -> nth_error (expected new_session js) i = Some (rules, pieces) -> Forall (fun r => q_cond r = c) rules ->
  exists o, nth_error outs i = Some o /\ Forall2 (fun piece out => q_rewriting (q_longest rules) rules (filter is_glyph piece) out) pieces o.
Proof. intros f R js w outs i rules pieces c Hap. exact (fan_session_longest glyph_tester (glyph_sets f) (element_pattern f) (one_of R) Hap is_glyph glyph_feeds (glyph_fan_rule f R) (glyph_fan_ok f R) js w outs i rules pieces c). Qed.
Print Assumptions C51_fans_longest_partial.
Theorem C51_runes_fans_longest_partial : forall f js w outs i rules pieces c, fan_usable (utf8_fan_rule f) (utf8_sets f) js ->
  run_jobs utf8_tester (false, new_tester) js = Ok (w, outs) -> nth_error (expected new_session js) i = Some (rules, pieces) -> Forall (fun r => q_cond r = c) rules ->
  exists o, nth_error outs i = Some o /\ Forall2 (fun piece out => q_rewriting (q_longest rules) rules (filter is_rune piece) out) pieces o.
Proof. intros f js w outs i rules pieces c. exact (fan_session_longest utf8_tester (utf8_sets f) (rune_pattern f) one_rune one_rune_apart is_rune utf8_feeds (utf8_fan_rule f) (utf8_fan_ok f) js w outs i rules pieces c). Qed.
Print Assumptions C51_runes_fans_longest_partial.

(** ** C52 *)
Theorem C52_fans_partial : forall f R js js' w outs w' outs' i j e, apart R -> fan_usable (glyph_fan_rule f R) (glyph_sets f) js -> fan_usable (glyph_fan_rule f R) (glyph_sets f) js' ->
  run_jobs glyph_tester (false, new_tester) js = Ok (w, outs) -> run_jobs glyph_tester (false, new_tester) js' = Ok (w', outs') ->
  nth_error (expected new_session js) i = Some e -> nth_error (expected new_session js') j = Some e ->
  exists o, nth_error outs i = Some o /\ nth_error outs' j = Some o.
Proof. intros f R js js' w outs w' outs' i j e Hap. exact (fan_session_independent glyph_tester (glyph_sets f) (element_pattern f) (one_of R) Hap is_glyph glyph_feeds (glyph_fan_rule f R) (glyph_fan_ok f R) js js' w outs w' outs' i j e). Qed.
Print Assumptions C52_fans_partial.
Theorem C52_runes_fans_partial : forall f js js' w outs w' outs' i j e, fan_usable (utf8_fan_rule f) (utf8_sets f) js -> fan_usable (utf8_fan_rule f) (utf8_sets f) js' ->
  run_jobs utf8_tester (false, new_tester) js = Ok (w, outs) -> run_jobs utf8_tester (false, new_tester) js' = Ok (w', outs') ->
  nth_error (expected new_session js) i = Some e -> nth_error (expected new_session js') j = Some e ->
  exists o, nth_error outs i = Some o /\ nth_error outs' j = Some o.
Proof. intros f js js' w outs w' outs' i j e. exact (fan_session_independent utf8_tester (utf8_sets f) (rune_pattern f) one_rune one_rune_apart is_rune utf8_feeds (utf8_fan_rule f) (utf8_fan_ok f) js js' w outs w' outs' i j e). Qed.
Print Assumptions C52_runes_fans_partial.

(** ** C55 *)
Theorem C55_fans_partial : forall f R js w outs i pieces, apart R -> fan_usable (glyph_fan_rule f R) (glyph_sets f) js ->
  run_jobs glyph_tester (false, new_tester) js = Ok (w, outs) -> nth_error (expected new_session js) i = Some ([], pieces) -> nth_error outs i = Some (map (filter is_glyph) pieces).
Proof. intros f R js w outs i pieces Hap. exact (fan_session_empty glyph_tester (glyph_sets f) (element_pattern f) (one_of R) Hap is_glyph glyph_feeds (glyph_fan_rule f R) (glyph_fan_ok f R) js w outs i pieces). Qed.
Print Assumptions C55_fans_partial.
Theorem C55_runes_fans_partial : forall f js w outs i pieces, fan_usable (utf8_fan_rule f) (utf8_sets f) js ->
  run_jobs utf8_tester (false, new_tester) js = Ok (w, outs) -> nth_error (expected new_session js) i = Some ([], pieces) -> nth_error outs i = Some (map (filter is_rune) pieces).
Proof. intros f js w outs i pieces. exact (fan_session_empty utf8_tester (utf8_sets f) (rune_pattern f) one_rune one_rune_apart is_rune utf8_feeds (utf8_fan_rule f) (utf8_fan_ok f) js w outs i pieces). Qed.
Print Assumptions C55_runes_fans_partial.

(** An example: a font with a set of glyphs 1, 2 and 4, and three rules, one with a tail *)
Definition fan_tail : rewrite_rule := Spec_Layout.mkRule 255 [([], [])] [([0], [])] [([], [3])] [9].
Definition fan_zero : rewrite_rule := Spec_Layout.mkRule 255 [([], [])] [([], [0]); ([0; 0], [])] [([], [])] [8].
Definition fan_three : rewrite_rule := Spec_Layout.mkRule 255 [([], [])] [([], [3])] [([0], [])] [7].
Definition fan_session (f : Font) : list (job srule) :=
  let e := mkEnv (glyph_sets f) (fun _ => Ok false) in
  let add t := JAdd (rule_bytes 2 t) (meant f t) in
  [ add fan_tail; add fan_zero; add fan_three; JSequence e [[4; 3; 0; 2; 4; 3]] [0; 1; 3; 4; 2; 2; 3; 3]; JRemove (rule_bytes 2 fan_zero); JResync e;
    JSequence e [] [0; 1; 4; 3; 2]; JRemoveAll; JSequence e [] [1; 0] ].
Definition fan_ranges : list (Z * Z) := [(1, 2); (4, 4); (0, 0); (3, 3)].
Lemma fan_rules_fit : Forall (scannable glyph_kind 2 (fun x => x)) [fan_tail; fan_zero; fan_three].
Proof. repeat constructor; cbn [fan_tail fan_zero fan_three rule_head rule_body rule_tail]; try block_ok; check. Qed.
Lemma fan_expected f : expected new_session (fan_session f) =
    [(map (meant f) [fan_tail; fan_zero; fan_three], [[4; 3; 0; 2; 4; 3]; [0; 1; 3; 4; 2; 2; 3; 3]]); (map (meant f) [fan_tail; fan_three], [[0; 1; 4; 3; 2]]); ([], [[1; 0]])].
Proof. reflexivity. Qed.
Lemma fan_compiled f : compilations new_session (fan_session f) = [map (meant f) [fan_tail; fan_zero; fan_three]; map (meant f) [fan_tail; fan_three]].
Proof. reflexivity. Qed.
Lemma starts_first r x : starts_with r x -> hd (fun _ => False) (q_pattern r) x.
Proof. intros (q & qs & -> & H). exact H. Qed.
Lemma fan_apart f l : incl l [fan_tail; fan_zero; fan_three] -> NoDup l -> ~ element_pattern f (InSet 0) 0 -> ~ element_pattern f (InSet 0) 3 -> starts_apart (map (meant f) l).
Proof.
  intros Hl Hn H0 H3 i j r r' x Hij Hi Hj _ Hr Hr'. rewrite nth_error_map in Hi, Hj. destruct (nth_error l i) as [a|] eqn:Ei; [|discriminate]. destruct (nth_error l j) as [b|] eqn:Ej; [|discriminate].
  injection Hi as <-. injection Hj as <-. pose proof (Hl a (nth_error_In _ _ Ei)) as Ha. pose proof (Hl b (nth_error_In _ _ Ej)) as Hb.
  assert (Hab : a <> b) by (intros <-; apply Hij; apply (proj1 (NoDup_nth_error l) Hn); [apply nth_error_Some; congruence|congruence]).
  destruct Ha as [<-|[<-|[<-|[]]]], Hb as [<-|[<-|[<-|[]]]]; try contradiction; apply starts_first in Hr, Hr'; cbn -[in_glyph_set] in Hr, Hr'; subst; try contradiction; discriminate.
Qed.
Example C51_fans_example : exists f, made fan_ops f /\ apart fan_ranges /\ fan_usable (glyph_fan_rule f fan_ranges) (glyph_sets f) (fan_session f) /\
  exists w, run_jobs glyph_tester (false, new_tester) (fan_session f) = Ok (w, [[[9; 3; 8; 3]; [0; 9; 3; 4; 2; 9; 3; 3]]; [[0; 1; 9; 3; 2]]; [[1; 0]]]) /\
  Forall (fun rules => 1 + steps (q_all rules) <= 254) (compilations new_session (fan_session f)).
Proof.
  font_witness fan_ops.
  match goal with |- context [made _ ?f] => set (f0 := f) end.
  split; [split; [apply Proofs_Typed.all_typed; vm_compute; reflexivity|vm_compute; reflexivity]|].
  split; [apply apart_check; vm_compute; reflexivity|].
  assert (G0 : glyph_members f0 (InSet 0) [(1, 2); (4, 4)]).
  { split; [discriminate|]. split; [discriminate|]. exists (mkSet [(1, 1)] [4]). split; [vm_compute; reflexivity|]. split; [split; repeat constructor; unfold byte; cbn; lia|]. split; [reflexivity|]. repeat constructor. }
  split; [split; [split; [|split]|]|].
  - pose proof fan_rules_fit as F. inversion F as [|? ? F1 F']; subst. inversion F' as [|? ? F2 F'']; subst. pose proof (Forall_inv F'') as F3. clear F F' F''.
    assert (He : conditions_known (mkEnv (glyph_sets f0) (fun _ => Ok false))) by (intros c; exists false; reflexivity).
    assert (E0 : exists rs, glyph_members f0 (InSet 0) rs /\ incl rs fan_ranges /\ NoDup rs).
    { exists [(1, 2); (4, 4)]. split; [exact G0|]. split; [intros g [<-|[<-|[]]]; cbn; tauto|no_dups]. }
    assert (E1 : forall x, In (x, x) fan_ranges -> exists rs, glyph_members f0 (Single x) rs /\ incl rs fan_ranges /\ NoDup rs).
    { intros x Hx. exists [(x, x)]. split; [reflexivity|]. split; [intros g [<-|[]]; exact Hx|repeat constructor; intros []]. }
    assert (A1 : glyph_fan_rule f0 fan_ranges (rule_bytes 2 fan_tail) (meant f0 fan_tail)).
    { exists fan_tail. split; [reflexivity|]. split; [split; [exact F1|]; repeat (split; [reflexivity|]); exists 9; split; reflexivity|].
      constructor; [exact E0|constructor; [apply E1; cbn; tauto|constructor]]. }
    assert (A2 : glyph_fan_rule f0 fan_ranges (rule_bytes 2 fan_zero) (meant f0 fan_zero)).
    { exists fan_zero. split; [reflexivity|]. split; [split; [exact F2|]; repeat (split; [reflexivity|]); exists 8; split; reflexivity|].
      constructor; [apply E1; cbn; tauto|constructor; [exact E0|constructor; [exact E0|constructor]]]. }
    assert (A3 : glyph_fan_rule f0 fan_ranges (rule_bytes 2 fan_three) (meant f0 fan_three)).
    { exists fan_three. split; [reflexivity|]. split; [split; [exact F3|]; repeat (split; [reflexivity|]); exists 7; split; reflexivity|].
      constructor; [apply E1; cbn; tauto|constructor; [exact E0|constructor]]. }
    clearbody f0. unfold fan_session. cbn [all_legal]. split; [exact A1|]. split; [exact A2|]. split; [exact A3|]. split; [split; [exact He|discriminate]|]. split; [exact I|]. split; [exact He|].
    split; [split; [exact He|discriminate]|]. split; [exact I|]. split; [split; [exact He|intros _; split; reflexivity]|exact I].
  - clearbody f0. unfold same_sets, fan_session. repeat (constructor; try reflexivity; try exact I).
  - rewrite fan_expected. repeat (constructor; [right; repeat constructor; rewrite meant_tail; vm_compute; discriminate|]). constructor.
  - rewrite fan_compiled. pose proof (glyph_members_covers f0 _ _ G0 ltac:(discriminate)) as (_ & _ & C & _). clearbody f0.
    assert (N : forall x, element_pattern f0 (InSet 0) x -> 1 <= x <= 2 \/ x = 4) by (intros x Hx; apply C in Hx; destruct Hx as (g & [<-|[<-|[]]] & Hg); cbn [fst snd] in Hg; lia).
    assert (N0 : ~ element_pattern f0 (InSet 0) 0) by (intros Hx; apply N in Hx; lia). assert (N3 : ~ element_pattern f0 (InSet 0) 3) by (intros Hx; apply N in Hx; lia).
    constructor; [|constructor; [|constructor]]; apply fan_apart; try assumption; try (intros t Ht; cbn in Ht |- *; tauto); repeat constructor; cbn; unfold fan_tail, fan_zero, fan_three; intuition discriminate.
  - eexists. split; [vm_compute; reflexivity|]. rewrite fan_compiled. clearbody f0. repeat (constructor; [vm_compute; discriminate|]). constructor.
Qed.

(** The same for code points; the font has a set of 65 and 66, and one of which 48 and 97 are read. *)
Definition rune_fan : rewrite_rule := Spec_Layout.mkRule 255 [([], [])] [([0], [])] [([1], [])] [8594].
Definition rune_fan_two : rewrite_rule := Spec_Layout.mkRule 255 [([], [])] [([1; 0], [])] [([], [])] [8592].
Definition rune_fan_meant (t : rewrite_rule) : srule :=
  mkSRule (rule_condition t) (map (rune_pattern fan_font) (block_elements i32 (rule_head t))) (map (rune_pattern fan_font) (block_elements i32 (rule_body t)))
    (map (rune_pattern fan_font) (block_elements i32 (rule_tail t))) (map i32 (rule_out t)).
Definition rune_fan_session : list (job srule) :=
  let e := mkEnv (utf8_sets fan_font) (fun _ => Ok false) in
  let add t := JAdd (rule_bytes 4 t) (rune_fan_meant t) in
  [ add rune_fan; add rune_fan_two; JSequence e [[65; 48]] [65; 65; 66; 97; 48; 66; 65; 49] ].
Lemma rune_fan_fit : Forall (scannable utf8_kind 4 i32) [rune_fan; rune_fan_two].
Proof. repeat constructor; cbn [rune_fan rune_fan_two rule_head rule_body rule_tail]; try block_ok; check. Qed.
Lemma rune_fan_expected : expected new_session rune_fan_session = [(map rune_fan_meant [rune_fan; rune_fan_two], [[65; 48]; [65; 65; 66; 97; 48; 66; 65; 49]])].
Proof. reflexivity. Qed.
Lemma rune_fan_compiled : compilations new_session rune_fan_session = [map rune_fan_meant [rune_fan; rune_fan_two]].
Proof. reflexivity. Qed.
Lemma rune_fan_tail t : zlen (q_tail (rune_fan_meant t)) = zlen (block_elements i32 (rule_tail t)).
Proof. apply zlen_map. Qed.
Example C51_runes_fans_example : fan_usable (utf8_fan_rule fan_font) (utf8_sets fan_font) rune_fan_session /\
  exists w, run_jobs utf8_tester (false, new_tester) rune_fan_session = Ok (w, [[[8594; 48]; [65; 65; 8594; 97; 8592; 65; 49]]]).
Proof.
  assert (G0 : rune_members fan_font (InSet 0) [(65, 65); (66, 66)]).
  { split; [discriminate|]. split; [discriminate|]. exists (mkSet [] [65; 66]). split; [vm_compute; reflexivity|]. split; [split; repeat constructor; unfold byte; cbn; lia|reflexivity]. }
  assert (G1 : rune_members fan_font (InSet 1) [(48, 48); (97, 97)]).
  { split; [discriminate|]. split; [discriminate|]. exists (mkSet [(48, 9)] [97]). split; [vm_compute; reflexivity|]. split; [split; repeat constructor; unfold byte; cbn; lia|reflexivity]. }
  split; [split; [split; [|split]|]|eexists; vm_compute; reflexivity].
  - pose proof rune_fan_fit as F. inversion F as [|? ? F1 F']; subst. pose proof (Forall_inv F') as F2. clear F F'.
    assert (He : conditions_known (mkEnv (utf8_sets fan_font) (fun _ => Ok false))) by (intros c; exists false; reflexivity).
    assert (E0 : InSet 0 <> Single 2147483647 /\ exists rs, rune_members fan_font (InSet 0) rs /\ NoDup rs) by (split; [discriminate|]; eexists; split; [exact G0|no_dups]).
    assert (E1 : InSet 1 <> Single 2147483647 /\ exists rs, rune_members fan_font (InSet 1) rs /\ NoDup rs) by (split; [discriminate|]; eexists; split; [exact G1|no_dups]).
    assert (A1 : utf8_fan_rule fan_font (rule_bytes 4 rune_fan) (rune_fan_meant rune_fan)).
    { exists rune_fan. split; [reflexivity|]. split; [split; [exact F1|]; repeat (split; [reflexivity|]); exists 8594; split; reflexivity|]. constructor; [exact E0|constructor; [exact E1|constructor]]. }
    assert (A2 : utf8_fan_rule fan_font (rule_bytes 4 rune_fan_two) (rune_fan_meant rune_fan_two)).
    { exists rune_fan_two. split; [reflexivity|]. split; [split; [exact F2|]; repeat (split; [reflexivity|]); exists 8592; split; reflexivity|]. constructor; [exact E1|constructor; [exact E0|constructor]]. }
    unfold rune_fan_session. cbn [all_legal]. split; [exact A1|]. split; [exact A2|]. split; [split; [exact He|discriminate]|exact I].
  - unfold same_sets, rune_fan_session. repeat (constructor; try reflexivity; try exact I).
  - rewrite rune_fan_expected. constructor; [right; repeat constructor; rewrite rune_fan_tail; vm_compute; discriminate|constructor].
  - rewrite rune_fan_compiled. pose proof (rune_members_covers fan_font _ _ G0 ltac:(discriminate)) as (_ & _ & C0 & _). pose proof (rune_members_covers fan_font _ _ G1 ltac:(discriminate)) as (_ & _ & C1 & _).
    clear G0 G1. constructor; [|constructor].
    assert (K : forall x, starts_with (rune_fan_meant rune_fan) x -> ~ starts_with (rune_fan_meant rune_fan_two) x).
    { intros x H H'. apply starts_first in H, H'. change (rune_pattern fan_font (InSet 0) x) in H. change (rune_pattern fan_font (InSet 1) x) in H'.
      apply C0 in H. apply C1 in H'. destruct H as (g & [<-|[<-|[]]] & Hg), H' as (g' & [<-|[<-|[]]] & Hg'); cbn [fst snd] in Hg, Hg'; lia. }
    intros i j r r' x Hij Hi Hj _ Hr Hr'. cbn [map] in Hi, Hj. destruct i as [|[|i]], j as [|[|j]]; cbn [nth_error] in Hi, Hj; try congruence; try (destruct i; discriminate); try (destruct j; discriminate);
      injection Hi as <-; injection Hj as <-; [exact (K x Hr Hr')|exact (K x Hr' Hr)].
Qed.
