(** Theorems C36-C39 (rewrite conditions, rules and sets in font.go). [stored], [sample] and the
    byte layouts are as in Properties_Font.v. *)
From Verif Require Import Base BaseFacts Spec_Helpers Model_Helpers Model_Font Model_Rewrites
  Spec_Format Spec_Layout Spec_LayoutFont Sample Proofs_Format Proofs_Font Proofs_Layout Proofs_Rewrites.

Ltac splits := repeat match goal with |- _ /\ _ => split end.
Ltac small := cbn; unfold zlen, byte; cbn; lia.

(** ** C36 *)

(** Full statement: for every table of well-formed conditions, [EvaluateCondition] with key [i]
    returns the truth value of the i-th one. False for every table: *)
Theorem C36_condition_refuted : exists f settings cs c,
  stored (Data f) (OffsetToRewriteConditions f) (conditions_bytes cs) /\ zget cs 0 = Ok c /\
  condition_ok (zlen settings) c /\ truth (value_of settings) c = true /\
  rewrites_EvaluateCondition f 0 settings <> Ok (truth (value_of settings) c).
Proof.
  exists (font_of sample), [2; 1], (l_conditions sample), (CQuick Equal 0 2).
  split; [apply st_conditions|]. split; [reflexivity|]. split; [small|]. split; [reflexivity|]. vm_compute. discriminate.
Qed.
Print Assumptions C36_condition_refuted.

(** The same for all fonts: the first condition never evaluates. *)
Theorem C36_first_condition_panics_refuted : forall f settings cs c,
  stored (Data f) (OffsetToRewriteConditions f) (conditions_bytes (c :: cs)) ->
  zlen (concat (map condition_bytes (c :: cs))) < 65536 -> condition_ok (zlen settings) c -> zlen settings <= 255 ->
  rewrites_EvaluateCondition f 0 settings = Panic.
Proof. intros. eapply first_condition_panics; eassumption. Qed.
Print Assumptions C36_first_condition_panics_refuted.

(** A comparison other than the two-byte ones uses the number of the setting in place of its
    value, whatever the table says about ends. *)
Theorem C36_comparison_refuted : exists d settings c,
  stored d 0 (condition_bytes c) /\ condition_ok (zlen settings) c /\ truth (value_of settings) c = true /\
  evalConditionSubexpr 10 d settings 20 0 = Ok (zlen (condition_bytes c), false).
Proof.
  exists (condition_bytes (CConst Equal 0 7)), [7; 7], (CConst Equal 0 7). split; [exists [], []; split; reflexivity|].
  split; [small|]. split; reflexivity.
Qed.
Print Assumptions C36_comparison_refuted.

(** What holds: the expression evaluator returns the truth value and the end of every condition
    in which all terms of each AND are true and all terms of each OR are false, and where the
    longer comparisons do not depend on taking a setting's number for its value ([straight]),
    with room behind it. Missing: groups decided by one of their terms (the code then skips one
    term too many), the other comparisons, and the entry point. *)
Theorem C36_subexpression_partial : forall d settings maxIndex c fuel i,
  condition_ok (zlen settings) c -> straight settings c -> stored d i (condition_bytes c) ->
  zlen (condition_bytes c) <= Z.of_nat fuel -> i + zlen (condition_bytes c) <= maxIndex ->
  evalConditionSubexpr fuel d settings maxIndex i = Ok (i + zlen (condition_bytes c), truth (value_of settings) c).
Proof. intros. now apply eval_straight. Qed.
Print Assumptions C36_subexpression_partial.

(** skipping is right for every condition *)
Theorem C36_skip_partial : forall d maxIndex n c fuel i,
  condition_ok n c -> stored d i (condition_bytes c) ->
  zlen (condition_bytes c) <= Z.of_nat fuel -> i + zlen (condition_bytes c) <= maxIndex ->
  skipConditionSubexpr fuel d maxIndex n i = Ok (i + zlen (condition_bytes c)).
Proof. intros. now apply skip_ok. Qed.
Print Assumptions C36_skip_partial.

(** evaluation terminates on every font, well-formed or not *)
Theorem C36_terminates_partial : forall f key settings,
  0 <= OffsetToRewriteConditions f -> 0 <= key -> bytes (Data f) -> rewrites_EvaluateCondition f key settings <> Hang.
Proof. exact evaluate_not_hang. Qed.
Print Assumptions C36_terminates_partial.

Example C36_example : let c := CAnd [CQuick Less 0 3; CAnd [CQuick Equal 1 5; CConst AtLeast 1 1]; CQuick Different 1 0] in
  let s := [2; 5] in let d := 7 :: condition_bytes c ++ [1; 1] in
  condition_ok (zlen s) c /\ straight s c /\ zlen (condition_bytes c) = 11 /\
  evalConditionSubexpr 20 d s 12 1 = Ok (12, true) /\ skipConditionSubexpr 20 d 12 2 1 = Ok 12.
Proof. cbn -[zlen]. unfold byte, zlen. cbn. splits; try lia; try reflexivity; auto. Qed.
(** without the limitation: the OR is decided by its first term *)
Example C36_early_example : let c := COr [CQuick Less 0 3; CQuick Equal 1 6] in
  evalConditionSubexpr 20 (condition_bytes c ++ [96; 0; 0]) [2; 5] 7 0 = Ok (7, true) /\ zlen (condition_bytes c) = 5.
Proof. vm_compute. auto. Qed.

(** ** C37 *)

(** Full statement: [EachOut] of the bytes of a rule yields its outputs. *)
Theorem C37_each_out_refuted : exists r, Forall (fun g => 0 <= g < 56789) (rule_out r) /\
  glyph_rule_EachOut (rule_bytes 2 r) <> Ok (rule_out r) /\ utf8_rule_EachOut (rule_bytes 4 r) <> Ok (rule_out r).
Proof.
  exists (mkRule 255 [([], [])] [([], [0; 1])] [([], [])] [3; 4]). split; [repeat (apply Forall_cons; [cbn; lia|]); apply Forall_nil|].
  split; vm_compute; discriminate.
Qed.
Print Assumptions C37_each_out_refuted.

(** Two or more outputs are never complete. *)
Theorem C37_too_few_refuted : forall r l, 2 <= zlen (rule_out r) -> Forall (fun g => 0 <= g < 65536) (rule_out r) ->
  glyph_rule_EachOut (rule_bytes 2 r) = Ok l \/ utf8_rule_EachOut (rule_bytes 4 r) = Ok l -> zlen l < zlen (rule_out r).
Proof.
  intros r l Hn HR [H|H].
  - rewrite (glyph_outs _ HR) in H. injection H as <-. now apply glyph_outs_few.
  - now apply utf8_outs_few.
Qed.
Print Assumptions C37_too_few_refuted.

(** Glyph rules: the first half of the outputs (rounded up), so all of them up to one. *)
Theorem C37_glyph_outputs_partial : forall r, Forall (fun g => 0 <= g < 65536) (rule_out r) ->
  glyph_rule_EachOut (rule_bytes 2 r) = Ok (firstn (Z.to_nat ((zlen (rule_out r) + 1) / 2)) (rule_out r)).
Proof. exact glyph_outs. Qed.
Print Assumptions C37_glyph_outputs_partial.

(** Code point rules: right up to one output. *)
Theorem C37_utf8_outputs_partial : forall r, Forall (fun g => 0 <= g < 2147483648) (rule_out r) -> zlen (rule_out r) <= 1 ->
  utf8_rule_EachOut (rule_bytes 4 r) = Ok (rule_out r).
Proof. exact utf8_outs_short. Qed.
Print Assumptions C37_utf8_outputs_partial.

(** The other accessors of a rule. *)
Theorem C37_fields : forall w r, let d := rule_bytes w r in
  rule_Condition d = Ok (rule_condition r) /\ rule_HeadLen d = Ok (block_length (rule_head r)) /\
  rule_BodyLen d = Ok (block_length (rule_body r)) /\ rule_TailLen d = Ok (block_length (rule_tail r)) /\
  rule_OutLen d = Ok (zlen (rule_out r)) /\
  (0 <= block_length (rule_head r) + block_length (rule_body r) + block_length (rule_tail r) < 256 ->
   rule_InLen d = Ok (block_length (rule_head r) + block_length (rule_body r) + block_length (rule_tail r))).
Proof. exact rule_fields. Qed.
Print Assumptions C37_fields.

Theorem C37_equals : forall a b, exists r, rule_Equals a b = Ok r /\ (r = true <-> a = b).
Proof. exact equals_spec. Qed.
Print Assumptions C37_equals.

Example C37_example : let r := mkRule 0 [([0], [])] [([1], [2])] [([], [])] [3; 7; 9] in
  glyph_rule_EachOut (rule_bytes 2 r) = Ok [3; 7] /\ rule_InLen (rule_bytes 2 r) = Ok 3 /\ rule_OutLen (rule_bytes 2 r) = Ok 3 /\
  utf8_rule_EachOut (rule_bytes 4 (mkRule 255 [([], [])] [([], [45; 62])] [([], [])] [8594])) = Ok [8594] /\
  rule_Equals [1; 2] [1; 3] = Ok false.
Proof. vm_compute. auto. Qed.

(** ** C38. [each_of each s l] feeds the elements of [l] to [each] until it returns an error. *)

(** Full statement: each enumeration feeds what is stored. False for ranges of code points: the
    byte behind the code point is not read. *)
Theorem C38_utf8_ranges_refuted : exists st, set_in_range 1114112 st /\ exists l,
  utf8_set_EachRange (fun s r => (s ++ [r], @None unit)) (set_bytes 4 st) [] = Ok (l, None) /\
  l <> map (fun r => (fst r, fst r + snd r)) (set_ranges st).
Proof.
  exists (mkSet [(48, 9)] []). split; [split; repeat (apply Forall_cons; [cbn; unfold byte; lia|]); apply Forall_nil|].
  eexists. split; [vm_compute; reflexivity|]. vm_compute. discriminate.
Qed.
Print Assumptions C38_utf8_ranges_refuted.

(** What is fed instead for valid code points: ranges of one element. *)
Theorem C38_utf8_ranges_partial : forall T E (each : T -> Z * Z -> T * option E) st s, set_in_range 16777216 st ->
  utf8_set_EachRange each (set_bytes 4 st) s = Ok (each_of each s (map (fun r => (fst r, fst r)) (set_ranges st))).
Proof. intros T E. exact utf8_ranges. Qed.
Print Assumptions C38_utf8_ranges_partial.

Theorem C38_utf8_elements : forall T E (each : T -> Z -> T * option E) st s, set_in_range 2147483648 st ->
  utf8_set_EachListRune each (set_bytes 4 st) s = Ok (each_of each s (set_elements st)).
Proof. intros T E. exact utf8_elements. Qed.
Print Assumptions C38_utf8_elements.

Theorem C38_glyph_ranges : forall T E (each : T -> Z * Z -> T * option E) st s, set_in_range 65536 st ->
  Forall (fun r => fst r + snd r < 65536) (set_ranges st) ->
  glyph_set_EachRange each (set_bytes 2 st) s = Ok (each_of each s (map (fun r => (fst r, fst r + snd r)) (set_ranges st))).
Proof.
  intros T E each st s H HF. rewrite (glyph_ranges each st s H). do 2 f_equal. apply map_ext_in. intros r Hr. f_equal.
  rewrite Forall_forall in HF. specialize (HF r Hr). destruct H as [H _]. rewrite Forall_forall in H. specialize (H r Hr). cbv beta in H, HF. unfold byte in H.
  unfold u16. apply Z.mod_small. lia.
Qed.
Print Assumptions C38_glyph_ranges.

Theorem C38_glyph_elements : forall T E (each : T -> Z -> T * option E) st s, set_in_range 65536 st ->
  glyph_set_EachListGlyph each (set_bytes 2 st) s = Ok (each_of each s (set_elements st)).
Proof. intros T E. exact glyph_elements. Qed.
Print Assumptions C38_glyph_elements.

(** A callback that collects and stops at 40 with an error. *)
Example C38_example : let st := mkSet [(3, 1); (20, 4)] [40; 41; 9] in set_in_range 65536 st /\
  glyph_set_EachRange (fun s r => (s ++ [r], @None unit)) (set_bytes 2 st) [] = Ok ([(3, 4); (20, 24)], None) /\
  glyph_set_EachListGlyph (fun s x => if x =? 41 then (s, Some tt) else (s ++ [x], None)) (set_bytes 2 st) [] = Ok ([40], Some tt) /\
  utf8_set_EachListRune (fun s x => (s ++ [x], @None unit)) (set_bytes 4 st) [] = Ok ([40; 41; 9], None) /\
  utf8_set_EachRange (fun s r => (s ++ [r], @None unit)) (set_bytes 4 st) [] = Ok ([(3, 3); (20, 20)], None).
Proof.
  split; [split; repeat (apply Forall_cons; [cbn; unfold byte; lia|]); apply Forall_nil|]. vm_compute. auto.
Qed.

(** ** C39 *)

Theorem C39_glyph_rule : forall f l i, stored (Data f) (OffsetToGlyphRewrites f) (rules_bytes 2 l) ->
  zlen l < 65536 -> zlen (concat (map (rule_bytes 2) l)) < 16777216 -> 0 <= i ->
  rewrites_NumGlyphRules f = Ok (zlen l) /\
  rewrites_GetGlyphRule f i = do r <- zget l i; Ok (rule_bytes 2 r).
Proof.
  intros f l i HS H1 H2 Hi. pose proof (zlen_nonneg l). split.
  - apply stored_app in HS. destruct HS as [HS _]. unfold rewrites_NumGlyphRules. apply from16; [exact HS|lia].
  - rewrite <- zget_map. unfold rewrites_GetGlyphRule. apply rule_located; rewrite ?zlen_map; auto; unfold rules_bytes in HS; rewrite zlen_map in *; auto.
Qed.
Print Assumptions C39_glyph_rule.

Theorem C39_utf8_rule : forall f l i, stored (Data f) (OffsetToUtf8Rewrites f) (rules_bytes 4 l) ->
  zlen l < 65536 -> zlen (concat (map (rule_bytes 4) l)) < 16777216 -> 0 <= i ->
  rewrites_NumUTF8Rules f = Ok (zlen l) /\
  rewrites_GetUtf8Rule f i = do r <- zget l i; Ok (rule_bytes 4 r).
Proof.
  intros f l i HS H1 H2 Hi. pose proof (zlen_nonneg l). split.
  - apply stored_app in HS. destruct HS as [HS _]. unfold rewrites_NumUTF8Rules. apply from16; [exact HS|lia].
  - rewrite <- zget_map. unfold rewrites_GetUtf8Rule. apply rule_located; rewrite ?zlen_map; auto; unfold rules_bytes in HS; rewrite zlen_map in *; auto.
Qed.
Print Assumptions C39_utf8_rule.

Theorem C39_glyph_set : forall f l i, stored (Data f) (OffsetToRewriteGlyphSets f) (sets_bytes 2 l) ->
  zlen (concat (map (set_bytes 2) l)) < 65536 -> 0 <= i ->
  rewrites_NumGlyphSets f = Ok (zlen l) /\
  rewrites_GetGlyphSet f i = do s <- zget l i; Ok (set_bytes 2 s).
Proof.
  intros f l i HS H1 Hi. split.
  - apply stored_cons in HS. tauto.
  - rewrite <- zget_map. unfold rewrites_GetGlyphSet. apply set_located; rewrite ?zlen_map; auto.
    apply Forall_map, Forall_forall. intros s _. discriminate.
Qed.
Print Assumptions C39_glyph_set.

Theorem C39_utf8_set : forall f l i, stored (Data f) (OffsetToRewriteUtf8Sets f) (sets_bytes 4 l) ->
  zlen (concat (map (set_bytes 4) l)) < 65536 -> 0 <= i ->
  rewrites_NumUTF8Sets f = Ok (zlen l) /\
  rewrites_GetUtf8Set f i = do s <- zget l i; Ok (set_bytes 4 s).
Proof.
  intros f l i HS H1 Hi. split.
  - apply stored_cons in HS. tauto.
  - rewrite <- zget_map. unfold rewrites_GetUtf8Set. apply set_located; rewrite ?zlen_map; auto.
    apply Forall_map, Forall_forall. intros s _. discriminate.
Qed.
Print Assumptions C39_utf8_set.

(** No set after the first is ever delivered empty, whatever the font's bytes are. *)
Theorem C39_later_sets_nonempty : forall f i s, 0 < i ->
  rewrites_GetGlyphSet f i = Ok s \/ rewrites_GetUtf8Set f i = Ok s -> s <> [].
Proof. intros f i s H [E|E]; eapply later_sets_nonempty; eassumption. Qed.
Print Assumptions C39_later_sets_nonempty.

Example C39_example : let f := font_of sample in
  stored (Data f) (OffsetToGlyphRewrites f) (rules_bytes 2 (l_glyph_rules sample)) /\
  stored (Data f) (OffsetToRewriteGlyphSets f) (sets_bytes 2 (l_glyph_sets sample)) /\
  rewrites_GetGlyphRule f 1 = Ok [255; 0; 2; 1; 1; 3; 0; 0; 2; 0; 0; 1; 0; 1; 2; 0] /\
  rewrites_GetGlyphRule f 2 = Panic /\ rewrites_GetGlyphSet f 1 = Ok [0; 2; 2; 0; 3; 0] /\
  rewrites_GetUtf8Set f 0 = Ok (set_bytes 4 (mkSet [(48, 9)] [65; 97])) /\ rewrites_GetUtf8Rule f 1 = Panic.
Proof. cbv zeta. splits; [apply st_glyph_rules|apply st_glyph_sets|vm_compute..]; auto. Qed.
