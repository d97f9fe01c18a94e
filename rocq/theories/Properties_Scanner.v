(** Scanning rewrite rules: C45 and C48. *)
From Coq Require Import Permutation.
From Verif Require Import Base BaseFacts Spec_Helpers Model_Helpers Model_Date Model_Mask Spec_Layout Model_Font Model_Rewrites
  Model_Builder Spec_Builder Spec_Survive Proofs_Builder Sample_Builder Proofs_Typed
  Model_Scanner Spec_Scanner Spec_Rules Proofs_Scanner Proofs_Scanner2 Proofs_Scanner3 Properties_Survive.

(** ** C48 *)

(** Full statement: [scan] never panics. False in the three ways C48_cases_partial leaves open:
    the data ends where the first control byte is expected, that byte is zero, or the data goes
    on after a complete rule without tail. *)
Theorem C48_short_refuted : exists data, bytes data /\ scan glyph_kind data = Panic /\ zlen data <= first_control 2 data.
Proof. exists [255; 0; 4; 0; 3; 1; 0; 2; 0; 3; 0]. split; [apply bytes_check; reflexivity|]. vm_compute. split; [reflexivity|discriminate]. Qed.
Print Assumptions C48_short_refuted.
Theorem C48_zero_refuted : exists data data', bytes data /\ scan glyph_kind data = Panic /\ bytes data' /\ scan utf8_kind data' = Panic.
Proof.
  exists [255; 0; 1; 0; 1; 3; 0; 0; 0; 2; 0; 0], [255; 0; 1; 0; 1; 65; 0; 0; 0; 0; 0; 66; 0; 0; 0; 0].
  split; [apply bytes_check; reflexivity|]. split; [reflexivity|]. split; [apply bytes_check; reflexivity|reflexivity].
Qed.
Print Assumptions C48_zero_refuted.
Theorem C48_longer_refuted : exists data post, bytes (data ++ post) /\ scan glyph_kind data = Ok [Single 2] /\ scan glyph_kind (data ++ post) = Panic.
Proof.
  exists [255; 0; 1; 0; 1; 3; 0; 0; 1; 2; 0; 0], [7]. split; [apply bytes_check; reflexivity|]. split; reflexivity.
Qed.
Print Assumptions C48_longer_refuted.

(** Every other byte string is scanned or refused. What is missing: the strings of the three
    kinds above. Scanning always ends (no case is [Hang]). *)
Theorem C48_glyph_partial : forall data, bytes data ->
  (exists es, scan glyph_kind data = Ok es) \/ (exists m, scan glyph_kind data = Err m) \/
  (scan glyph_kind data = Panic /\
    (zlen data <= first_control 2 data \/ zget data (first_control 2 data) = Ok 0 \/
     (zget data 3 = Ok 0 /\ complete_prefix glyph_kind data))).
Proof. intros data. exact (scan_cases glyph_kind data fair_glyph). Qed.
Print Assumptions C48_glyph_partial.
Theorem C48_utf8_partial : forall data, bytes data ->
  (exists es, scan utf8_kind data = Ok es) \/ (exists m, scan utf8_kind data = Err m) \/
  (scan utf8_kind data = Panic /\
    (zlen data <= first_control 4 data \/ zget data (first_control 4 data) = Ok 0 \/
     (zget data 3 = Ok 0 /\ complete_prefix utf8_kind data))).
Proof. intros data. exact (scan_cases utf8_kind data fair_utf8). Qed.
Print Assumptions C48_utf8_partial.

(** refused: a block longer than announced, a glyph that does not exist, too few bytes *)
Example C48_example : forallb (fun d => forallb (fun x => (0 <=? x) && (x <? 256)) d &&
    match scan glyph_kind d with Err _ => true | _ => false end &&
    (first_control 2 d <? zlen d) && negb (match zget d (first_control 2 d) with Ok 0 => true | _ => false end))
  [ [255; 0; 1; 0; 1; 3; 0; 0; 2; 2; 0; 0]; [255; 0; 1; 0; 1; 3; 0; 0; 1; 213; 221; 0]; [255; 0; 2; 0; 1; 3; 0; 0; 2; 2; 0; 4];
    [255; 0; 1; 1; 1; 3; 0; 0; 1; 2; 0; 0] ] = true /\
  scan glyph_kind [255; 1; 2; 0; 1; 3; 0; 16; 7; 17; 8; 2; 0; 0] = Ok [InSet 7; InSet 8; Single 2].
Proof. vm_compute. auto. Qed.

(** ** C45 *)

(** Full statement: every rule given to the builder is found in the built font, and scanning it
    gives its elements and outputs. False for rules without output and for rules with more
    outputs than inputs: the builder takes them, the font is built, and the scanner refuses
    them. Also false for two outputs (EachOut passes on the first one only) and for U+FFFD. *)
Definition lost (ops : list bop) (bad : Font -> Prop) : Prop :=
  Forall op_typed ops /\ exists f, snd (Build no_order no_sort (history 7777 sample_date ops)) = Ok f /\ bad f.
Theorem C45_no_output_refuted : lost (sample_glyphs ++ [OAddGlyphRewriteRule 0 2 0 [1001; 1002] []])
  (fun f => exists data, rewrites_GetGlyphRule f 0 = Ok data /\ scan glyph_kind data = Err "invalid rewrite rule").
Proof.
  split; [apply all_typed; vm_compute; reflexivity|].
  match goal with |- exists f, ?e = Ok f /\ _ => let B := eval vm_compute in e in match B with Ok ?f => exists f end end.
  split; [vm_compute; reflexivity|]. eexists. split; [vm_compute; reflexivity|]. vm_compute. reflexivity.
Qed.
Print Assumptions C45_no_output_refuted.
Theorem C45_long_output_refuted : lost (sample_glyphs ++ [OAddGlyphRewriteRule 1 1 0 [1001; 1002] [1003; 1004]])
  (fun f => exists data, rewrites_GetGlyphRule f 0 = Ok data /\ scan glyph_kind data = Err "invalid rewrite rule").
Proof.
  split; [apply all_typed; vm_compute; reflexivity|].
  match goal with |- exists f, ?e = Ok f /\ _ => let B := eval vm_compute in e in match B with Ok ?f => exists f end end.
  split; [vm_compute; reflexivity|]. eexists. split; [vm_compute; reflexivity|]. vm_compute. reflexivity.
Qed.
Print Assumptions C45_long_output_refuted.
Theorem C45_two_outputs_refuted : lost (sample_glyphs ++ [OAddGlyphRewriteRule 0 2 0 [1001; 1002] [1003; 1004]])
  (fun f => exists data, rewrites_GetGlyphRule f 0 = Ok data /\ scan glyph_kind data = Ok [Single 0; Single 1] /\
            glyph_rule_EachOut data = Ok [2]).
Proof.
  split; [apply all_typed; vm_compute; reflexivity|].
  match goal with |- exists f, ?e = Ok f /\ _ => let B := eval vm_compute in e in match B with Ok ?f => exists f end end.
  split; [vm_compute; reflexivity|]. eexists. split; [vm_compute; reflexivity|]. split; vm_compute; reflexivity.
Qed.
Print Assumptions C45_two_outputs_refuted.
Theorem C45_replacement_char_refuted : lost (sample_glyphs ++ [OAddSimpleUtf8RewriteRule 63 [65533; 65]])
  (fun f => exists data, rewrites_GetUtf8Rule f 0 = Ok data /\ scan utf8_kind data = Err "invalid rewrite rule").
Proof.
  split; [apply all_typed; vm_compute; reflexivity|].
  match goal with |- exists f, ?e = Ok f /\ _ => let B := eval vm_compute in e in match B with Ok ?f => exists f end end.
  split; [vm_compute; reflexivity|]. eexists. split; [vm_compute; reflexivity|]. vm_compute. reflexivity.
Qed.
Print Assumptions C45_replacement_char_refuted.

(** Glyph rules: every rule successfully added is found under its number, with its lengths and
    the first half of its outputs; scanning it gives its elements, sets and glyphs being
    numbered by their positions, exactly if it has an output but not more than body elements. What
    is missing: the other outputs, and rules with no or too many of them. *)
Theorem C45_glyph_partial : forall id date ops o sort b' f i a,
  date_typed date -> Forall op_typed ops -> perm_order o -> (forall l, Permutation l (sort l)) ->
  Build o sort (history id date ops) = (b', Ok f) ->
  zget (glyph_rules_added id date ops) i = Ok a ->
  exists data, rewrites_GetGlyphRule f i = Ok data /\ rule_Condition data = Ok 255 /\
    rule_HeadLen data = Ok (ad_head a) /\ rule_BodyLen data = Ok (ad_body a) /\ rule_TailLen data = Ok (ad_tail a) /\
    rule_OutLen data = Ok (zlen (ad_out a)) /\
    (exists outs, Forall2 (indexed_as b') (ad_out a) outs /\
       glyph_rule_EachOut data = Ok (firstn (Z.to_nat ((zlen (ad_out a) + 1) / 2)) outs)) /\
    (1 <= zlen (ad_out a) <= ad_body a -> exists es, scan glyph_kind data = Ok es /\ Forall2 (reported b') (ad_input a) es) /\
    (zlen (ad_out a) = 0 \/ ad_body a < zlen (ad_out a) -> scan glyph_kind data = Err "invalid rewrite rule").
Proof. intros. eapply glyph_rule_survives; eassumption. Qed.
Print Assumptions C45_glyph_partial.

(** Code point rules: the same, unless U+FFFD occurs. *)
Theorem C45_utf8_partial : forall id date ops o sort b' f i a,
  date_typed date -> Forall op_typed ops -> perm_order o -> (forall l, Permutation l (sort l)) ->
  Build o sort (history id date ops) = (b', Ok f) ->
  zget (utf8_rules_added id date ops) i = Ok a ->
  exists data replacement, rewrites_GetUtf8Rule f i = Ok data /\ rule_Condition data = Ok 255 /\
    rule_HeadLen data = Ok 0 /\ rule_BodyLen data = Ok (zlen (ad_input a)) /\ rule_TailLen data = Ok 0 /\
    rule_OutLen data = Ok 1 /\ ad_out a = [replacement] /\ utf8_rule_EachOut data = Ok [replacement] /\
    (~ In (false, 65533) (ad_input a) -> scan utf8_kind data = Ok (map (fun x => Single (snd x)) (ad_input a))).
Proof. intros. eapply utf8_rule_survives; eassumption. Qed.
Print Assumptions C45_utf8_partial.

(** a rule with a head, a set and a tail, one with more than 15 elements, and a code point rule *)
Definition rule_ops : list bop := sample_ops ++
  [ OAddGlyphRewriteRule 0 18 0 [1001; 1002; 1003; 1004; 1005; 1001; 1002; 1003; 1004; 1005; 1001; 1002; 1003; 1004; 1005; 2001; 1001; 2001] [1005];
    OAddGlyphRewriteRule 0 2 0 [1001; 77] [1005] ].
Example C45_example : Forall op_typed rule_ops /\ date_typed sample_date /\ perm_order no_order /\
  glyph_rules_added 7777 sample_date rule_ops =
    [ mkAdded 1 2 1 [(false, 1001); (true, 2001); (false, 1002); (false, 1003)] [1004];
      mkAdded 0 18 0 (map (pair false) [1001; 1002; 1003; 1004; 1005; 1001; 1002; 1003; 1004; 1005; 1001; 1002; 1003; 1004; 1005] ++
                      [(true, 2001); (false, 1001); (true, 2001)]) [1005] ] /\
  utf8_rules_added 7777 sample_date rule_ops = [ mkAdded 0 2 0 [(false, 45); (false, 62)] [8594] ] /\
  exists f d0 d1 d2, snd (Build no_order no_sort (history 7777 sample_date rule_ops)) = Ok f /\
    rewrites_GetGlyphRule f 0 = Ok d0 /\ scan glyph_kind d0 = Ok [Single 0; InSet 0; Single 1; Single 2] /\
    rewrites_GetGlyphRule f 1 = Ok d1 /\
    scan glyph_kind d1 = Ok (map Single [0; 1; 2; 3; 4; 0; 1; 2; 3; 4; 0; 1; 2; 3; 4] ++ [InSet 0; Single 0; InSet 0]) /\
    rewrites_GetUtf8Rule f 0 = Ok d2 /\ scan utf8_kind d2 = Ok [Single 45; Single 62] /\ utf8_rule_EachOut d2 = Ok [8594].
Proof.
  split; [apply all_typed; vm_compute; reflexivity|]. split; [repeat split; vm_compute; congruence|]. split; [exact no_order_perm|].
  split; [vm_compute; reflexivity|]. split; [vm_compute; reflexivity|].
  let B := eval vm_compute in (snd (Build no_order no_sort (history 7777 sample_date rule_ops))) in match B with Ok ?f => exists f end.
  do 3 eexists. repeat (split; [vm_compute; reflexivity|]). vm_compute. reflexivity.
Qed.
