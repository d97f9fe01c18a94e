(** Rules given to a builder, built, read back and added to a tester: C72. *)
From Coq Require Import Permutation.
From Verif Require Import Base BaseFacts Spec_Helpers Spec_Format Spec_Layout Model_Helpers Model_Date Model_Mask Model_Words Model_Font Model_Rewrites Model_Scanner
  Model_Builder Spec_Builder Spec_Rules Model_Tester Spec_Tester Spec_Session Spec_Tree Spec_TesterRules Model_Tree Spec_TreeSets Spec_TesterSets Spec_Meant Sample_Builder Proofs_Builder Proofs_Typed Proofs_Tester6 Proofs_Kept Proofs_Meant Proofs_Meant2 Properties_Kept Properties_Tree.

(** No sets in the font, and every condition is false. *)
Definition bare : env := mkEnv (fun _ _ _ => Panic) (fun _ => Ok false).

(** Full statement: for every builder, a tester which gets all rules of the font built replaces
    what the rules given to the builder say. False for rules with two outputs, of which the tester
    reports the first only, for code point rules with U+FFFD, which the tester refuses, for more
    than 254 rules, of which the tester takes the first, and for what C51 refutes. *)
Definition two_outputs : list bop := sample_glyphs ++ [OAddGlyphRewriteRule 0 2 0 [1001; 1002] [1003; 1004]].
Theorem C72_outputs_refuted : exists id date ops b f d w out, built_from id date ops b f /\
  glyph_rules_added id date ops = [mkAdded 0 2 0 [(false, 1001); (false, 1002)] [1003; 1004]] /\
  map (zget (b_order b)) [0; 1; 2; 3] = map Ok [1001; 1002; 1003; 1004] /\ rewrites_GetGlyphRule f 0 = Ok d /\
  do_calls glyph_tester (false, new_tester) [CAddRule d; CBeginSequence bare; CFeed 0; CFeed 1; CFinishSequence] = Ok (w, out) /\
  concat (map fst out) = [2] /\ Forall (fun r => snd r = None) out.
Proof.
  exists 7777, sample_date, two_outputs. eexists.
  let B := eval vm_compute in (font_from two_outputs) in match B with Ok ?f => exists f end.
  do 3 eexists. split; [built|]. split; [vm_compute; reflexivity|]. split; [vm_compute; reflexivity|]. split; [vm_compute; reflexivity|].
  split; [vm_compute; reflexivity|]. split; [vm_compute; reflexivity|]. repeat constructor.
Qed.
Print Assumptions C72_outputs_refuted.

Definition with_unknown : list bop := [OAddSimpleUtf8RewriteRule 63 [65533; 33]].
Theorem C72_unknown_refuted : exists id date ops b f d w out m, built_from id date ops b f /\
  utf8_rules_added id date ops = [mkAdded 0 2 0 [(false, 65533); (false, 33)] [63]] /\ rewrites_GetUtf8Rule f 0 = Ok d /\
  do_calls utf8_tester (false, new_tester) [CAddRule d; CBeginSequence bare] = Ok (w, out) /\ In (Some m) (map snd out).
Proof.
  exists 7777, sample_date, (sample_glyphs ++ with_unknown). eexists.
  let B := eval vm_compute in (font_from (sample_glyphs ++ with_unknown)) in match B with Ok ?f => exists f end.
  do 4 eexists. split; [built|]. split; [vm_compute; reflexivity|]. split; [vm_compute; reflexivity|].
  split; [vm_compute; reflexivity|]. vm_compute. right. left. reflexivity.
Qed.
Print Assumptions C72_unknown_refuted.

(** 255 rules, the last of which the tester does not take *)
Definition many_rules : list bop := map (fun i => OAddSimpleUtf8RewriteRule (20000 + i) [1000 + i / 16; 2000 + i mod 16]) (zseq 255).
Theorem C72_many_refuted : exists id date ops b f ds w out, built_from id date ops b f /\
  zlen (utf8_rules_added id date ops) = 255 /\ zget (utf8_rules_added id date ops) 254 = Ok (mkAdded 0 2 0 [(false, 1015); (false, 2014)] [20254]) /\
  map (rewrites_GetUtf8Rule f) (zseq 255) = map Ok ds /\
  do_calls utf8_tester (false, new_tester) (map CAddRule ds ++ [CBeginSequence bare; CFeed 1015; CFeed 2014; CFeed 1000; CFeed 2000; CFinishSequence]) = Ok (w, out) /\
  concat (map fst out) = [1015; 2014; 20000] /\ zget (map snd out) 254 = Ok (Some "too many rules"%string).
Proof.
  exists 7777, sample_date, (sample_glyphs ++ many_rules). eexists.
  let B := eval vm_compute in (font_from (sample_glyphs ++ many_rules)) in match B with Ok ?f => exists f end.
  match goal with |- context [map (rewrites_GetUtf8Rule ?f) ?l] => let D := eval vm_compute in (map (fun i => match rewrites_GetUtf8Rule f i with Ok d => d | _ => [] end) l) in exists D end.
  do 2 eexists. split; [built|]. split; [vm_compute; reflexivity|]. split; [vm_compute; reflexivity|]. split; [vm_compute; reflexivity|].
  split; [vm_compute; reflexivity|]. split; vm_compute; reflexivity.
Qed.
Print Assumptions C72_many_refuted.

(** Glyph rules without sets and tails and with one output; of more than 254 rules, the first 254
    are used. What is missing: the rest. *)
Theorem C72_glyphs_partial : forall id date ops b f, built_from id date ops b f ->
  1 <= zlen (glyph_rules_added id date ops) -> Forall plain_rule (glyph_rules_added id date ops) ->
  exists ds rs,
    (zlen rs = zlen (glyph_rules_added id date ops) /\
     forall i a, zget (glyph_rules_added id date ops) i = Ok a -> exists d r, zget ds i = Ok d /\ zget rs i = Ok r /\
       rewrites_GetGlyphRule f i = Ok d /\ meant (indexed_as b) a r) /\
    forall e pieces last, conditions_known e ->
      run_jobs glyph_tester (false, new_tester) (one_sequence ds rs e pieces last) = Err "DecisionTreeCompiler hit a limit" /\ ~ within_limits (all_rules (taken rs)) \/
      exists w outs, run_jobs glyph_tester (false, new_tester) (one_sequence ds rs e pieces last) = Ok (w, [outs]) /\
        Forall2 (fun piece out => rewriting (longest (taken rs)) (taken rs) (filter is_glyph piece) out) (pieces ++ [last]) outs.
Proof. from_builder. destruct (glyph_rules_run id date ops o sort b' f HD HT HO HS HB) as (ds & rs & (X1 & X2) & X3); [assumption..|]. exists ds, rs. split; [|exact X3]. split; [exact X1|].
  intros i a A. destruct (X2 i a A) as (d & r & Y1 & Y2 & Y3 & Y4). exists d, r. split; [exact Y1|]. split; [exact Y2|]. split; [exact Y3|]. unfold meant, indexed_as in *. destruct (kept_builder id date ops o sort b' f HD HT HO HS HB) as (_ & _ & _ & _ & <- & _). exact Y4. Qed.
Print Assumptions C72_glyphs_partial.

(** Glyph rules with one output whose elements are glyphs and sets of one range or one glyph, when
    these ranges, by index, are apart or the same, and rules have no tails, or no heads and tails
    of one element. What is missing: what C50 and C51 refute. *)
Theorem C72_sets_partial : forall id date ops b f R, built_from id date ops b f -> apart R -> (forall r, In r R -> fst r <= snd r) ->
  1 <= zlen (glyph_rules_added id date ops) -> Forall (within_ranges b R) (glyph_rules_added id date ops) -> short_tails (glyph_rules_added id date ops) ->
  exists ds rs,
    (zlen rs = zlen (glyph_rules_added id date ops) /\
     forall i a, zget (glyph_rules_added id date ops) i = Ok a -> exists d r, zget ds i = Ok d /\ zget rs i = Ok r /\
       rewrites_GetGlyphRule f i = Ok d /\ meant_sets b a r) /\
    forall e pieces last, conditions_known e -> e_sets e = glyph_sets f ->
      run_jobs glyph_tester (false, new_tester) (one_sequence ds rs e pieces last) = Err "DecisionTreeCompiler hit a limit" /\ ~ within_limits (q_all (taken rs)) \/
      exists w outs, run_jobs glyph_tester (false, new_tester) (one_sequence ds rs e pieces last) = Ok (w, [outs]) /\
        Forall2 (fun piece out => q_rewriting (q_longest (taken rs)) (taken rs) (filter is_glyph piece) out) (pieces ++ [last]) outs.
Proof.
  intros id date ops b f R H Hap Hle HN HP TL. destruct H as (HI & HD & HT & -> & o & sort & b' & HO & HS & HB).
  apply (sets_run_history id date ops o sort b' f HD HT HO HS HB R Hle Hap HN HP TL).
Qed.
Print Assumptions C72_sets_partial.

(** Code point rules. What is missing: rules with U+FFFD or 2^31-1. *)
Theorem C72_runes_partial : forall id date ops b f, built_from id date ops b f ->
  1 <= zlen (utf8_rules_added id date ops) ->
  Forall (fun a => ~ In (false, 65533) (ad_input a) /\ ~ In (false, 2147483647) (ad_input a)) (utf8_rules_added id date ops) ->
  exists ds rs,
    (zlen rs = zlen (utf8_rules_added id date ops) /\
     forall i a, zget (utf8_rules_added id date ops) i = Ok a -> exists d r, zget ds i = Ok d /\ zget rs i = Ok r /\
       rewrites_GetUtf8Rule f i = Ok d /\ meant eq a r) /\
    forall e pieces last, conditions_known e ->
      run_jobs utf8_tester (false, new_tester) (one_sequence ds rs e pieces last) = Err "DecisionTreeCompiler hit a limit" /\ ~ within_limits (all_rules (taken rs)) \/
      exists w outs, run_jobs utf8_tester (false, new_tester) (one_sequence ds rs e pieces last) = Ok (w, [outs]) /\
        Forall2 (fun piece out => rewriting (longest (taken rs)) (taken rs) (filter is_rune piece) out) (pieces ++ [last]) outs.
Proof. from_builder. eapply utf8_rules_run; eassumption. Qed.
Print Assumptions C72_runes_partial.

(** Three code point rules and two glyph rules, one of them with a head, and what testers report. *)
Definition meant_ops : list bop := sample_glyphs ++
  [ OAddSimpleUtf8RewriteRule 8594 [45; 62]; OAddSimpleUtf8RewriteRule 10230 [45; 45; 62]; OAddSimpleUtf8RewriteRule 8804 [60; 61];
    OAddGlyphRewriteRule 0 2 0 [1001; 1002] [1003]; OAddGlyphRewriteRule 1 1 0 [1004; 1001] [1005] ].
Example C72_example : exists f g0 g1 u0 u1 u2, built_from 7777 sample_date meant_ops (history 7777 sample_date meant_ops) f /\
  map (fun a => (ad_head a, map snd (ad_input a), ad_out a)) (glyph_rules_added 7777 sample_date meant_ops) = [(0, [1001; 1002], [1003]); (1, [1004; 1001], [1005])] /\
  Forall plain_rule (glyph_rules_added 7777 sample_date meant_ops) /\
  map (fun a => (map snd (ad_input a), ad_out a)) (utf8_rules_added 7777 sample_date meant_ops) = [([45; 62], [8594]); ([45; 45; 62], [10230]); ([60; 61], [8804])] /\
  rewrites_GetGlyphRule f 0 = Ok g0 /\ rewrites_GetGlyphRule f 1 = Ok g1 /\
  rewrites_GetUtf8Rule f 0 = Ok u0 /\ rewrites_GetUtf8Rule f 1 = Ok u1 /\ rewrites_GetUtf8Rule f 2 = Ok u2 /\
  (exists w, run_jobs glyph_tester (false, new_tester)
     (one_sequence [g0; g1] [mkRule 255 [] [0; 1] [2]; mkRule 255 [3] [0] [4]] bare [[0; 1; 3; 0; 1]] []) = Ok (w, [[[2; 3; 4; 1]; []]])) /\
  exists w, run_jobs utf8_tester (false, new_tester)
     (one_sequence [u0; u1; u2] [mkRule 255 [] [45; 62] [8594]; mkRule 255 [] [45; 45; 62] [10230]; mkRule 255 [] [60; 61] [8804]] bare [[97; 45; 45; 62]] [60; 61; 45; 62; 45]) =
     Ok (w, [[[97; 10230]; [8804; 8594; 45]]]).
Proof.
  let B := eval vm_compute in (font_from meant_ops) in match B with Ok ?f => exists f end.
  do 5 eexists. split; [built|]. split; [vm_compute; reflexivity|]. split; [vm_compute; repeat constructor|].
  repeat (split; [vm_compute; reflexivity|]). split; eexists; vm_compute; reflexivity.
Qed.

(** A set of two glyphs, a set of one, a rule with a tail and two without. *)
Definition sets_ops : list bop := sample_glyphs ++
  [ OCreateGlyphSet [2001]; OAddGlyphSetRange 2001 1002 1003; OCreateGlyphSet [2002]; OAddGlyphSetListGlyph 2002 1001;
    OAddGlyphRewriteRule 0 2 0 [2001; 1004] [1005]; OAddGlyphRewriteRule 0 1 1 [2001; 2002] [1004]; OAddGlyphRewriteRule 0 3 0 [2001; 1004; 2001] [1001] ].
Definition sets_R : list (Z * Z) := [(1, 2); (0, 0); (3, 3)].
Definition between (r : Z * Z) (g : Z) : Prop := fst r <= g <= snd r.
Example C72_sets_example : exists f g0 g1 g2, built_from 7777 sample_date sets_ops (history 7777 sample_date sets_ops) f /\
  (apart sets_R /\ forall r, In r sets_R -> fst r <= snd r) /\
  zlen (glyph_rules_added 7777 sample_date sets_ops) = 3 /\
  Forall (within_ranges (history 7777 sample_date sets_ops) sets_R) (glyph_rules_added 7777 sample_date sets_ops) /\ short_tails (glyph_rules_added 7777 sample_date sets_ops) /\
  rewrites_GetGlyphRule f 0 = Ok g0 /\ rewrites_GetGlyphRule f 1 = Ok g1 /\ rewrites_GetGlyphRule f 2 = Ok g2 /\
  exists w, run_jobs glyph_tester (false, new_tester)
     (one_sequence [g0; g1; g2]
        [ mkSRule 255 [] [between (1, 2); between (3, 3)] [] [4]; mkSRule 255 [] [between (1, 2)] [between (0, 0)] [3];
          mkSRule 255 [] [between (1, 2); between (3, 3); between (1, 2)] [] [0] ]
        (mkEnv (glyph_sets f) (fun _ => Ok false)) [[1; 3; 3; 2; 0]] [2; 3; 1; 3; 1; 1]) = Ok (w, [[[4; 3; 3; 0]; [0; 3; 1; 1]]]).
Proof.
  let B := eval vm_compute in (font_from sets_ops) in match B with Ok ?f => exists f end.
  do 3 eexists. split; [built|].
  split; [split; [apply apart_check; vm_compute; reflexivity|intros r [<-|[<-|[<-|[]]]]; cbn; lia]|].
  split; [vm_compute; reflexivity|].
  split.
  {
    match goal with |- Forall _ ?l => let l' := eval vm_compute in l in change l with l' end.
    assert (S1 : means_range (history 7777 sample_date sets_ops) (true, 2001) (1, 2)).
    { exists (mkBSet [(1002, 1003)] []). split; [vm_compute; tauto|]. left. exists (1002, 1003). repeat split. }
    assert (S2 : means_range (history 7777 sample_date sets_ops) (true, 2002) (0, 0)).
    { exists (mkBSet [] [1001]). split; [vm_compute; tauto|]. right. exists 1001. repeat split. }
    assert (S3 : means_range (history 7777 sample_date sets_ops) (false, 1004) (3, 3)) by (split; vm_compute; reflexivity).
    repeat (constructor; [split; [reflexivity|]; cbn [ad_input]; repeat (constructor; [solve [exists (1, 2); split; [cbn; tauto|assumption] | exists (0, 0); split; [cbn; tauto|assumption] | exists (3, 3); split; [cbn; tauto|assumption]]|]); constructor|]). constructor. }
  split; [right; vm_compute; repeat constructor; discriminate|].
  repeat (split; [vm_compute; reflexivity|]). eexists. vm_compute. reflexivity.
Qed.
