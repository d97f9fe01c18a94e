(** Rules with any sets given to a builder, built, read back and added to a tester: C72. *)
From Coq Require Import Permutation.
From Verif Require Import Base BaseFacts Spec_Helpers Spec_Format Spec_Layout Model_Helpers Model_Date Model_Mask Model_Words Model_Font Model_Rewrites Model_Scanner
  Model_Builder Spec_Builder Spec_Rules Model_Tester Spec_Tester Spec_Session Spec_Tree Spec_TesterRules Model_Tree Spec_TreeSets Spec_TesterSets Spec_Meant Sample_Builder Proofs_Builder Proofs_Typed Proofs_Tester6 Proofs_Kept Properties_Kept Properties_Tree
  Spec_Fans Spec_TesterFans Spec_Meant2 Proofs_Meant3 Properties_Fans.

(** Glyph rules with one output whose elements are glyphs and any sets, when the ranges of the sets,
    by index, are apart or the same, no two rules can start with the same glyph, and rules have no
    tails, or no heads and tails of one element. What is missing: what C50 and C51 refute. *)
Theorem C72_fans_partial : forall id date ops b f R, built_from id date ops b f -> apart R ->
  1 <= zlen (glyph_rules_added id date ops) -> Forall (of_ranges b R) (glyph_rules_added id date ops) -> short_tails (glyph_rules_added id date ops) ->
  begin_apart b (glyph_rules_added id date ops) ->
  exists ds rs,
    (zlen rs = zlen (glyph_rules_added id date ops) /\
     forall i a, zget (glyph_rules_added id date ops) i = Ok a -> exists d r, zget ds i = Ok d /\ zget rs i = Ok r /\
       rewrites_GetGlyphRule f i = Ok d /\ meant_any b a r) /\
    forall e pieces last, conditions_known e -> e_sets e = glyph_sets f ->
      run_jobs glyph_tester (false, new_tester) (one_sequence ds rs e pieces last) = Err "DecisionTreeCompiler hit a limit" /\ fan_crowded (one_of R) (taken rs) \/
      exists w outs, run_jobs glyph_tester (false, new_tester) (one_sequence ds rs e pieces last) = Ok (w, [outs]) /\
        Forall2 (fun piece out => q_rewriting (q_longest (taken rs)) (taken rs) (filter is_glyph piece) out) (pieces ++ [last]) outs.
Proof.
  intros id date ops b f R H Hap HN HP TL BA. destruct H as (HI & HD & HT & -> & o & sort & b' & HO & HS & HB).
  exact (any_run_history id date ops o sort b' f HD HT HO HS HB R Hap HN HP TL BA).
Qed.
Print Assumptions C72_fans_partial.

(** A set of a range and a glyph, and three rules that use it *)
Definition among (rs : list (Z * Z)) (g : Z) : Prop := exists r, In r rs /\ fst r <= g <= snd r.
Example C72_fans_example : exists f g0 g1 g2, built_from 7777 sample_date fan_ops (history 7777 sample_date fan_ops) f /\
  apart [(1, 2); (4, 4); (0, 0); (3, 3)] /\ zlen (glyph_rules_added 7777 sample_date fan_ops) = 3 /\
  Forall (of_ranges (history 7777 sample_date fan_ops) [(1, 2); (4, 4); (0, 0); (3, 3)]) (glyph_rules_added 7777 sample_date fan_ops) /\ short_tails (glyph_rules_added 7777 sample_date fan_ops) /\
  begin_apart (history 7777 sample_date fan_ops) (glyph_rules_added 7777 sample_date fan_ops) /\
  rewrites_GetGlyphRule f 0 = Ok g0 /\ rewrites_GetGlyphRule f 1 = Ok g1 /\ rewrites_GetGlyphRule f 2 = Ok g2 /\
  exists w, run_jobs glyph_tester (false, new_tester)
     (one_sequence [g0; g1; g2]
        [ mkSRule 255 [] [among [(1, 2); (4, 4)]; among [(3, 3)]; among [(1, 2); (4, 4)]] [] [0]; mkSRule 255 [] [among [(0, 0)]; among [(1, 2); (4, 4)]] [] [0];
          mkSRule 255 [] [among [(3, 3)]] [] [0] ]
        (mkEnv (glyph_sets f) (fun _ => Ok false)) [[4; 3; 2; 3; 1]] [0; 4; 2; 3; 3]) = Ok (w, [[[0; 0; 1]; [0; 2; 0; 0]]]).
Proof.
  let B := eval vm_compute in (font_from fan_ops) in match B with Ok ?f => exists f end.
  do 3 eexists. split; [built|].
  split; [apply apart_check; vm_compute; reflexivity|]. split; [vm_compute; reflexivity|].
  assert (S1 : means_ranges (history 7777 sample_date fan_ops) (true, 2001) [(1, 2); (4, 4)]).
  { exists (mkBSet [(1002, 1003)] [1005]), [(1, 2)], [(4, 4)]. split; [vm_compute; tauto|]. split; [reflexivity|]. split; (constructor; [split; vm_compute; reflexivity|constructor]). }
  assert (S2 : means_ranges (history 7777 sample_date fan_ops) (false, 1001) [(0, 0)]) by (exists 0; split; vm_compute; reflexivity).
  assert (S3 : means_ranges (history 7777 sample_date fan_ops) (false, 1004) [(3, 3)]) by (exists 3; split; vm_compute; reflexivity).
  assert (N1 : NoDup (b_order (history 7777 sample_date fan_ops))) by (match goal with |- NoDup ?l => let l' := eval vm_compute in l in change l with l' end; no_dups).
  assert (N2 : NoDup (map fst (b_glyphSets (history 7777 sample_date fan_ops)))) by (match goal with |- NoDup ?l => let l' := eval vm_compute in l in change l with l' end; no_dups).
  assert (EA : glyph_rules_added 7777 sample_date fan_ops = [mkAdded 0 3 0 [(true, 2001); (false, 1004); (true, 2001)] [1001]; mkAdded 0 2 0 [(false, 1001); (true, 2001)] [1001]; mkAdded 0 1 0 [(false, 1004)] [1001]]) by (vm_compute; reflexivity).
  rewrite EA. split.
  { assert (T1 : exists rs, means_ranges (history 7777 sample_date fan_ops) (true, 2001) rs /\ rs <> [] /\ incl rs [(1, 2); (4, 4); (0, 0); (3, 3)] /\ NoDup rs).
    { exists [(1, 2); (4, 4)]. split; [exact S1|]. split; [discriminate|]. split; [intros g [<-|[<-|[]]]; cbn; tauto|no_dups]. }
    assert (T2 : exists rs, means_ranges (history 7777 sample_date fan_ops) (false, 1001) rs /\ rs <> [] /\ incl rs [(1, 2); (4, 4); (0, 0); (3, 3)] /\ NoDup rs).
    { exists [(0, 0)]. split; [exact S2|]. split; [discriminate|]. split; [intros g [<-|[]]; cbn; tauto|no_dups]. }
    assert (T3 : exists rs, means_ranges (history 7777 sample_date fan_ops) (false, 1004) rs /\ rs <> [] /\ incl rs [(1, 2); (4, 4); (0, 0); (3, 3)] /\ NoDup rs).
    { exists [(3, 3)]. split; [exact S3|]. split; [discriminate|]. split; [intros g [<-|[]]; cbn; tauto|no_dups]. }
    clear - T1 T2 T3. repeat (constructor; [split; [reflexivity|]; cbn [ad_input]; repeat (constructor; [assumption|]); constructor|]). constructor. }
  split; [left; repeat constructor|].
  split.
  { apply (apart_by_list _ _ [[(1, 2); (4, 4)]; [(0, 0)]; [(3, 3)]] N1 N2).
    - clear - S1 S2 S3. constructor; [eexists; eexists; split; [reflexivity|exact S1]|]. constructor; [eexists; eexists; split; [reflexivity|exact S2]|]. constructor; [eexists; eexists; split; [reflexivity|exact S3]|constructor].
    - clear. intros i j rs rs' g Hij Hi Hj (r & Hr & B) (r' & Hr' & B').
      destruct i as [|[|[|i]]], j as [|[|[|j]]]; cbn [nth_error] in Hi, Hj; try congruence; try (destruct i; discriminate); try (destruct j; discriminate);
        injection Hi as <-; injection Hj as <-; cbn [In] in Hr, Hr'; intuition subst; cbn [fst snd] in *; lia. }
  repeat (split; [vm_compute; reflexivity|]). eexists. vm_compute. reflexivity.
Qed.
