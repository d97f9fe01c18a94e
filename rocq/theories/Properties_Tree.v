(** Decision trees of rewrite rules: C49 and C50. *)
From Verif Require Import Base BaseFacts Spec_Helpers Model_Helpers Model_Date Model_Mask Spec_Layout Model_Font Model_Rewrites
  Spec_Format Spec_LayoutFont Sample Model_Builder Spec_Builder Spec_Survive Proofs_Builder Sample_Builder Proofs_Typed Model_Scanner Properties_Survive
  Model_Tree Spec_Tree Spec_TreeSets Proofs_Tree Proofs_Tree2 Proofs_Tree3 Proofs_Tree4 Proofs_Tree5.

(** ** Rules of a font, with their patterns *)
(** [rules] are the glyph rules of [f] with the given numbers, and [es] their elements. *)
Definition rules_of_font (f : Font) (rules : list (list Z * Z)) (es : list (list element * Z)) : Prop :=
  Forall2 (fun d e => rewrites_GetGlyphRule f (snd d) = Ok (fst d) /\ scan glyph_kind (fst d) = Ok (fst e) /\ snd d = snd e) rules es.
(** A font made by calls of the builder *)
Definition made (ops : list bop) (f : Font) : Prop :=
  Forall op_typed ops /\ snd (Build no_order no_sort (history 7777 sample_date ops)) = Ok f.

(** ** C49 *)

(** Full statement: whenever rules of a font are compiled, matching any input gives the best
    fit. It is false with sets. *)
Definition wrong_answer (ops : list bop) (rules : list (list element * Z)) (input : list Z) (m : Z) : Prop :=
  exists f data states, made ops f /\ rules_of_font f data rules /\ compile glyph_kind (glyph_sets f) data = Ok states /\
    tree_Match (mkTree states 0 255 false) input = Ok m /\
    ~ best_fit (map (fun e => (map (element_pattern f) (fst e), snd e)) rules) input m.
Definition shared_ops : list bop := sample_glyphs ++
  [ OCreateGlyphSet [2001]; OAddGlyphSetListGlyph 2001 1001; OAddGlyphSetListGlyph 2001 1002;
    OAddGlyphRewriteRule 0 3 0 [2001; 1003; 1004] [1001]; OAddGlyphRewriteRule 0 3 0 [1001; 1003; 1005] [1001];
    OAddGlyphRewriteRule 0 3 0 [1005; 1005; 1005] [1001] ].
Definition shared_rules : list (list element * Z) :=
  [ ([InSet 0; Single 2; Single 3], 0); ([Single 0; Single 2; Single 4], 1); ([Single 4; Single 4; Single 4], 2) ].

Ltac font_witness ops :=
  let B := eval vm_compute in (snd (Build no_order no_sort (history 7777 sample_date ops))) in
  match B with Ok ?f => exists f end.
Ltac data_witness n :=
  match goal with |- exists data, _ => idtac end;
  match goal with |- context [made _ ?f] =>
    let l := eval vm_compute in (map (fun i => (match rewrites_GetGlyphRule f (Z.of_nat i) with Ok d => d | _ => [] end, Z.of_nat i)) (seq 0 n)) in
    exists l;
    let s := eval vm_compute in (compile glyph_kind (glyph_sets f) l) in
    match s with Ok ?st => exists st end end.

Lemma not_best_lost rules input xs r : In (xs, r) rules -> fits xs input -> ~ In 255 (map snd rules) -> ~ best_fit rules input 255.
Proof.
  intros Hin Hf H [[_ H']|(before & ys & after & -> & _)]; [exact (H' _ _ Hin Hf)|].
  apply H. rewrite map_app. apply in_or_app. right. left. reflexivity.
Qed.
Lemma not_best_wrong rules input m : m <> 255 -> (forall xs, In (xs, m) rules -> ~ fits xs input) -> ~ best_fit rules input m.
Proof.
  intros Hm H [[E _]|(before & ys & after & -> & Hf & _)]; [contradiction|].
  apply (H ys); [apply in_or_app; right; left; reflexivity|exact Hf].
Qed.
Lemma not_best_later xs ys input : fits xs input -> length ys = length xs -> ~ best_fit [(xs, 0); (ys, 1)] input 1.
Proof.
  intros Hf Hl [[E _]|(before & zs & after & H & _ & _ & Hb)]; [discriminate|].
  destruct before as [|b [|b' before]]; cbn [app] in H.
  - injection H as _ E _. discriminate.
  - injection H as <- <- _. specialize (Hb xs 0 (or_introl eq_refl) Hf). lia.
  - injection H as _ _ H. destruct before; discriminate.
Qed.
Ltac by_members := eexists; eexists; eexists; split; [vm_compute; reflexivity|]; split; [vm_compute; reflexivity|]; split; [vm_compute; reflexivity|].

(** Glyphs 1, 2, 3 in this order are the pattern of rule 0 (the set holds glyphs 0 and 1), but
    no rule is found: the state after the first two elements has been freed while adding rule 1. *)
Theorem C49_lost_refuted : wrong_answer shared_ops shared_rules [1; 2; 3] 255.
Proof.
  unfold wrong_answer. font_witness shared_ops. data_witness 3%nat. split; [split; [apply all_typed; vm_compute; reflexivity|vm_compute; reflexivity]|].
  split; [repeat constructor; vm_compute; reflexivity|]. split; [vm_compute; reflexivity|]. split; [vm_compute; reflexivity|].
  eapply (not_best_lost _ _ _ 0); [left; reflexivity| |cbn; intuition discriminate].
  exists [1; 2; 3], []. split; [reflexivity|]. cbn [map fst]. constructor; [|repeat constructor].
  by_members. left. right. left. reflexivity.
Qed.
Print Assumptions C49_lost_refuted.

(** With the same rules, glyphs 1, 2, 4, 4 are taken for rule 2, which is three times glyph 4:
    the freed state has been used again while it was still in use. *)
Theorem C49_wrong_refuted : wrong_answer shared_ops shared_rules [1; 2; 4; 4] 2.
Proof.
  unfold wrong_answer. font_witness shared_ops. data_witness 3%nat. split; [split; [apply all_typed; vm_compute; reflexivity|vm_compute; reflexivity]|].
  split; [repeat constructor; vm_compute; reflexivity|]. split; [vm_compute; reflexivity|]. split; [vm_compute; reflexivity|].
  apply not_best_wrong; [discriminate|]. intros xs [H|[H|[H|[]]]]; try discriminate. injection H as <-.
  intros (pre & rest & E & HF). inversion HF as [|p x ps xs0 Hp Hps E1 E2]. subst pre. cbn [element_pattern] in Hp. subst x. discriminate E.
Qed.
Print Assumptions C49_wrong_refuted.

(** Rule 0 is any of glyphs 2 to 4, rule 1 any of 1 to 3; glyph 2 is given to rule 1. *)
Definition overlap_ops : list bop := sample_glyphs ++
  [ OCreateGlyphSet [2001]; OAddGlyphSetRange 2001 1003 1005; OCreateGlyphSet [2002]; OAddGlyphSetRange 2002 1002 1004;
    OAddGlyphRewriteRule 0 1 0 [2001] [1001]; OAddGlyphRewriteRule 0 1 0 [2002] [1001] ].
Theorem C49_later_refuted : wrong_answer overlap_ops [([InSet 0], 0); ([InSet 1], 1)] [2] 1.
Proof.
  unfold wrong_answer. font_witness overlap_ops. data_witness 2%nat. split; [split; [apply all_typed; vm_compute; reflexivity|vm_compute; reflexivity]|].
  split; [repeat constructor; vm_compute; reflexivity|]. split; [vm_compute; reflexivity|]. split; [vm_compute; reflexivity|].
  apply not_best_later; [|reflexivity]. exists [2], []. split; [reflexivity|]. constructor; [|constructor].
  by_members. right. exists 2, 4. split; [left; reflexivity|lia].
Qed.
Print Assumptions C49_later_refuted.

(** The largest rune has no successor: with it given twice, every code point is taken for it. *)
Theorem C49_last_rune_refuted : exists data states, bytes data /\ scan utf8_kind data = Ok [Single 2147483647] /\
  compile utf8_kind (fun _ _ _ => Panic) [(data, 0); (data, 1)] = Ok states /\
  tree_Match (mkTree states 0 255 false) [5] = Ok 1 /\ ~ best_match [([2147483647], 0); ([2147483647], 1)] [5] 1.
Proof.
  exists [255; 0; 1; 0; 1; 65; 0; 0; 0; 0; 1; 255; 255; 255; 127; 0]. eexists. split; [apply bytes_check; reflexivity|].
  split; [vm_compute; reflexivity|]. split; [vm_compute; reflexivity|]. split; [vm_compute; reflexivity|].
  intros [[E _]|(before & xs & after & H & (w & E) & _)]; [discriminate|].
  assert (Hin : In (xs, 1) [([2147483647], 0); ([2147483647], 1)]) by (rewrite H; apply in_or_app; right; left; reflexivity).
  destruct Hin as [Hin|[Hin|[]]]; [discriminate|]. injection Hin as <-. discriminate E.
Qed.
Print Assumptions C49_last_rune_refuted.

(** Rules without sets are found as they should be, whatever state an earlier sequence left
    the tree in. What is missing: rules with sets. *)
Theorem C49_glyph_partial : forall sets data rules states,
  Forall2 (fun d e => bytes (fst d) /\ scan glyph_kind (fst d) = Ok (map Single (fst e)) /\ snd d = snd e /\ fst e <> []) data rules ->
  data <> [] -> increasing 0 (map snd rules) -> compile glyph_kind sets data = Ok states ->
  forall input index best, exists m, tree_Match (mkTree states index best false) input = Ok m /\ best_match rules input m.
Proof. exact glyph_trees_right. Qed.
Print Assumptions C49_glyph_partial.
Theorem C49_utf8_partial : forall sets data rules states,
  Forall2 (fun d e => scan utf8_kind (fst d) = Ok (map Single (fst e)) /\ snd d = snd e /\ fst e <> [] /\ ~ In 2147483647 (fst e)) data rules ->
  data <> [] -> increasing 0 (map snd rules) -> compile utf8_kind sets data = Ok states ->
  forall input index best, exists m, tree_Match (mkTree states index best false) input = Ok m /\ best_match rules input m.
Proof. exact utf8_trees_right. Qed.
Print Assumptions C49_utf8_partial.

(** Rules with sets are found as they should be if each set is one range, and the ranges and
    single glyphs of all rules do not overlap unless they are the same. What is missing: sets
    with several members besides a range, overlapping sets. *)
Theorem C49_ranges_partial : forall f (data : list (list Z * Z)) rules ranges states,
  Forall2 (fun d e => bytes (fst d) /\ scan glyph_kind (fst d) = Ok (fst e) /\ snd d = snd e /\ fst e <> []) data rules ->
  Forall2 (fun e rs => Forall2 (glyph_range f) (fst e) rs) rules ranges -> apart (concat ranges) ->
  data <> [] -> increasing 0 (map snd rules) -> compile glyph_kind (glyph_sets f) data = Ok states ->
  forall input index best, exists m, tree_Match (mkTree states index best false) input = Ok m /\
    best_fit (map (fun e => (map (element_pattern f) (fst e), snd e)) rules) input m.
Proof. exact glyph_ranges_right. Qed.
Print Assumptions C49_ranges_partial.
Theorem C49_runes_partial : forall f (data : list (list Z * Z)) rules runes states,
  Forall2 (fun d e => scan utf8_kind (fst d) = Ok (fst e) /\ snd d = snd e /\ fst e <> [] /\ ~ In (Single 2147483647) (fst e)) data rules ->
  Forall2 (fun e rs => Forall2 (rune_element f) (fst e) rs) rules runes ->
  data <> [] -> increasing 0 (map snd rules) -> compile utf8_kind (utf8_sets f) data = Ok states ->
  forall input index best, exists m, tree_Match (mkTree states index best false) input = Ok m /\
    best_fit (map (fun e => (map (rune_pattern f) (fst e), snd e)) rules) input m.
Proof. exact utf8_runes_right. Qed.
Print Assumptions C49_runes_partial.

(** A font with a set of glyphs 1 to 2 used by three rules, and a set of one glyph *)
Definition range_ops : list bop := sample_glyphs ++
  [ OCreateGlyphSet [2001]; OAddGlyphSetRange 2001 1002 1003; OCreateGlyphSet [2002]; OAddGlyphSetListGlyph 2002 1001;
    OAddGlyphRewriteRule 0 3 0 [2001; 1004; 2001] [1001]; OAddGlyphRewriteRule 0 2 0 [2001; 1004] [1001];
    OAddGlyphRewriteRule 0 3 0 [2001; 1004; 2002] [1001]; OAddGlyphRewriteRule 0 2 0 [2002; 2001] [1001] ].
Definition range_rules : list (list element * Z) :=
  [ ([InSet 0; Single 3; InSet 0], 0); ([InSet 0; Single 3], 1); ([InSet 0; Single 3; InSet 1], 2); ([InSet 1; InSet 0], 3) ].
Definition range_ranges : list (list (Z * Z)) := [ [(1, 2); (3, 3); (1, 2)]; [(1, 2); (3, 3)]; [(1, 2); (3, 3); (0, 0)]; [(0, 0); (1, 2)] ].
Definition apart_b (l : list (Z * Z)) : bool :=
  forallb (fun a => forallb (fun b => (fst a =? fst b) && (snd a =? snd b) || (snd a <? fst b) || (snd b <? fst a)) l) l.
Lemma apart_check l : apart_b l = true -> apart l.
Proof.
  intros H a b Ha Hb. unfold apart_b in H. rewrite forallb_forall in H. specialize (H _ Ha). rewrite forallb_forall in H. specialize (H _ Hb). cbv beta in H.
  destruct a as [a1 a2], b as [b1 b2]. cbn [fst snd] in *. destruct (Z.eq_dec a1 b1) as [->|]; [destruct (Z.eq_dec a2 b2) as [->|]; [left; reflexivity|]|]; right; lia.
Qed.
Ltac set_range ranges elements := split; [discriminate|]; exists (mkSet ranges elements); split; [vm_compute; reflexivity|];
  split; [split; repeat constructor; unfold byte; cbn; lia|]; split; [|cbn; lia]; first [left; split; reflexivity|right; repeat split].
Example C49_ranges_example : exists f data states, made range_ops f /\
  Forall2 (fun d e => bytes (fst d) /\ scan glyph_kind (fst d) = Ok (fst e) /\ snd d = snd e /\ fst e <> []) data range_rules /\
  Forall2 (fun e rs => Forall2 (glyph_range f) (fst e) rs) range_rules range_ranges /\ apart (concat range_ranges) /\
  increasing 0 (map snd range_rules) /\ compile glyph_kind (glyph_sets f) data = Ok states /\
  map (fun input => tree_Match (mkTree states 0 255 false) input)
    [[2; 3; 1; 3]; [1; 3; 2]; [1; 3; 3]; [2; 3; 0]; [0; 2]; [0; 3]; [2; 2]; []] = [Ok 0; Ok 0; Ok 1; Ok 2; Ok 3; Ok 255; Ok 255; Ok 255].
Proof.
  font_witness range_ops. data_witness 4%nat. split; [split; [apply all_typed; vm_compute; reflexivity|vm_compute; reflexivity]|].
  split; [repeat constructor; try (vm_compute; reflexivity); try discriminate; apply bytes_check; vm_compute; reflexivity|].
  split; [unfold range_rules, range_ranges; repeat first [apply Forall2_nil|apply Forall2_cons; cbn [fst]]; cbn [glyph_range]; try reflexivity;
    first [set_range [(1, 1)] (@nil Z) | set_range (@nil (Z * Z)) [0]]|].
  split; [apply apart_check; vm_compute; reflexivity|]. split; [cbn; lia|]. split; vm_compute; reflexivity.
Qed.

(** A font with a set of code point 65, and a set of 48 to 57 of which only 48 is read *)
Definition rune_font : Font := font_of
  {| l_header := l_header sample; l_metrics := l_metrics sample; l_dyes := []; l_palettes := []; l_names := []; l_glyphs := l_glyphs sample;
     l_words := []; l_settings := []; l_switches := []; l_mapping := []; l_conditions := [];
     l_utf8_sets := [mkSet [] [65]; mkSet [(48, 9)] []]; l_glyph_sets := []; l_utf8_rules := []; l_glyph_rules := []; l_horz := []; l_vert := [] |}.
Definition rune_rules : list (list element * Z) := [ ([InSet 0; Single 66], 0); ([InSet 1; InSet 0; Single 65], 1); ([Single 65], 2) ].
Definition rune_data : list (list Z * Z) :=
  [ (rule_bytes 4 (Spec_Layout.mkRule 255 [([], [])] [([0], [66])] [([], [])] [8594]), 0); (rule_bytes 4 (Spec_Layout.mkRule 255 [([], [])] [([1; 0], [65])] [([], [])] [8594]), 1);
    (rule_bytes 4 (Spec_Layout.mkRule 255 [([], [])] [([], [65])] [([], [])] [8594]), 2) ].
Ltac rune_set ranges elements := split; [discriminate|]; exists (mkSet ranges elements); split; [vm_compute; reflexivity|];
  split; [split; repeat constructor; unfold byte; cbn; lia|reflexivity].
Example C49_runes_example :
  Forall2 (fun d e => scan utf8_kind (fst d) = Ok (fst e) /\ snd d = snd e /\ fst e <> [] /\ ~ In (Single 2147483647) (fst e)) rune_data rune_rules /\
  Forall2 (fun e rs => Forall2 (rune_element rune_font) (fst e) rs) rune_rules [[65; 66]; [48; 65; 65]; [65]] /\ increasing 0 (map snd rune_rules) /\
  exists states, compile utf8_kind (utf8_sets rune_font) rune_data = Ok states /\
    map (fun input => tree_Match (mkTree states 0 255 false) input) [[65; 66]; [48; 65; 65; 66]; [65; 65]; [49; 65; 65]; [48; 65]] = [Ok 0; Ok 1; Ok 2; Ok 255; Ok 255].
Proof.
  split; [repeat constructor; try (vm_compute; reflexivity); try discriminate; cbn; intuition discriminate|].
  split; [unfold rune_rules; repeat first [apply Forall2_nil|apply Forall2_cons; cbn [fst]]; cbn [rune_element]; try reflexivity;
    first [rune_set (@nil (Z * Z)) [65] | rune_set [(48, 9)] (@nil Z)]|].
  split; [cbn; lia|]. eexists. split; vm_compute; reflexivity.
Qed.

(** Seven rules with common beginnings, a repeated pattern and a pattern that is the beginning
    of another one *)
Definition plain_rules : list (list Z * Z) :=
  [ ([1; 2; 3], 0); ([1; 2], 2); ([1; 2; 4; 5], 3); ([1; 2; 3], 4); ([2; 2], 5); ([1; 3], 6); ([7], 9) ].
(** one output, no head or tail *)
Definition plain_data (e : list Z * Z) : list Z * Z :=
  ([255; 0; zlen (fst e); 0; 1; 3; 0; 0; zlen (fst e)] ++ concat (map (le_digits 2) (fst e)) ++ [0], snd e).
Example C49_example :
  Forall2 (fun d e => bytes (fst d) /\ scan glyph_kind (fst d) = Ok (map Single (fst e)) /\ snd d = snd e /\ fst e <> [])
    (map plain_data plain_rules) plain_rules /\ increasing 0 (map snd plain_rules) /\
  exists states, compile glyph_kind (fun _ _ _ => Panic) (map plain_data plain_rules) = Ok states /\
    map (fun input => tree_Match (mkTree states 0 255 false) input)
      [[1; 2; 3; 3]; [1; 2; 4; 4]; [1; 2; 4; 5]; [1; 3]; [1; 4]; []; [7; 1]; [2; 2; 2]; [2; 1]] =
    [Ok 0; Ok 2; Ok 3; Ok 6; Ok 255; Ok 255; Ok 9; Ok 5; Ok 255].
Proof.
  split; [repeat constructor; try (vm_compute; reflexivity); try discriminate; apply bytes_check; vm_compute; reflexivity|].
  split; [cbn; lia|]. eexists. split; vm_compute; reflexivity.
Qed.

(** ** C50 *)

(** Full statement: compiling rules of a font never panics. *)
Definition compile_panics (ops : list bop) (rules : list (list element * Z)) : Prop :=
  exists f data, made ops f /\ rules_of_font f data rules /\ compile glyph_kind (glyph_sets f) data = Panic.
Ltac panic_witness ops n :=
  unfold compile_panics; font_witness ops;
  match goal with |- context [made _ ?f] =>
    let l := eval vm_compute in (map (fun i => (match rewrites_GetGlyphRule f (Z.of_nat i) with Ok d => d | _ => [] end, Z.of_nat i)) (seq 0 n)) in exists l end;
  split; [split; [apply all_typed; vm_compute; reflexivity|vm_compute; reflexivity]|];
  split; [repeat constructor; vm_compute; reflexivity|vm_compute; reflexivity].
(** Rule 0 is any of glyphs 0 to 4, rule 1 glyph 2 *)
Theorem C50_middle_refuted : compile_panics (sample_glyphs ++
  [ OCreateGlyphSet [2001]; OAddGlyphSetRange 2001 1001 1005;
    OAddGlyphRewriteRule 0 1 0 [2001] [1001]; OAddGlyphRewriteRule 0 1 0 [1003] [1001] ]) [([InSet 0], 0); ([Single 2], 1)].
Proof. panic_witness (sample_glyphs ++ [ OCreateGlyphSet [2001]; OAddGlyphSetRange 2001 1001 1005;
    OAddGlyphRewriteRule 0 1 0 [2001] [1001]; OAddGlyphRewriteRule 0 1 0 [1003] [1001] ]) 2%nat. Qed.
Print Assumptions C50_middle_refuted.
(** Rule 0 is any of glyphs 0 to 2, rule 1 any of 1 to 3 *)
Theorem C50_overlap_refuted : compile_panics (sample_glyphs ++
  [ OCreateGlyphSet [2001]; OAddGlyphSetRange 2001 1001 1003; OCreateGlyphSet [2002]; OAddGlyphSetRange 2002 1002 1004;
    OAddGlyphRewriteRule 0 1 0 [2001] [1001]; OAddGlyphRewriteRule 0 1 0 [2002] [1001] ]) [([InSet 0], 0); ([InSet 1], 1)].
Proof. panic_witness (sample_glyphs ++ [ OCreateGlyphSet [2001]; OAddGlyphSetRange 2001 1001 1003; OCreateGlyphSet [2002]; OAddGlyphSetRange 2002 1002 1004;
    OAddGlyphRewriteRule 0 1 0 [2001] [1001]; OAddGlyphRewriteRule 0 1 0 [2002] [1001] ]) 2%nat. Qed.
Print Assumptions C50_overlap_refuted.

(** The same set with two members that are no range, used by three rules: a copy of a state is
    looked for with the rules in another order than they are kept in. *)
Definition third_ops : list bop := sample_glyphs ++
  [ OCreateGlyphSet [2001]; OAddGlyphSetListGlyph 2001 1001; OAddGlyphSetListGlyph 2001 1002;
    OAddGlyphRewriteRule 0 3 0 [2001; 1003; 1004] [1001]; OAddGlyphRewriteRule 0 3 0 [2001; 1003; 1005] [1001];
    OAddGlyphRewriteRule 0 3 0 [2001; 1003; 1003] [1001] ].
Theorem C50_third_refuted : compile_panics third_ops
  [([InSet 0; Single 2; Single 3], 0); ([InSet 0; Single 2; Single 4], 1); ([InSet 0; Single 2; Single 2], 2)].
Proof. panic_witness third_ops 3%nat. Qed.
Print Assumptions C50_third_refuted.

(** Rules without sets are compiled, unless they are too many or too long together and this is
    reported. What is missing: rules with sets. *)
Theorem C50_glyph_partial : forall sets data rules,
  Forall2 (fun d e => bytes (fst d) /\ scan glyph_kind (fst d) = Ok (map Single (fst e)) /\ snd d = snd e /\ fst e <> []) data rules ->
  increasing 0 (map snd rules) ->
  compile glyph_kind sets data = Err "DecisionTreeCompiler hit a limit" /\ ~ within_limits rules \/
  exists states, compile glyph_kind sets data = Ok states /\ zlen states <= 254.
Proof. exact glyph_trees_compile. Qed.
Print Assumptions C50_glyph_partial.
Theorem C50_utf8_partial : forall sets data rules,
  Forall2 (fun d e => scan utf8_kind (fst d) = Ok (map Single (fst e)) /\ snd d = snd e /\ fst e <> [] /\ ~ In 2147483647 (fst e)) data rules ->
  increasing 0 (map snd rules) ->
  compile utf8_kind sets data = Err "DecisionTreeCompiler hit a limit" /\ ~ within_limits rules \/
  exists states, compile utf8_kind sets data = Ok states /\ zlen states <= 254.
Proof. exact utf8_trees_compile. Qed.
Print Assumptions C50_utf8_partial.
(** So are rules with sets that are one range, if the ranges and single glyphs of all rules do
    not overlap unless they are the same. What is missing: other sets. *)
Theorem C50_ranges_partial : forall f (data : list (list Z * Z)) rules ranges,
  Forall2 (fun d e => bytes (fst d) /\ scan glyph_kind (fst d) = Ok (fst e) /\ snd d = snd e /\ fst e <> []) data rules ->
  Forall2 (fun e rs => Forall2 (glyph_range f) (fst e) rs) rules ranges -> apart (concat ranges) -> increasing 0 (map snd rules) ->
  compile glyph_kind (glyph_sets f) data = Err "DecisionTreeCompiler hit a limit" /\ ~ within_limits rules \/
  exists states, compile glyph_kind (glyph_sets f) data = Ok states /\ zlen states <= 254.
Proof. exact glyph_ranges_compile. Qed.
Print Assumptions C50_ranges_partial.
Theorem C50_runes_partial : forall f (data : list (list Z * Z)) rules runes,
  Forall2 (fun d e => scan utf8_kind (fst d) = Ok (fst e) /\ snd d = snd e /\ fst e <> [] /\ ~ In (Single 2147483647) (fst e)) data rules ->
  Forall2 (fun e rs => Forall2 (rune_element f) (fst e) rs) rules runes -> increasing 0 (map snd rules) ->
  compile utf8_kind (utf8_sets f) data = Err "DecisionTreeCompiler hit a limit" /\ ~ within_limits rules \/
  exists states, compile utf8_kind (utf8_sets f) data = Ok states /\ zlen states <= 254.
Proof. exact utf8_runes_compile. Qed.
Print Assumptions C50_runes_partial.

(** The bounds are the right ones: 254 rules of one glyph each, or 23 rules of 12 glyphs each,
    are compiled, one more is not. (Rules that share beginnings may exceed the bounds and still
    be compiled.) *)
Definition run_of (from : Z) (n : nat) : list Z := map (fun i => from + Z.of_nat i) (seq 0 n).
Definition short_rules (n : nat) : list (list Z * Z) := map (fun i => ([i], i)) (run_of 0 n).
Definition long_rules (n : nat) : list (list Z * Z) := map (fun i => (run_of (100 * i) 12, i)) (run_of 0 n).
Example C50_example :
  within_limits (short_rules 254) /\ ~ within_limits (short_rules 255) /\
  within_limits (long_rules 23) /\ ~ within_limits (long_rules 24) /\
  is_ok (compile glyph_kind (fun _ _ _ => Panic) (map plain_data (short_rules 254))) = true /\
  compile glyph_kind (fun _ _ _ => Panic) (map plain_data (short_rules 255)) = Err "DecisionTreeCompiler hit a limit" /\
  is_ok (compile glyph_kind (fun _ _ _ => Panic) (map plain_data (long_rules 23))) = true /\
  compile glyph_kind (fun _ _ _ => Panic) (map plain_data (long_rules 24)) = Err "DecisionTreeCompiler hit a limit".
Proof.
  assert (K : forall l : list (list Z * Z), (1 + steps l <=? 254) && (zlen l <=? 254) = true <-> within_limits l) by (intros l; unfold within_limits; lia).
  rewrite <- !K. repeat (split; [vm_compute; (reflexivity || discriminate)|]). vm_compute. reflexivity.
Qed.
