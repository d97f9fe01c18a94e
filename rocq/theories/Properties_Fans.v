(** Decision trees of rewrite rules with any sets, no two of which can start with the same glyph
    or code point: C49 and C50. *)
From Verif Require Import Base BaseFacts Spec_Helpers Model_Helpers Model_Date Model_Mask Spec_Layout Model_Font Model_Rewrites
  Spec_Format Spec_LayoutFont Sample Model_Builder Spec_Builder Spec_Survive Proofs_Builder Sample_Builder Proofs_Typed Model_Scanner Properties_Survive
  Model_Tree Spec_Tree Spec_TreeSets Properties_Tree Spec_Fans Proofs_Fans2.

(** Rules with any sets are found as they should be, if the ranges and single glyphs of all rules
    do not overlap unless they are the same, and no two rules have one in common in their first
    elements. What is missing: rules with common beginnings and overlapping sets. *)
Theorem C49_fans_partial : forall f (data : list (list Z * Z)) (rules : list (list element * Z)) members states,
  Forall2 (fun d e => bytes (fst d) /\ scan glyph_kind (fst d) = Ok (fst e) /\ snd d = snd e /\ fst e <> []) data rules ->
  Forall2 (fun e rss => Forall2 (glyph_members f) (fst e) rss) rules members -> fanned members ->
  data <> [] -> increasing 0 (map snd rules) -> compile glyph_kind (glyph_sets f) data = Ok states ->
  forall input index best, exists m, tree_Match (mkTree states index best false) input = Ok m /\
    best_fit (map (fun e => (map (element_pattern f) (fst e), snd e)) rules) input m.
Proof.
  intros f data rules members states H1 H2 H3 H4 H5 H6. destruct (glyph_fans f data rules members H1 H2 H3 H4 H5) as [[E _]|(st & E & _ & H)]; rewrite H6 in E; [discriminate|].
  injection E as <-. exact H.
Qed.
Print Assumptions C49_fans_partial.
Theorem C49_rune_fans_partial : forall f (data : list (list Z * Z)) (rules : list (list element * Z)) members states,
  Forall2 (fun d e => scan utf8_kind (fst d) = Ok (fst e) /\ snd d = snd e /\ fst e <> [] /\ ~ In (Single 2147483647) (fst e)) data rules ->
  Forall2 (fun e rss => Forall2 (rune_members f) (fst e) rss) rules members -> fanned members ->
  data <> [] -> increasing 0 (map snd rules) -> compile utf8_kind (utf8_sets f) data = Ok states ->
  forall input index best, exists m, tree_Match (mkTree states index best false) input = Ok m /\
    best_fit (map (fun e => (map (rune_pattern f) (fst e), snd e)) rules) input m.
Proof.
  intros f data rules members states H1 H2 H3 H4 H5 H6. destruct (rune_fans f data rules members H1 H2 H3 H4 H5) as [[E _]|(st & E & _ & H)]; rewrite H6 in E; [discriminate|].
  injection E as <-. exact H.
Qed.
Print Assumptions C49_rune_fans_partial.

(** Such rules are compiled exactly if a tree has room for them; otherwise this is reported. *)
Theorem C50_fans_partial : forall f (data : list (list Z * Z)) (rules : list (list element * Z)) members,
  Forall2 (fun d e => bytes (fst d) /\ scan glyph_kind (fst d) = Ok (fst e) /\ snd d = snd e /\ fst e <> []) data rules ->
  Forall2 (fun e rss => Forall2 (glyph_members f) (fst e) rss) rules members -> fanned members ->
  data <> [] -> increasing 0 (map snd rules) ->
  (fan_limits members -> exists states, compile glyph_kind (glyph_sets f) data = Ok states) /\
  (~ fan_limits members -> compile glyph_kind (glyph_sets f) data = Err "DecisionTreeCompiler hit a limit").
Proof.
  intros f data rules members H1 H2 H3 H4 H5. destruct (glyph_fans f data rules members H1 H2 H3 H4 H5) as [[E H]|(st & E & H & _)]; split; intros; try contradiction; eauto.
Qed.
Print Assumptions C50_fans_partial.
Theorem C50_rune_fans_partial : forall f (data : list (list Z * Z)) (rules : list (list element * Z)) members,
  Forall2 (fun d e => scan utf8_kind (fst d) = Ok (fst e) /\ snd d = snd e /\ fst e <> [] /\ ~ In (Single 2147483647) (fst e)) data rules ->
  Forall2 (fun e rss => Forall2 (rune_members f) (fst e) rss) rules members -> fanned members ->
  data <> [] -> increasing 0 (map snd rules) ->
  (fan_limits members -> exists states, compile utf8_kind (utf8_sets f) data = Ok states) /\
  (~ fan_limits members -> compile utf8_kind (utf8_sets f) data = Err "DecisionTreeCompiler hit a limit").
Proof.
  intros f data rules members H1 H2 H3 H4 H5. destruct (rune_fans f data rules members H1 H2 H3 H4 H5) as [[E H]|(st & E & H & _)]; split; intros; try contradiction; eauto.
Qed.
Print Assumptions C50_rune_fans_partial.

(** A set of glyphs 1 to 2 and 4, used in two places of the first rule and in the second one *)
Definition fan_ops : list bop := sample_glyphs ++
  [ OCreateGlyphSet [2001]; OAddGlyphSetRange 2001 1002 1003; OAddGlyphSetListGlyph 2001 1005;
    OAddGlyphRewriteRule 0 3 0 [2001; 1004; 2001] [1001]; OAddGlyphRewriteRule 0 2 0 [1001; 2001] [1001]; OAddGlyphRewriteRule 0 1 0 [1004] [1001] ].
Definition fan_sample : list (list element * Z) := [ ([InSet 0; Single 3; InSet 0], 0); ([Single 0; InSet 0], 1); ([Single 3], 2) ].
Definition fan_sample_members : list (list (list (Z * Z))) :=
  [ [[(1, 2); (4, 4)]; [(3, 3)]; [(1, 2); (4, 4)]]; [[(0, 0)]; [(1, 2); (4, 4)]]; [[(3, 3)]] ].
Ltac no_dups := repeat constructor; cbn; intuition congruence.
Example C49_fans_example : exists f data states, made fan_ops f /\
  Forall2 (fun d e => bytes (fst d) /\ scan glyph_kind (fst d) = Ok (fst e) /\ snd d = snd e /\ fst e <> []) data fan_sample /\
  Forall2 (fun e rss => Forall2 (glyph_members f) (fst e) rss) fan_sample fan_sample_members /\ fanned fan_sample_members /\ fan_limits fan_sample_members /\
  increasing 0 (map snd fan_sample) /\ compile glyph_kind (glyph_sets f) data = Ok states /\
  map (fun input => tree_Match (mkTree states 0 255 false) input)
    [[2; 3; 4; 3]; [4; 3; 1]; [1; 3; 3]; [0; 4]; [0; 3]; [3; 3]; [4; 4]; []] = [Ok 0; Ok 0; Ok 255; Ok 1; Ok 255; Ok 2; Ok 255; Ok 255].
Proof.
  font_witness fan_ops. data_witness 3%nat. split; [split; [apply all_typed; vm_compute; reflexivity|vm_compute; reflexivity]|].
  split; [repeat constructor; try (vm_compute; reflexivity); try discriminate; apply bytes_check; vm_compute; reflexivity|].
  split; [unfold fan_sample, fan_sample_members; repeat first [apply Forall2_nil|apply Forall2_cons; cbn [fst]]; cbn [glyph_members]; try reflexivity;
    (split; [discriminate|]; split; [discriminate|]; exists (mkSet [(1, 1)] [4]); split; [vm_compute; reflexivity|]; split; [split; repeat constructor; unfold byte; cbn; lia|]; split; [reflexivity|repeat constructor; cbn; lia])|].
  split; [split; [apply apart_check; vm_compute; reflexivity|split; no_dups]|].
  split; [split; [vm_compute; discriminate|split; [vm_compute; discriminate|repeat constructor; vm_compute; discriminate]]|].
  split; [cbn; lia|]. split; vm_compute; reflexivity.
Qed.
(** Sets of code points 65 and 66, and of 48 (from 48 to 57) and 97 *)
Definition fan_font : Font := font_of
  {| l_header := l_header sample; l_metrics := l_metrics sample; l_dyes := []; l_palettes := []; l_names := []; l_glyphs := l_glyphs sample;
     l_words := []; l_settings := []; l_switches := []; l_mapping := []; l_conditions := [];
     l_utf8_sets := [mkSet [] [65; 66]; mkSet [(48, 9)] [97]]; l_glyph_sets := []; l_utf8_rules := []; l_glyph_rules := []; l_horz := []; l_vert := [] |}.
Definition fan_rune_rules : list (list element * Z) := [ ([InSet 0; Single 66], 0); ([InSet 1; InSet 0; Single 65], 1) ].
Definition fan_rune_members : list (list (list (Z * Z))) := [ [[(65, 65); (66, 66)]; [(66, 66)]]; [[(48, 48); (97, 97)]; [(65, 65); (66, 66)]; [(65, 65)]] ].
Definition fan_rune_data : list (list Z * Z) :=
  [ (rule_bytes 4 (Spec_Layout.mkRule 255 [([], [])] [([0], [66])] [([], [])] [8594]), 0); (rule_bytes 4 (Spec_Layout.mkRule 255 [([], [])] [([1; 0], [65])] [([], [])] [8594]), 1) ].
Example C49_rune_fans_example :
  Forall2 (fun d e => scan utf8_kind (fst d) = Ok (fst e) /\ snd d = snd e /\ fst e <> [] /\ ~ In (Single 2147483647) (fst e)) fan_rune_data fan_rune_rules /\
  Forall2 (fun e rss => Forall2 (rune_members fan_font) (fst e) rss) fan_rune_rules fan_rune_members /\ fanned fan_rune_members /\ fan_limits fan_rune_members /\
  increasing 0 (map snd fan_rune_rules) /\
  exists states, compile utf8_kind (utf8_sets fan_font) fan_rune_data = Ok states /\
    map (fun input => tree_Match (mkTree states 0 255 false) input) [[65; 66]; [66; 66]; [48; 66; 65; 66]; [97; 65; 65]; [57; 65; 65]; [48; 65]] = [Ok 0; Ok 0; Ok 1; Ok 1; Ok 255; Ok 255].
Proof.
  split; [repeat constructor; try (vm_compute; reflexivity); try discriminate; cbn; intuition discriminate|].
  split; [unfold fan_rune_rules, fan_rune_members; repeat first [apply Forall2_nil|apply Forall2_cons; cbn [fst]]; cbn [rune_members]; try reflexivity;
    (split; [discriminate|]; split; [discriminate|]; first [exists (mkSet (@nil (Z * Z)) [65; 66]); split; [vm_compute; reflexivity|]|exists (mkSet [(48, 9)] [97]); split; [vm_compute; reflexivity|]];
     split; [split; repeat constructor; unfold byte; cbn; lia|reflexivity])|].
  split; [split; [apply apart_check; vm_compute; reflexivity|split; no_dups]|].
  split; [split; [vm_compute; discriminate|split; [vm_compute; discriminate|repeat constructor; vm_compute; discriminate]]|].
  split; [cbn; lia|]. eexists. split; vm_compute; reflexivity.
Qed.
(** The limits are met: rules whose first elements are sets of 127 code points each. Two of them
    are compiled, a third one is not. *)
Definition wide_font : Font := font_of
  {| l_header := l_header sample; l_metrics := l_metrics sample; l_dyes := []; l_palettes := []; l_names := []; l_glyphs := l_glyphs sample;
     l_words := []; l_settings := []; l_switches := []; l_mapping := []; l_conditions := [];
     l_utf8_sets := [mkSet [] (run_of 100 127); mkSet [] (run_of 300 127)]; l_glyph_sets := []; l_utf8_rules := []; l_glyph_rules := []; l_horz := []; l_vert := [] |}.
Definition wide_rule (es : list Z) (xs : list Z) (i : Z) : list Z * Z := (rule_bytes 4 (Spec_Layout.mkRule 255 [([], [])] [(es, xs)] [([], [])] [8594]), i).
Example C50_fans_example :
  is_ok (compile utf8_kind (utf8_sets wide_font) [wide_rule [0] [65] 0; wide_rule [1; 0] [] 1]) = true /\
  compile utf8_kind (utf8_sets wide_font) [wide_rule [0] [65] 0; wide_rule [1; 0] [] 1; wide_rule [] [65] 2] = Err "DecisionTreeCompiler hit a limit".
Proof. split; vm_compute; reflexivity. Qed.

(** A set without members followed by another element makes compiling panic. *)
Definition empty_ops : list bop := sample_glyphs ++ [ OCreateGlyphSet [2001]; OAddGlyphRewriteRule 0 2 0 [2001; 1003] [1001] ].
Theorem C50_empty_refuted : compile_panics empty_ops [([InSet 0; Single 2], 0)].
Proof. panic_witness empty_ops 1%nat. Qed.
Print Assumptions C50_empty_refuted.
