(** Build as a whole: the font is the encoding of a layout that describes the builder. *)
From Coq Require Import Permutation.
From Verif Require Import Base BaseFacts Spec_Helpers Model_Helpers Proofs_Helpers Spec_Names Model_Names Proofs_Names Model_Date
  Model_Mask Spec_Mask Model_Font Model_Words Model_Parse Spec_Format Proofs_Format Spec_Layout Spec_LayoutFont
  Model_Builder Spec_Builder Proofs_Builder Proofs_Build Proofs_Build2 Proofs_Build3 Proofs_Build4 Proofs_Build5 Proofs_Build6 Proofs_Build7.

Definition rune_stored (c x : Z) : Prop := x = c mod 2 ^ 32.
(** what else is known of the layout *)
Record built (o : order) (b : builder) (l : layout) : Prop := {
  bt_glyphs : 0 < zlen (b_order b) <= MaxGlyphs;
  bt_header : zlen (bh_name (b_header b)) <= 255 /\ zlen (bh_family (b_header b)) <= 255 /\
    zlen (bh_author (b_header b)) <= 255 /\ zlen (bh_about (b_header b)) <= 65535;
  bt_metrics : GetMetricsStatus b = Ok tt;
  bt_colors : 0 < zlen (b_dyes b) + zlen (b_palettes b) <= 255;
  bt_names : zlen (l_names l) <= zlen (b_order b);
  bt_words : zlen (l_words l) <= 255;
  bt_word_names : exists words, words_described words (l_words l) /\ words_from o b words (l_words l) /\
    Forall2 (setting_described words) (b_settings b) (l_settings l) /\ zlen (l_words l) = zlen words /\
    forall w, In w (map fst words) -> In w (options b);
  bt_options : bytes (concat (map snd (l_settings l)));
  bt_mapping : zlen (l_mapping l) <= MaxGlyphs;
  bt_mapped : exists m, Forall2 (mapped b) m (l_mapping l) /\ Permutation m (b_mapping b);
  bt_sets : zlen (l_glyph_sets l) <= 255 /\ zlen (concat (map (set_bytes 2) (l_glyph_sets l))) <= 65535 /\
    Forall (fun t => zlen (set_ranges t) < 255 /\ zlen (set_elements t) < 255) (l_glyph_sets l);
  bt_utf8_rules : Forall2 (rule_stored rune_stored b) (b_utf8Rules b) (l_utf8_rules l) /\ zlen (l_utf8_rules l) <= 65535 /\
    u32 (zlen (concat (map (rule_bytes 4) (l_utf8_rules l)))) <= 16777215;
  bt_glyph_rules : Forall2 (rule_stored (indexed_as b) b) (b_glyphRules b) (l_glyph_rules l) /\ zlen (l_glyph_rules l) <= 65535 /\
    u32 (zlen (concat (map (rule_bytes 2) (l_glyph_rules l)))) <= 16777215;
  bt_horz : zlen (l_horz l) = zlen (b_horz b) /\ zlen (b_horz b) <= 16777215;
  bt_vert : l_vert l = [];
  bt_conditions : l_conditions l = [];
  bt_size : zlen (font_bytes l) <= MaxFontDataSize }.

Lemma alpha_ok_readable m : alpha_ok m -> alpha_readable m.
Proof.
  intros (A & B & C & D & _) x y I1. unfold inside in I1. rewrite C, D.
  set (w := rx1 (Rect m) - rx0 (Rect m)) in *. set (h := ry1 (Rect m) - ry0 (Rect m)) in *.
  assert (0 <= x - rx0 (Rect m) < w) by lia. assert (0 <= y - ry0 (Rect m) <= h - 1) by lia. split; [nia|].
  apply Z.lt_le_trans with ((y - ry0 (Rect m)) * w + w); [lia|]. replace ((y - ry0 (Rect m)) * w + w) with (w * (y - ry0 (Rect m) + 1)) by ring.
  apply Z.mul_le_mono_nonneg_l; lia.
Qed.
Lemma u32_small x : 0 <= x <= MaxFontDataSize -> u32 x = x.
Proof. unfold MaxFontDataSize, u32. intros H. apply Z.mod_small. lia. Qed.
Lemma Forall2_imp {A B} (R S : A -> B -> Prop) l m : (forall x y, R x y -> S x y) -> Forall2 R l m -> Forall2 S l m.
Proof. intros H F. induction F; constructor; auto. Qed.
Lemma Permutation_nil_r {A} (l : list A) : Permutation l [] -> l = [].
Proof. intros H. apply Permutation_nil. symmetry. exact H. Qed.

Lemma build_sections_ok o sort b om h f :
  perm_order o -> (forall l, Permutation l (sort l)) -> fine b ->
  0 < zlen (b_order b) <= MaxGlyphs ->
  0 < zlen (b_dyes b) + zlen (b_palettes b) <= 255 -> zlen (b_settings b) <= 255 -> GetMetricsStatus b = Ok tt ->
  build_header b = Ok h -> om = u32 (zlen h) ->
  build_sections o sort b om (build_metrics b h) = Ok f ->
  exists l, describes b l /\ f = font_of l /\ built o b l.
Proof.
  intros HO HS [F1 F2 F3 F4 F5 F6 F7 F8] HL HC HT HM HH -> H.
  destruct F3 as (G1 & G2 & G3). assert (ND : NoDup (b_order b)) by (rewrite G2; exact G1).
  assert (HZ : zlen (b_order b) <= 65535) by (unfold MaxGlyphs in HL; lia).
  assert (HG : zlen (b_glyphs b) = zlen (b_order b)) by (rewrite G2, zlen_map; reflexivity).
  destruct F8 as (N1 & N2 & N3 & N4).
  destruct (build_header_ok _ _ HH) as (hd & D0 & E0 & D0').
  destruct (build_metrics_ok b h HG) as (mt & D1 & E1). rewrite E1 in H.
  unfold build_sections in H. cbv zeta in H.
  pose proof (zlen_nonneg (b_dyes b)) as P1. pose proof (zlen_nonneg (b_palettes b)) as P2.
  apply bind_ok_inv in H. destruct H as (d3 & E3 & H). apply build_dyes_ok in E3; [|lia].
  apply bind_ok_inv in H. destruct H as (d4 & E4 & H). apply build_palettes_ok in E4; [|lia].
  apply bind_ok_inv in H. destruct H as (d5 & E5 & H). apply build_glyph_names_ok in E5; [|assumption..|rewrite G2; tauto].
  destruct E5 as (ns & D5 & L5 & E5).
  apply bind_ok_inv in H. destruct H as (d6 & E6 & H). apply build_masks_ok in E6; [|assumption| |assumption..].
  2: { intros uid gd I1. destruct (G3 _ _ I1) as (X1 & X2 & _). split; [apply alpha_ok_readable; exact X1|]. split; [exact (proj2 (proj2 (proj2 (proj2 X1))))|exact X2]. }
  destruct E6 as (gs & D6 & E6).
  apply bind_ok_inv in H. destruct H as ([[builtin words] d7] & E7 & H). apply build_words_ok in E7; [|assumption].
  destruct E7 as (ws & D7 & W7 & L7 & E7 & B7 & I7 & Q7).
  apply bind_ok_inv in H. destruct H as ([d8 d9] & E8 & H).
  apply build_settings_ok in E8; [|exact (proj1 D7)|exact (proj1 (proj2 D7))|assumption..].
  destruct E8 as (ts & D8 & E8 & E9 & B8).
  apply bind_ok_inv in H. destruct H as (d10 & E10 & H). apply build_switches_ok in E10. destruct E10 as (E10 & L10 & _).
  apply bind_ok_inv in H. destruct H as (d11 & E11 & H). apply build_mapping_ok in E11;
    [|assumption|assumption|exact (proj1 F4)|intros cp e I1; destruct (proj2 F4 cp e I1) as (X & _); lia|assumption].
  destruct E11 as (m & ml & D11 & M11 & O11 & L11 & E11).
  apply bind_ok_inv in H. destruct H as (d12 & E12 & H). apply build_conditions_ok in E12; [|assumption].
  apply bind_ok_inv in H. destruct H as (d13 & E13 & H). apply build_utf8_sets_ok in E13.
  apply bind_ok_inv in H. destruct H as ([gl d14] & E14 & H). apply build_glyph_sets_ok in E14; [|assumption|assumption|exact (proj1 F5)|exact (proj2 F5)].
  destruct E14 as (ss & D14 & E14 & L14 & N14 & F14 & B14 & Q14).
  apply bind_ok_inv in H. destruct H as (d15 & E15 & H). apply bind_ok_inv in H. destruct H as (d16 & E16 & H).
  destruct (Z.gtb_spec (zlen (b_horz b)) 16777215) as [|L17]; [discriminate|].
  destruct (Z.gtb_spec (zlen (b_vert b)) 16777215) as [|L18]; [discriminate|].
  apply bind_ok_inv in H. destruct H as (d17 & E17 & H). apply build_kernings_ok in E17; [|assumption|assumption|assumption|exact (proj1 F7)|assumption].
  destruct E17 as (hk & D17 & Z17 & E17).
  apply bind_ok_inv in H. destruct H as (d18 & E18 & H). apply build_kernings_ok in E18; [|assumption|assumption|assumption|rewrite N3; constructor|assumption].
  destruct E18 as (vk & D18 & Z18 & E18).
  destruct (Z.gtb_spec (zlen d18) MaxFontDataSize) as [|SZ]; [discriminate|].
  assert (RE : forall data x d, rune_elem data x = Ok d -> exists i, rune_stored x i /\ d = data ++ le_digits 4 i).
  { unfold rune_elem, rune_stored. intros data x d X. inversion X. exists (x mod 2 ^ 32). split; [reflexivity|]. rewrite append32_spec. reflexivity. }
  assert (RG : forall msg uid i, look_err [] msg uid = Ok i -> set_indexed_as b uid i) by (intros; discriminate).
  assert (GE : forall data x d, glyph_elem (index_lookup 0 (b_order b) []) data x = Ok d -> exists i, indexed_as b x i /\ d = data ++ le_digits 2 i).
  { unfold glyph_elem. intros data x d X. apply bind_ok_inv in X. destruct X as (i & X1 & X2). apply look_err_ok in X1; [|assumption..].
    inversion X2. exists i. split; [exact X1|]. apply append16_spec. }
  assert (GG : forall msg uid i, look_err gl msg uid = Ok i -> set_indexed_as b uid i) by (intros; eapply Q14; eassumption).
  destruct F6 as [R1 R2].
  pose proof (build_rules_grows 4 _ _ rune_stored b RE RG _ _ _ _ R2 E15) as W15.
  pose proof (build_rules_grows 2 _ _ (indexed_as b) b GE GG _ _ _ _ R1 E16) as W16.
  assert (S17 : zlen d16 <= zlen d17) by (rewrite E17; apply zlen_le_app). assert (S18 : zlen d17 <= zlen d18) by (rewrite E18; apply zlen_le_app).
  apply (build_rules_ok 4 _ _ rune_stored b RE RG) in E15; [|assumption|lia]. destruct E15 as (ur & D15 & E15 & L15 & L15').
  apply (build_rules_ok 2 _ _ (indexed_as b) b GE GG) in E16; [|assumption|lia]. destruct E16 as (gr & D16 & E16 & L16 & L16').
  rewrite N3, zlen_nil in Z18. assert (V : vk = []) by (apply zlen_0_nil; exact Z18).
  set (l := mkLayout hd mt (b_dyes b) (b_palettes b) ns gs ws ts (b_switches b) ml [] [] ss ur gr hk vk).
  assert (MV : m_vert mt = bm_vert (b_metrics b)) by (rewrite D1; reflexivity).
  exists l.
  assert (S0 : h = concat (firstn 1 (sections l))) by (rewrite E0; cbn [sections l firstn concat l_header]; rewrite app_nil_r; reflexivity).
  assert (ST : forall d k s, d = concat (firstn k (sections l)) -> nth_error (sections l) k = Some s -> d ++ s = concat (firstn (S k) (sections l))).
  { clear. intros d k s -> X. generalize (sections l) X. clear. intros L. revert k. induction L as [|y r IH]; intros [|k] X; try discriminate; cbn [firstn concat].
    - inversion X. rewrite app_nil_r. reflexivity.
    - cbn in X. rewrite <- app_assoc. f_equal. apply IH. exact X. }
  assert (S1 : h ++ metrics_bytes mt = concat (firstn 2 (sections l))) by (apply (ST _ 1%nat); [exact S0|reflexivity]).
  assert (S3 : d3 = concat (firstn 3 (sections l))) by (rewrite E3; apply (ST _ 2%nat); [exact S1|reflexivity]).
  assert (S4 : d4 = concat (firstn 4 (sections l))) by (rewrite E4; apply (ST _ 3%nat); [exact S3|reflexivity]).
  assert (S5 : d5 = concat (firstn 5 (sections l))) by (rewrite E5; apply (ST _ 4%nat); [exact S4|reflexivity]).
  assert (S6 : d6 = concat (firstn 6 (sections l))) by (rewrite E6; apply (ST _ 5%nat); [exact S5|cbn [sections nth_error l l_metrics l_glyphs]; rewrite MV; reflexivity]).
  assert (S7 : d7 = concat (firstn 7 (sections l))) by (rewrite E7; apply (ST _ 6%nat); [exact S6|reflexivity]).
  assert (S8 : d8 = concat (firstn 8 (sections l))) by (rewrite E8; apply (ST _ 7%nat); [exact S7|reflexivity]).
  assert (S9 : d9 = concat (firstn 9 (sections l))) by (rewrite E9; apply (ST _ 8%nat); [exact S8|reflexivity]).
  assert (S10 : d10 = concat (firstn 10 (sections l))) by (rewrite E10; apply (ST _ 9%nat); [exact S9|reflexivity]).
  assert (S11 : d11 = concat (firstn 11 (sections l))) by (rewrite E11; apply (ST _ 10%nat); [exact S10|reflexivity]).
  assert (S12 : d12 = concat (firstn 12 (sections l))) by (rewrite E12; apply (ST _ 11%nat); [exact S11|reflexivity]).
  assert (S13 : d13 = concat (firstn 13 (sections l))) by (rewrite E13; apply (ST _ 12%nat); [exact S12|reflexivity]).
  assert (S14 : d14 = concat (firstn 14 (sections l))) by (rewrite E14; apply (ST _ 13%nat); [exact S13|reflexivity]).
  assert (S15 : d15 = concat (firstn 15 (sections l))) by (rewrite E15; apply (ST _ 14%nat); [exact S14|reflexivity]).
  assert (S16 : d16 = concat (firstn 16 (sections l))) by (rewrite E16; apply (ST _ 15%nat); [exact S15|reflexivity]).
  assert (S17' : d17 = concat (firstn 17 (sections l))) by (rewrite E17; apply (ST _ 16%nat); [exact S16|reflexivity]).
  assert (S18' : d18 = concat (firstn 18 (sections l))) by (rewrite E18; apply (ST _ 17%nat); [exact S17'|reflexivity]).
  assert (S18'' : d18 = font_bytes l) by exact S18'.
  split; [|split].
  - constructor; cbn [l l_header l_metrics l_dyes l_palettes l_names l_glyphs l_words l_settings l_switches l_mapping l_conditions l_utf8_sets l_glyph_sets l_utf8_rules l_glyph_rules l_horz l_vert];
      try assumption; try reflexivity.
    + exists words. split; assumption.
    + split; [exact O11|]. exists m. split; [exact M11|]. eapply Forall2_imp; [|exact D11]. intros x y (_ & X1 & X2 & _). split; assumption.
    + rewrite N1. reflexivity.
    + eapply Forall2_imp; [|exact D15]. intros x y X. exact (proj1 X).
    + eapply Forall2_imp; [|exact D16]. intros x y X. exact (proj1 X).
  - assert (MON : forall k, zlen (concat (firstn k (sections l))) <= MaxFontDataSize).
    { intros k. rewrite S18'' in SZ. unfold font_bytes in SZ. rewrite <- (firstn_skipn k (sections l)), concat_app, zlen_app in SZ.
      pose proof (zlen_nonneg (concat (skipn k (sections l)))). lia. }
    assert (U : forall k, u32 (zlen (concat (firstn k (sections l)))) = section_start l k).
    { intros k. apply u32_small. split; [apply zlen_nonneg|apply MON]. }
    rewrite S18'' in H. rewrite S0 in H at 1. rewrite S1, S3, S4, S5, S6, S7, S8, S9, S10, S11, S12, S13, S14, S15, S16, S17' in H. rewrite !U in H.
    assert (Q : forall x y : Font, Ok x = Ok y -> x = y) by (intros ? ? X; congruence). symmetry. apply Q. exact H.
  - constructor; cbn [l l_header l_metrics l_dyes l_palettes l_names l_glyphs l_words l_settings l_switches l_mapping l_conditions l_utf8_sets l_glyph_sets l_utf8_rules l_glyph_rules l_horz l_vert];
      try assumption; try reflexivity; try lia.
    + exists words. repeat (split; [assumption|]). assumption.
    + exists m. split; assumption.
    + split; [assumption|]. split; assumption.
    + split; [assumption|]. split; assumption.
    + split; [assumption|]. split; assumption.
    + rewrite <- S18''. exact SZ.
Qed.

Lemma build_ok o sort b b' f :
  perm_order o -> (forall l, Permutation l (sort l)) -> fine b -> zlen (b_settings b) <= 255 ->
  Build o sort b = (b', Ok f) ->
  (b' = b \/ (b_dyes b = [] /\ b_palettes b = [] /\ b' = with_colors b [(str_bytes "main", [255])] [])) /\
  exists l, describes b' l /\ f = font_of l /\ built o b' l.
Proof.
  intros HO HS HF HT H. pose proof (build_builder o sort b) as BB. rewrite H in BB. cbn [fst] in BB. split; [exact BB|].
  unfold Build in H. destruct (Z.gtb_spec (zlen (b_glyphs b)) MaxGlyphs) as [|L1]; [inversion H|].
  destruct (Z.eqb_spec (zlen (b_glyphs b)) (zlen (b_order b))) as [L2|]; [|inversion H]. cbn [negb] in H.
  destruct (Z.eqb_spec (zlen (b_glyphs b)) 0) as [|L3]; [inversion H|].
  destruct (build_header b) as [h| | |] eqn:HH; try (inversion H; fail).
  destruct (GetMetricsStatus b) as [[]| | |] eqn:HM; try (inversion H; fail).
  pose proof (zlen_nonneg (b_glyphs b)). pose proof (zlen_nonneg (b_dyes b)). pose proof (zlen_nonneg (b_palettes b)).
  destruct (main_dye b) as [b2 r] eqn:MD. destruct r as [[]| | |]; try (inversion H; fail).
  assert (b2 = b') by congruence. subst b2. assert (HB : build_sections o sort b' (u32 (zlen h)) (build_metrics b h) = Ok f) by congruence.
  assert (CC : 0 < zlen (b_dyes b') + zlen (b_palettes b') <= 255).
  { unfold main_dye in MD. destruct (Z.gtb_spec (zlen (b_dyes b) + zlen (b_palettes b)) 255); [inversion MD|].
    destruct (Z.eqb_spec (zlen (b_dyes b) + zlen (b_palettes b)) 0).
    - destruct BB as [->|(_ & _ & ->)].
      + exfalso. destruct (add_dye b (str_bytes "main") [255]) as [(_ & _ & X)|(_ & mm & X)]; rewrite X in MD; [|discriminate].
        assert (Y : with_colors b (b_dyes b ++ [(str_bytes "main", [255])]) (b_palettes b) = b) by congruence.
        apply (f_equal b_dyes) in Y. cbn [with_colors b_dyes] in Y. apply (f_equal zlen) in Y. rewrite zlen_app in Y. change (zlen [(str_bytes "main", [255])]) with 1 in Y. lia.
      + cbn [with_colors b_dyes b_palettes]. change (zlen [(str_bytes "main", [255])]) with 1. rewrite zlen_nil. lia.
    - assert (b' = b) by congruence. subst. lia. }
  assert (XX : exists l, describes b' l /\ f = font_of l /\ built o b' l).
  { assert (EQ : build_metrics b h = build_metrics b' h /\ build_header b' = build_header b /\ GetMetricsStatus b' = GetMetricsStatus b /\ b_settings b' = b_settings b /\ b_order b' = b_order b /\ fine b').
    { destruct BB as [->|(_ & _ & ->)]; [repeat (split; [reflexivity|]); exact HF|]. repeat (split; [reflexivity|]). destruct HF. constructor; assumption. }
    destruct EQ as (Q1 & Q2 & Q3 & Q4 & Q5 & Q6). rewrite Q1 in HB.
    apply (build_sections_ok o sort b' (u32 (zlen h)) h f); try assumption; try congruence; rewrite ?Q4, ?Q5; try lia. }
  exact XX.
Qed.
