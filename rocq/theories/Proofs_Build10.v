(** Built fonts are parsed back exactly when they are within the limits of the parser. *)
From Coq Require Import Permutation.
From Verif Require Import Base BaseFacts Spec_Helpers Model_Helpers Proofs_Helpers Spec_Names Model_Names Proofs_Names Model_Date
  Model_Mask Spec_Mask Model_Font Model_Words Model_Parse Spec_Parse Spec_Format Proofs_Format Spec_Layout Spec_LayoutFont Spec_Accept Proofs_Accept Proofs_Accept2
  Model_Builder Spec_Builder Proofs_Builder Proofs_Build Proofs_Build2 Proofs_Build3 Proofs_Build4 Proofs_Build5 Proofs_Build6 Proofs_Build7 Proofs_Build8 Spec_Build Proofs_Build9.

Section Exact.
  Variable o : order.
  Variable b : builder.
  Variable l : layout.
  Hypothesis FN : fine b.
  Hypothesis CT : colors_typed b.
  Hypothesis CO : colors_ok b.
  Hypothesis SO : settings_ok b.
  Hypothesis WO : switches_ok b.
  Hypothesis CA : cased b.
  Hypothesis ID : 0 <= bh_ID (b_header b) < 2 ^ 64.
  Hypothesis DS : describes b l.
  Hypothesis BT : built o b l.
  Hypothesis OF : offsets_fit b (font_of l).

  Lemma e_glyphs : zlen (l_glyphs l) = zlen (b_order b).
  Proof. exact (len_glyphs b l DS). Qed.
  Lemma e_size k s : nth_error (sections l) k = Some s -> section_start l (S k) - section_start l k = zlen s.
  Proof. exact (section_size l k s). Qed.
  Lemma e_small k s : nth_error (sections l) k = Some s -> zlen s <= 33554432.
  Proof. exact (section_small o b l BT k s). Qed.

  Lemma e_masks : section_start l 6 - section_start l 5 = 3 * zlen (b_order b) + total (map (glyph_bytes (m_vert (l_metrics l))) (l_glyphs l)).
  Proof. rewrite (e_size 5 _ eq_refl). unfold glyph_masks_bytes. rewrite zlen_indexed, zlen_map, e_glyphs. reflexivity. Qed.
  Lemma e_vert : m_vert (l_metrics l) = bm_vert (b_metrics b).
  Proof. rewrite (ds_metrics _ _ DS). reflexivity. Qed.
  Lemma e_words : 1 * zlen (l_words l) <= total (l_words l) <= 32 * zlen (l_words l).
  Proof.
    destruct (words_loose o b l SO BT) as (words & (_ & _ & lens & txts & P1 & P2 & E1 & E2) & H2 & H3).
    apply bytes_total_le. apply Forall_forall. intros w I1. apply (in_map zlen) in I1. rewrite E1 in I1. apply in_map_iff in I1. destruct I1 as (e & <- & I1).
    apply loose_len, H3, in_map. apply (Permutation_in _ P1 I1).
  Qed.
  Lemma e_names : 0 * zlen (l_names l) <= total (map fst (l_names l)) <= 32 * zlen (l_names l).
  Proof.
    apply total_map. intros [name i] I1. destruct (ds_names _ _ DS) as [_ N]. apply N in I1. destruct I1 as (NE & uid & gd & _ & I1 & <-). destruct (fn_glyphs _ FN) as (_ & _ & G).
    destruct (G uid gd I1) as (_ & _ & [X|[X _]] & _); [rewrite X in NE; contradiction|]. apply loose_len in X. cbn [fst]. lia.
  Qed.
  Lemma e_settings : zlen (b_settings b) = zlen (l_settings l) /\ 1 * zlen (l_settings l) <= total (map fst (l_settings l)) <= 32 * zlen (l_settings l) /\
    total (map snd (l_settings l)) = zlen (concat (map snd (b_settings b))) /\ total (map snd (l_settings l)) <= 255 * zlen (l_settings l) /\ zlen (l_settings l) <= 255.
  Proof.
    destruct SO as (_ & S1 & S2). destruct (ds_settings _ _ DS) as (words & _ & S3). pose proof (F2_zlen _ _ _ S3) as LS. rewrite Forall_forall in S2.
    assert (T1 : 1 * zlen (l_settings l) <= total (map fst (l_settings l)) <= 32 * zlen (l_settings l)).
    { apply total_map. intros t I1. destruct (Forall2_in_r _ _ _ _ S3 I1) as (s & I2 & -> & _). apply loose_len, S2, I2. }
    assert (T2 : 0 * zlen (l_settings l) <= total (map snd (l_settings l)) <= 255 * zlen (l_settings l)).
    { apply total_map. intros t I1. destruct (Forall2_in_r _ _ _ _ S3 I1) as (s & I2 & _ & X). rewrite <- (F2_zlen _ _ _ X). pose proof (zlen_nonneg (snd s)). destruct (S2 s I2) as (_ & _ & Y). lia. }
    assert (T3 : total (map snd (l_settings l)) = zlen (concat (map snd (b_settings b)))).
    { clear - S3. unfold total. induction S3 as [|s t ss ts X _ IH]; [reflexivity|]. cbn [map concat]. rewrite !zlen_app, IH. destruct X as [_ X]. rewrite (F2_zlen _ _ _ X). reflexivity. }
    repeat split; try assumption; lia.
  Qed.
  Lemma e_switches : l_switches l = b_switches b /\ 1 * zlen (b_switches b) <= total (b_switches b) <= zlen (b_settings b) * zlen (b_switches b) /\ zlen (b_switches b) <= 254.
  Proof.
    split; [exact (ds_switches _ _ DS)|]. destruct WO as [W1 W2]. split; [|exact W1].
    apply bytes_total_le. eapply Forall_impl; [|exact W2]. intros sw (N1 & N2 & N3). split; [destruct sw; [contradiction|]; rewrite zlen_cons; pose proof (zlen_nonneg sw); lia|].
    assert (I1 : incl sw (zseq (zlen (b_settings b)))) by (intros x I1; apply in_zseq; rewrite Forall_forall in N3; exact (N3 x I1)).
    pose proof (NoDup_incl_length N2 I1) as L. apply inj_le in L. fold (zlen sw) in L. fold (zlen (zseq (zlen (b_settings b)))) in L.
    rewrite zlen_zseq in L by apply zlen_nonneg. exact L.
  Qed.
  Lemma e_mapping : 3 * zlen (l_mapping l) <= total (map (fun x => entry_bytes (snd x)) (l_mapping l)) < 16777216 /\ zlen (l_mapping l) < 65536.
  Proof.
    pose proof (bt_mapping _ _ _ BT) as LM. unfold MaxGlyphs in LM. split; [|lia].
    destruct (bt_mapped _ _ _ BT) as (m & M1 & M2).
    assert (T : forall y, In y (l_mapping l) -> 3 <= zlen (entry_bytes (snd y))).
    { intros y I1. destruct (Forall2_in_r _ _ _ _ M1 I1) as ([cp e] & I2 & I3 & _ & X & _). cbn [snd] in *. pose proof CA as C. unfold cased in C. rewrite Forall_forall in C. specialize (C _ I3). cbn [snd] in C.
      destruct (proj2 (fn_mapping _ FN) cp e I3) as (_ & _ & FL). destruct (snd y) as [i|g|k gs]; cbn [entry_described entry_bytes] in *.
      - rewrite zlen_cons, zlen_le_digits. lia.
      - destruct X as (_ & c & X & _ & G). rewrite X in FL. rewrite zlen_cons. pose proof (proj2 (group_bytes_ok b c g (Forall_inv FL) G)). lia.
      - destruct X as (_ & _ & _ & G). destruct G as [|c g cs gs' G _]; [contradiction|]. cbn [map concat]. rewrite zlen_cons, zlen_app.
        pose proof (proj2 (group_bytes_ok b c g (Forall_inv FL) G)). pose proof (zlen_nonneg (concat (map group_bytes gs'))). lia. }
    assert (LO : 3 * zlen (l_mapping l) <= total (map (fun x => entry_bytes (snd x)) (l_mapping l))).
    { clear - T. unfold total. induction (l_mapping l) as [|y r IH]; [cbn; unfold zlen; cbn; lia|]. cbn [map concat]. rewrite zlen_cons, zlen_app. pose proof (T y (or_introl eq_refl)).
      specialize (IH (fun z I1 => T z (or_intror I1))). lia. }
    pose proof (of_mapping _ _ OF) as X. cbn [font_of OffsetToRewriteConditions OffsetToMapping] in X. rewrite (e_size 10 _ eq_refl) in X. unfold mapping_bytes in X.
    rewrite !zlen_app, zlen_indexed, zlen_map, zlen_le_digits in X. rewrite (zlen_concat_fixed _ 4) in X by reflexivity.
    assert (E1 : zlen (b_mapping b) = zlen (l_mapping l)) by (rewrite <- (F2_zlen _ _ _ M1); unfold zlen; rewrite (Permutation_length M2); reflexivity).
    rewrite E1 in X. change (Z.of_nat 2) with 2 in X. change (Z.of_nat 3) with 3 in X. lia.
  Qed.
  Lemma e_sets : zlen (l_glyph_sets l) = zlen (b_setsOrder b) /\ section_start l 14 - section_start l 13 = 1 + 2 * zlen (b_setsOrder b) + total (map (set_bytes 2) (l_glyph_sets l)).
  Proof.
    assert (L : zlen (l_glyph_sets l) = zlen (b_setsOrder b)) by (symmetry; apply (F2_zlen _ _ _ (ds_glyph_sets _ _ DS))). split; [exact L|].
    rewrite (e_size 13 _ eq_refl). unfold sets_bytes. rewrite zlen_cons, zlen_indexed, zlen_map. change (Z.of_nat 2) with 2. lia.
  Qed.
  Lemma e_utf8_rules : zlen (l_utf8_rules l) = zlen (b_utf8Rules b) /\ zlen (l_utf8_rules l) < 65536 /\ 8 * zlen (l_utf8_rules l) <= total (map (rule_bytes 4) (l_utf8_rules l)) < 16777216 /\
    section_start l 15 - section_start l 14 = 2 + 3 * zlen (l_utf8_rules l) + total (map (rule_bytes 4) (l_utf8_rules l)).
  Proof.
    destruct (bt_utf8_rules _ _ _ BT) as (R1 & R2 & R3). pose proof (F2_zlen _ _ _ R1) as E1. pose proof (e_small 14 _ eq_refl) as X2. rewrite (e_size 14 _ eq_refl). unfold rules_bytes in *.
    fold (total (map (rule_bytes 4) (l_utf8_rules l))) in R3. rewrite zlen_app, zlen_indexed, zlen_map, zlen_le_digits in *. change (Z.of_nat 2) with 2 in *. change (Z.of_nat 3) with 3 in *.
    pose proof (rules_size 4 _ _ _ _ R1) as T. pose proof (zlen_nonneg (l_utf8_rules l)). unfold u32 in R3. rewrite Z.mod_small in R3 by lia. lia.
  Qed.
  Lemma e_glyph_rules : zlen (l_glyph_rules l) = zlen (b_glyphRules b) /\ zlen (l_glyph_rules l) < 65536 /\ 8 * zlen (l_glyph_rules l) <= total (map (rule_bytes 2) (l_glyph_rules l)) < 16777216 /\
    section_start l 16 - section_start l 15 = 2 + 3 * zlen (l_glyph_rules l) + total (map (rule_bytes 2) (l_glyph_rules l)).
  Proof.
    destruct (bt_glyph_rules _ _ _ BT) as (R1 & R2 & R3). pose proof (F2_zlen _ _ _ R1) as E1. pose proof (e_small 15 _ eq_refl) as X2. rewrite (e_size 15 _ eq_refl). unfold rules_bytes in *.
    fold (total (map (rule_bytes 2) (l_glyph_rules l))) in R3. rewrite zlen_app, zlen_indexed, zlen_map, zlen_le_digits in *. change (Z.of_nat 2) with 2 in *. change (Z.of_nat 3) with 3 in *.
    pose proof (rules_size 2 _ _ _ _ R1) as T. pose proof (zlen_nonneg (l_glyph_rules l)). unfold u32 in R3. rewrite Z.mod_small in R3 by lia. lia.
  Qed.
  Lemma e_horz : zlen (l_horz l) <= zlen (b_order b) * zlen (b_order b) /\ zlen (l_horz l) < 16777216.
  Proof.
    destruct (bt_horz _ _ _ BT) as [K1 K2]. split; [|lia]. destruct (ds_horz _ _ DS) as (_ & p & P1 & P2).
    assert (ND : NoDup (map fst p)) by (apply (Permutation_NoDup (Permutation_map fst (Permutation_sym P1))); exact (proj1 (fn_kerning _ FN))).
    assert (IN : incl (map fst p) (list_prod (b_order b) (b_order b))).
    { intros x I1. apply in_map_iff in I1. destruct I1 as (y & <- & I1). clear - P2 I1. induction P2 as [|x y' p' l' X _ IH]; [destruct I1|]. destruct I1 as [<-|I1]; [|exact (IH I1)].
      destruct y' as [[prev curr] v]. destruct X as (X1 & X2 & _). apply zget_in in X1, X2. destruct x as [[u w] k]. cbn [fst snd] in *. apply in_prod; assumption. }
    pose proof (NoDup_incl_length ND IN) as L. rewrite prod_length, map_length, (Permutation_length P1) in L. rewrite K1. unfold zlen. lia.
  Qed.

  Lemma built_encodable : encodable l.
  Proof.
    pose proof e_glyphs as LG. pose proof (bt_glyphs _ _ _ BT) as LG2. unfold MaxGlyphs in LG2. assert (CO2 : total (map snd (b_dyes b)) + total (map snd (b_palettes b)) <= 255) by exact (proj2 CO).
    pose proof (total_nonneg (map snd (b_dyes b))). pose proof (total_nonneg (map snd (b_palettes b))).
    assert (C1 : total (map snd (b_dyes b)) < 256) by lia. assert (C2 : total (map snd (b_palettes b)) < 256) by lia. unfold total in *.
    constructor.
    - exact (built_bytes o b l FN CT SO WO DS BT).
    - exact (bt_size _ _ _ BT).
    - rewrite (ds_header _ _ DS). destruct (fn_header _ FN) as (M1 & M2 & (D1 & D1' & D1'') & (D2 & D2' & D2'') & (D3 & D3' & D3'') & _).
      destruct (bt_header _ _ _ BT) as (L1 & L2 & L3 & L4). unfold header_in_range, date_in_range, ymd. cbn.
      unfold byte in *. repeat split; try lia; try assumption.
    - split; [rewrite (ds_metrics _ _ DS); cbn; lia|]. split; [lia|]. pose proof (of_masks _ _ OF) as M. cbn [font_of OffsetToWords OffsetToGlyphMasks] in M. rewrite e_masks in M. unfold total in *. lia.
    - rewrite (ds_dyes _ _ DS), (ds_palettes _ _ DS). destruct (of_names _ _ OF) as [N1 N2]. split; [exact C1|]. split; [exact N1|]. split; [exact C2|exact N2].
    - pose proof e_names. pose proof (bt_names _ _ _ BT). unfold total in *. lia.
    - pose proof e_words. pose proof (bt_words _ _ _ BT). unfold total in *. lia.
    - pose proof e_settings. unfold total in *. lia.
    - destruct e_switches as (-> & X & Y). destruct e_settings as (Z1 & _ & _ & _ & Z2). pose proof (zlen_nonneg (b_switches b)). pose proof (zlen_nonneg (b_settings b)). assert (zlen (b_settings b) * zlen (b_switches b) <= 255 * 254) by (apply Z.mul_le_mono_nonneg; lia). unfold total in *. lia.
    - pose proof e_mapping. unfold total in *. lia.
    - rewrite (bt_conditions _ _ _ BT). split; reflexivity.
    - rewrite (ds_utf8_sets _ _ DS). split; reflexivity.
    - destruct (bt_sets _ _ _ BT) as (L1 & L2 & _). unfold total. lia.
    - pose proof e_utf8_rules. unfold total in *. lia.
    - pose proof e_glyph_rules. unfold total in *. lia.
    - rewrite (bt_vert _ _ _ BT), zlen_nil. pose proof e_horz. lia.
  Qed.
  Lemma built_exact (E : Z -> Prop) : E (bh_ID (b_header b)) -> (parser_accepts E l <-> exact_limits b (font_of l)).
  Proof.
    intros HE. pose proof e_glyphs as LG. pose proof (bt_glyphs _ _ _ BT) as LG2. pose proof e_masks as EM. rewrite total_glyphs, e_vert, LG in EM.
    destruct e_sets as [ES1 ES2]. destruct e_utf8_rules as (EU1 & EU2 & EU3 & EU4). destruct e_glyph_rules as (EG1 & EG2 & EG3 & EG4).
    destruct e_settings as (ET1 & ET2 & ET3 & ET4 & ET5). destruct e_switches as (EW1 & EW2 & EW3).
    split.
    - intros [A1 A2 A3 A4 A5 A6 A7 A8 A9 A10 A11 A12 A13 A14 A15 A16]. rewrite (ds_header _ _ DS) in A1. cbn in A1. rewrite (ds_metrics _ _ DS) in A2. cbn in A2. rewrite (ds_dyes _ _ DS) in A3, A4. rewrite (ds_palettes _ _ DS) in A4.
      constructor; cbn [font_of OffsetToWords OffsetToGlyphMasks OffsetToUtf8Rewrites OffsetToRewriteGlyphSets OffsetToGlyphRewrites OffsetToHorzKernings].
      + tauto.
      + tauto.
      + exact A3.
      + tauto.
      + rewrite EM. destruct (bm_vert (b_metrics b)); lia.
      + lia.
      + rewrite EW1 in A9. lia.
      + destruct A13 as [A13|A13]; [left|right; lia]. rewrite A13, zlen_nil in ES1. apply zlen_0_nil. lia.
      + lia.
      + lia.
    - intros [A1 A2 A3 A4 A5 A6 A7 A8 A9 A10]. cbn [font_of OffsetToWords OffsetToGlyphMasks OffsetToUtf8Rewrites OffsetToRewriteGlyphSets OffsetToGlyphRewrites OffsetToHorzKernings] in *.
      constructor.
      + rewrite (ds_header _ _ DS). cbn. auto.
      + split; [intros X; rewrite X, zlen_nil in LG; lia|]. rewrite (ds_metrics _ _ DS). cbn. pose proof (bt_metrics _ _ _ BT) as M. unfold GetMetricsStatus in M. cbv zeta in M.
        destruct (Z.eqb_spec (bm_ascent (b_metrics b)) 0); [discriminate|]. destruct (Z.leb_spec (bm_ascent (b_metrics b)) (bm_extraAscent (b_metrics b))); [discriminate|].
        split; [assumption|]. split; [lia|exact A2].
      + rewrite (ds_dyes _ _ DS). exact A3.
      + rewrite (ds_dyes _ _ DS), (ds_palettes _ _ DS). destruct A4 as [A4 A4']. split; [exact A4|]. split; [exact A4'|]. exact (proj2 CO).
      + pose proof e_names. pose proof (bt_names _ _ _ BT). lia.
      + rewrite EM in A5. destruct (bm_vert (b_metrics b)); lia.
      + pose proof e_words. lia.
      + lia.
      + rewrite EW1, <- ET1. lia.
      + apply e_mapping.
      + rewrite (bt_conditions _ _ _ BT). discriminate.
      + rewrite (ds_utf8_sets _ _ DS). left. reflexivity.
      + destruct A8 as [A8|A8]; [left|right; lia]. rewrite A8, zlen_nil in ES1. apply zlen_0_nil. exact ES1.
      + lia.
      + lia.
      + rewrite (bt_vert _ _ _ BT), zlen_nil, LG. pose proof e_horz. split; [tauto|]. apply Z.square_nonneg.
  Qed.
End Exact.

Lemma built_parses_exact id date ops o sort b' f i :
  date_typed date -> 0 <= id < 2 ^ 64 -> entropy_too_low id = false -> Forall op_typed ops ->
  perm_order o -> (forall l, Permutation l (sort l)) ->
  Build o sort (history id date ops) = (b', Ok f) -> offsets_fit b' f -> delivers i (Data f) ->
  parse_payload i = Ok f /\ exact_limits b' f \/ (exists m, parse_payload i = Err m) /\ ~ exact_limits b' f.
Proof.
  intros HD HI HE HT HO HS HB HF HV.
  pose proof (limits_history id date ops HT) as (_ & (_ & L & _) & _).
  destruct (build_ok o sort _ b' f HO HS (fine_history id date ops HD HT) L HB) as (_ & l & D1 & -> & D2).
  assert (E : b' = history id date (ops ++ [OBuild o sort])).
  { unfold history. rewrite fold_left_app. cbn [fold_left bstep]. fold (history id date ops). rewrite HB. reflexivity. }
  assert (HT' : Forall op_typed (ops ++ [OBuild o sort])) by (apply Forall_app; split; [exact HT|]; constructor; [exact HO|constructor]).
  pose proof (limits_history id date _ HT') as (L1 & L2 & L3). pose proof (id_history id date (ops ++ [OBuild o sort])) as EI.
  pose proof (fine_history id date _ HD HT') as FN. pose proof (colors_typed_history id date _ HT') as CT. pose proof (cased_history id date _ HT') as CA. rewrite <- E in *.
  pose proof (built_encodable o b' l FN CT L1 L2 L3 CA ltac:(rewrite EI; exact HI) D1 D2 HF) as EN.
  pose proof (built_exact o b' l FN L1 L2 L3 CA ltac:(rewrite EI; exact HI) D1 D2 HF (fun id => entropy_too_low id = false) ltac:(rewrite EI; exact HE)) as EX.
  destruct (parser_exact l i EN HV) as [[X1 X2]|[X1 X2]]; [left|right]; (split; [exact X1|]); rewrite <- EX; exact X2.
Qed.
