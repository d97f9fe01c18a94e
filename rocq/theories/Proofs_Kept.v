(** What survives building: glyphs, header, metrics, colors, settings, switches and glyph sets. *)
From Coq Require Import Permutation.
From Verif Require Import Base BaseFacts Spec_Helpers Model_Helpers Proofs_Helpers Spec_Names Model_Names Proofs_Names Model_Date
  Model_Mask Spec_Mask Model_Font Model_Words Model_Rewrites Model_Parse Spec_Format Proofs_Format Spec_Layout Spec_LayoutFont Proofs_Layout
  Proofs_Font Proofs_Font2 Proofs_Font3 Proofs_Font4 Proofs_Rewrites
  Model_Builder Spec_Builder Spec_Survive Proofs_Builder Proofs_Build Proofs_Build2 Proofs_Build3 Proofs_Build4 Proofs_Build5 Proofs_Build6
  Proofs_Build7 Proofs_Build8 Spec_Accept Proofs_Accept Proofs_Build9 Proofs_Order Proofs_Survive Spec_Props Spec_Kept.

Section Kept.
  Variables (id : Z) (date : Date) (ops : list bop) (o : order) (sort : list Model_Mask.fragment -> list Model_Mask.fragment) (b' : builder) (f : Font).
  Hypothesis HD : date_typed date.
  Hypothesis HT : Forall op_typed ops.
  Hypothesis HO : perm_order o.
  Hypothesis HS : forall l, Permutation l (sort l).
  Let b := history id date ops.
  Hypothesis HB : Build o sort b = (b', Ok f).

  (** Build changes nothing but the colors *)
  Lemma kept_builder : b_dyes b' = kept_dyes b /\ b_palettes b' = b_palettes b /\ b_header b' = b_header b /\ b_metrics b' = b_metrics b /\
    b_order b' = b_order b /\ b_glyphs b' = b_glyphs b /\ b_settings b' = b_settings b /\ b_switches b' = b_switches b /\
    b_glyphSets b' = b_glyphSets b /\ b_setsOrder b' = b_setsOrder b.
  Proof.
    destruct (built_history id date ops o sort b' f HD HT HO HS HB) as (l & _ & _ & BT & _).
    pose proof (bt_colors _ _ _ BT) as C. clear BT. pose proof (build_builder o sort b) as E. rewrite HB in E. cbn [fst] in E.
    destruct E as [->|(E1 & E2 & ->)].
    - split; [|repeat split; reflexivity]. unfold kept_dyes. destruct (b_dyes b); [|reflexivity]. destruct (b_palettes b); [|reflexivity].
      rewrite !zlen_nil in C. lia.
    - unfold kept_dyes. rewrite E1, E2. repeat split; reflexivity.
  Qed.

  Lemma kept_metrics_range l : fine b' -> describes b' l -> built o b' l -> metrics_in_range (l_metrics l).
  Proof.
    intros FN DS BT. pose proof (bt_glyphs _ _ _ BT) as G. unfold MaxGlyphs in G. rewrite (ds_metrics _ _ DS). split; [cbn; lia|].
    unfold metrics_bytes. cbn [m_glyphs m_vert m_mono m_ascent m_extra_ascent m_descent m_extra_descent m_uppercase m_midline m_horz_spacing m_vert_spacing m_line_gap m_vert_width m_vert_gap].
    apply Forall_app. split; [apply le_digits_bytes|]. constructor; [unfold byte; destruct (bm_vert _); lia|]. exact (fn_metrics _ FN).
  Qed.

  (** ** C68 *)
  Lemma kept_metrics :
    glyphs_Count f = Ok (zlen (b_order b)) /\ metrics_HasVertLayout (Data f) (OffsetToMetrics f) = Ok (vertical b) /\
    (forall k, match k with
    | MonoWidth => metrics_MonoWidth | Ascent => metrics_Ascent | ExtraAscent => metrics_ExtraAscent | Descent => metrics_Descent
    | ExtraDescent => metrics_ExtraDescent | MidlineAscent => metrics_MidlineAscent | UppercaseAscent => metrics_UppercaseAscent
    | HorzInterspacing => metrics_HorzInterspacing | VertInterspacing => metrics_VertInterspacing | LineGap => metrics_LineGap
    | VertLineWidth => metrics_VertLineWidth | VertLineGap => metrics_VertLineGap
    end (Data f) (OffsetToMetrics f) = Ok (metric_of k b)).
  Proof.
    destruct (built_history id date ops o sort b' f HD HT HO HS HB) as (l & E & DS & BT & FN & _).
    destruct kept_builder as (_ & _ & _ & EM & EO & _).
    pose proof (kept_metrics_range l FN DS BT) as R. pose proof (metrics_stored _ _ _ (st_metrics l) R) as M. rewrite <- E in M.
    rewrite (ds_metrics _ _ DS) in M. cbn [m_glyphs m_vert m_mono m_ascent m_extra_ascent m_descent m_extra_descent m_uppercase m_midline m_horz_spacing m_vert_spacing m_line_gap m_vert_width m_vert_gap] in M.
    rewrite EM, EO in M. unfold vertical, metric_of, glyphs_Count. decompose [and] M. repeat split; try assumption. intros []; assumption.
  Qed.
  Lemma kept_header_range l : uint64 id -> fine b' -> describes b' l -> built o b' l -> header_in_range (l_header l).
  Proof.
    intros HI FN DS BT. rewrite (ds_header _ _ DS).
    destruct (fn_header _ FN) as (M1 & M2 & (D1 & D1' & D1'') & (D2 & D2' & D2'') & (D3 & D3' & D3'') & _).
    destruct (bt_header _ _ _ BT) as (L1 & L2 & L3 & L4). destruct kept_builder as (_ & _ & EH & _).
    assert (HI' : 0 <= bh_ID (b_header b') < 2 ^ 64) by (rewrite EH; unfold b; rewrite id_history; exact HI).
    unfold header_in_range, date_in_range, ymd. cbn. unfold byte in *. repeat split; try lia; try assumption.
  Qed.
  Lemma kept_header : uint64 id ->
    header_FormatVersion (Data f) = Ok 2 /\ header_ID (Data f) = Ok id /\
    header_VersionMajor (Data f) = Ok (fst (version_of b)) /\ header_VersionMinor (Data f) = Ok (snd (version_of b)) /\
    header_FirstVersionDate (Data f) = Ok (date_of First b) /\ header_MajorVersionDate (Data f) = Ok (date_of Major b) /\
    header_MinorVersionDate (Data f) = Ok (date_of Minor b) /\
    header_Name (Data f) = Ok (text_of TName b) /\
    (30 + zlen (text_of TName b) <= 255 -> header_Family (Data f) = Ok (text_of TFamily b)) /\
    (31 + zlen (text_of TName b) + zlen (text_of TFamily b) <= 255 -> header_Author (Data f) = Ok (text_of TAuthor b)) /\
    (33 + zlen (text_of TName b) + zlen (text_of TFamily b) + zlen (text_of TAuthor b) <= 255 -> header_About (Data f) = Ok (text_of TAbout b)).
  Proof.
    intros HI. destruct (built_history id date ops o sort b' f HD HT HO HS HB) as (l & E & DS & BT & FN & _).
    pose proof (kept_header_range l HI FN DS BT) as R. destruct kept_builder as (_ & _ & EH & _).
    assert (S : exists post, Data f = header_bytes (l_header l) ++ post /\ post <> []).
    { rewrite E. cbn [font_of Data]. unfold font_bytes, sections. cbn [concat]. eexists. split; [reflexivity|]. unfold metrics_bytes. intros X. discriminate. }
    destruct S as (post & S1 & S2). pose proof (header_fixed _ _ _ S1 R) as F. pose proof (header_strings _ _ _ S1 R S2) as G.
    rewrite (ds_header _ _ DS) in F, G. unfold ymd in F. cbn [h_format h_id h_major h_minor h_first_date h_major_date h_minor_date h_name h_family h_author h_about] in F, G.
    rewrite EH in F, G. replace (bh_ID (b_header b)) with id in F by (symmetry; apply id_history).
    unfold version_of, date_of, text_of. cbn [fst snd].
    assert (DT : forall d, mkDate (Year d) (Month d) (Day d) = d) by (intros []; reflexivity). rewrite !DT in F.
    destruct F as (F1 & F2 & F3 & F4 & F5 & F6 & F7). destruct G as (G1 & G2 & G3 & G4). auto 12.
  Qed.

  (** ** C67 *)
  Lemma kept_glyph_bytes l : describes b' l -> f = font_of l -> masks_fit b f -> zlen (concat (map (glyph_bytes (m_vert (l_metrics l))) (l_glyphs l))) < 16777216.
  Proof.
    intros DS E M. unfold masks_fit in M. rewrite E in M. cbn [font_of OffsetToWords OffsetToGlyphMasks] in M. rewrite (section_size l 5 _ eq_refl) in M.
    unfold glyph_masks_bytes in M. rewrite zlen_indexed, zlen_map in M. destruct kept_builder as (_ & _ & _ & _ & EO & _).
    pose proof (F2_zlen _ _ _ (ds_glyphs _ _ DS)) as L. rewrite EO in L. change (Z.of_nat 3) with 3 in M. unfold total in M.
    lia.
  Qed.
  Lemma kept_glyph i uid : masks_fit b f -> zget (b_order b) i = Ok uid ->
    exists gd, glyph_at b uid = Some gd /\
      glyphs_Advance f i = Ok (gp_Advance (gd_Placement gd)) /\
      glyphs_Placement f i = Ok (kept_placement b (gd_Placement gd)) /\
      exists r, glyphs_RasterizeMask f i = Ok r /\ same_pixels r (gd_Mask gd).
  Proof.
    intros MF HI. destruct (built_history id date ops o sort b' f HD HT HO HS HB) as (l & E & DS & BT & FN & _).
    pose proof (kept_metrics_range l FN DS BT) as R. pose proof (kept_glyph_bytes l DS E MF) as LB.
    destruct kept_builder as (_ & _ & _ & EM & EO & EG & _). rewrite <- EO in HI.
    destruct (Forall2_zget _ _ _ i (ds_glyphs _ _ DS)) as [(u & g & X1 & X2 & X3)|[X1 _]]; [|congruence].
    assert (u = uid) by congruence. subst u. destruct X3 as (gd & I1 & P & D). pose proof (zget_ok_range _ _ _ HI) as RI.
    destruct (fn_glyphs _ FN) as (ND & _ & _). exists gd. split; [unfold glyph_at; rewrite <- EG; apply (m_get_unique _ Z.eqb_eq); assumption|].
    assert (LN : m_glyphs (l_metrics l) = zlen (l_glyphs l)) by (rewrite (ds_metrics _ _ DS); exact (F2_zlen _ _ _ (ds_glyphs _ _ DS))).
    assert (S1 : stored (Data f) (OffsetToMetrics f) (metrics_bytes (l_metrics l))) by (rewrite E; apply st_metrics).
    assert (S2 : stored (Data f) (OffsetToGlyphMasks f) (glyph_masks_bytes (m_vert (l_metrics l)) (l_glyphs l))) by (rewrite E; apply st_masks).
    split; [|split].
    - rewrite (advance_of f _ _ S1 R LN S2 LB) by lia. rewrite X2. cbn [bind]. rewrite P. reflexivity.
    - rewrite (placement_of f _ _ S1 R LN S2 LB) by lia. rewrite X2. cbn [bind]. rewrite P. unfold kept_placement, vertical. rewrite <- EM.
      rewrite (ds_metrics _ _ DS). cbn [m_vert pl_advance pl_top pl_bottom pl_center]. destruct (bm_vert _); [|reflexivity]. destruct (gd_Placement gd). reflexivity.
    - rewrite (rasterize_glyph f _ _ S1 R LN S2 LB i g X2). destruct D as [_ [(D1 & D2)|(m' & D1 & D2)]]; rewrite D1; eexists; (split; [reflexivity|]); intros x y; [symmetry; apply D2|apply D2].
  Qed.
  Lemma kept_beyond i : masks_fit b f -> zlen (b_order b) <= i -> glyphs_Advance f i = Panic /\ glyphs_Placement f i = Panic.
  Proof.
    intros MF HI. destruct (built_history id date ops o sort b' f HD HT HO HS HB) as (l & E & DS & BT & FN & _).
    pose proof (kept_metrics_range l FN DS BT) as R. pose proof (kept_glyph_bytes l DS E MF) as LB.
    destruct kept_builder as (_ & _ & _ & EM & EO & EG & _). rewrite <- EO in HI. pose proof (zlen_nonneg (b_order b')).
    pose proof (F2_zlen _ _ _ (ds_glyphs _ _ DS)) as LL.
    assert (LN : m_glyphs (l_metrics l) = zlen (l_glyphs l)) by (rewrite (ds_metrics _ _ DS); exact LL).
    assert (S1 : stored (Data f) (OffsetToMetrics f) (metrics_bytes (l_metrics l))) by (rewrite E; apply st_metrics).
    assert (S2 : stored (Data f) (OffsetToGlyphMasks f) (glyph_masks_bytes (m_vert (l_metrics l)) (l_glyphs l))) by (rewrite E; apply st_masks).
    rewrite (advance_of f _ _ S1 R LN S2 LB), (placement_of f _ _ S1 R LN S2 LB) by lia. rewrite zget_panic by lia. split; reflexivity.
  Qed.
  Lemma kept_name q : exists r, glyphs_FindIndexByName f q = Ok r /\
    (r = GlyphMissing \/ exists uid gd, zget (b_order b) r = Ok uid /\ glyph_at b uid = Some gd /\ gd_Name gd = q).
  Proof.
    destruct (built_history id date ops o sort b' f HD HT HO HS HB) as (l & E & DS & BT & FN & _).
    destruct kept_builder as (_ & _ & _ & EM & EO & EG & _). pose proof (bt_names _ _ _ BT) as LN. pose proof (bt_glyphs _ _ _ BT) as LG. unfold MaxGlyphs in LG.
    destruct (fn_glyphs _ FN) as (ND & _ & GF). destruct (ds_names _ _ DS) as [_ N].
    assert (T : 0 * zlen (l_names l) <= total (map fst (l_names l)) <= 32 * zlen (l_names l)).
    { apply total_map. intros [name i] I1. apply N in I1. destruct I1 as (NE & uid & gd & _ & I1 & <-).
      destruct (GF uid gd I1) as (_ & _ & [X|[X _]] & _); [rewrite X in NE; contradiction|]. apply loose_len in X. cbn [fst]. lia. }
    unfold total in T. assert (S : stored (Data f) (OffsetToGlyphNames f) (glyph_names_bytes (l_names l))) by (rewrite E; apply st_names).
    destruct (find_sound f (l_names l) S) with (q := q) as (r & F & [F2|F2]); [lia|lia| | |].
    - apply Forall_forall. intros [name i] I1. apply N in I1. destruct I1 as (_ & uid & gd & I1 & _). apply zget_ok_range in I1. cbn [snd]. lia.
    - exists r. auto.
    - exists r. split; [exact F|]. right. apply N in F2. destruct F2 as (_ & uid & gd & I1 & I2 & I3). exists uid, gd. rewrite <- EO. split; [exact I1|].
      split; [unfold glyph_at; rewrite <- EG; apply (m_get_unique _ Z.eqb_eq); assumption|exact I3].
  Qed.

  (** ** C69 *)
  Lemma kept_colors_range : whole_sections b -> colors_in_range (kept_dyes b) (b_palettes b).
  Proof.
    intros (W1 & W2 & W3 & W4). destruct (limits_history id date ops HT) as ((_ & C) & _). fold b in C. unfold color_count in C.
    unfold kept_dyes. destruct (b_dyes b) as [|d ds] eqn:E1; [destruct (b_palettes b) as [|p ps] eqn:E2|].
    - split; [|split]; [split; [constructor; [split; discriminate|constructor]|reflexivity]|split; [constructor|reflexivity]|discriminate].
    - split; [|split]; [split; [constructor|reflexivity]|split; assumption|exact C].
    - split; [|split]; [split; assumption|split; assumption|exact C].
  Qed.
  Lemma kept_colors_stored : exists l, f = font_of l /\ l_dyes l = kept_dyes b /\ l_palettes l = b_palettes b.
  Proof.
    destruct (built_history id date ops o sort b' f HD HT HO HS HB) as (l & E & DS & _). destruct kept_builder as (E1 & E2 & _).
    exists l. split; [exact E|]. rewrite <- E1, <- E2. split; [exact (ds_dyes _ _ DS)|exact (ds_palettes _ _ DS)].
  Qed.
  Lemma kept_colors : whole_sections b ->
    color_EachDye f = Ok (numbered 0 (map fst (kept_dyes b))) /\ color_EachPalette f = Ok (numbered 0 (map fst (b_palettes b))) /\
    (forall key, 0 <= key -> color_EachDyeAlpha f key = (do d <- zget (kept_dyes b) key; Ok (snd d)) /\
       color_EachPaletteColor f key = (do p <- zget (b_palettes b) key; Ok (snd p))) /\
    color_Count f = Ok (zlen (concat (map snd (kept_dyes b))) + zlen (concat (map snd (b_palettes b)))) /\
    color_GoColorPalette f = Ok ((0, 0, 0, 0) :: map (fun a => (a, a, a, a)) (concat (map snd (kept_dyes b))) ++ concat (map snd (b_palettes b))).
  Proof.
    intros W. destruct kept_colors_stored as (l & E & E1 & E2). pose proof (kept_colors_range W) as R.
    pose proof (st_dyes l) as S1. pose proof (st_palettes l) as S2. rewrite <- E in S1, S2. rewrite E1 in S1. rewrite E2 in S2.
    split; [eapply each_dye; eassumption|]. split; [eapply each_palette; eassumption|]. split; [|split; [eapply colors_count; eassumption|eapply go_palette; eassumption]].
    intros key Hk. rewrite <- !zget_map. split; [eapply each_dye_alpha; eassumption|eapply each_palette_color; eassumption].
  Qed.

  (** ** C70 *)
  Lemma kept_settings_stored : exists l, f = font_of l /\ map fst (l_settings l) = map fst (b_settings b) /\ 
    Forall2 (fun s t => zlen (snd s) = zlen (snd t)) (b_settings b) (l_settings l) /\
    zlen (concat (map fst (l_settings l))) < 65536 /\ zlen (concat (map snd (l_settings l))) < 65536 /\
    Forall (fun s => zlen (snd s) <= 255) (l_settings l) /\ Forall (fun s => fst s <> []) (l_settings l) /\
    l_switches l = b_switches b /\ zlen (concat (b_switches b)) < 65536.
  Proof.
    destruct (built_history id date ops o sort b' f HD HT HO HS HB) as (l & E & DS & BT & FN & (_ & S1 & S2) & (W1 & W2) & _).
    destruct kept_builder as (_ & _ & _ & _ & _ & _ & ES & EW & _). destruct (ds_settings _ _ DS) as (words & _ & S3). rewrite ES in *. rewrite EW in *.
    pose proof (F2_zlen _ _ _ S3) as LS. rewrite Forall_forall in S2. exists l. split; [exact E|].
    assert (T1 : 1 * zlen (l_settings l) <= total (map fst (l_settings l)) <= 32 * zlen (l_settings l)).
    { apply total_map. intros t I1. destruct (Forall2_in_r _ _ _ _ S3 I1) as (s & I2 & -> & _). apply loose_len, S2, I2. }
    assert (T2 : 0 * zlen (l_settings l) <= total (map snd (l_settings l)) <= 255 * zlen (l_settings l)).
    { apply total_map. intros t I1. destruct (Forall2_in_r _ _ _ _ S3 I1) as (s & I2 & _ & X). rewrite <- (F2_zlen _ _ _ X). pose proof (zlen_nonneg (snd s)). destruct (S2 s I2) as (_ & _ & Y). lia. }
    unfold total in T1, T2.
    split. { clear - S3. induction S3 as [|s t ss ts X _ IH]; [reflexivity|]. cbn [map]. destruct X as [X _]. congruence. }
    split. { clear - S3. induction S3 as [|s t ss ts X _ IH]; constructor; [|exact IH]. destruct X as [_ X]. exact (F2_zlen _ _ _ X). }
    split; [lia|]. split; [lia|].
    split. { apply Forall_forall. intros t I1. destruct (Forall2_in_r _ _ _ _ S3 I1) as (s & I2 & _ & X). rewrite <- (F2_zlen _ _ _ X). apply S2, I2. }
    split. { apply Forall_forall. intros t I1 E0. destruct (Forall2_in_r _ _ _ _ S3 I1) as (s & I2 & X & _). destruct (S2 s I2) as (Y & _). apply loose_len in Y. rewrite <- X, E0, zlen_nil in Y. lia. }
    split; [rewrite (ds_switches _ _ DS); exact EW|].
    assert (T : 1 * zlen (b_switches b) <= total (b_switches b) <= zlen (b_settings b) * zlen (b_switches b)).
    { apply bytes_total_le. eapply Forall_impl; [|exact W2]. intros sw (N1 & N2 & N3). split; [destruct sw; [contradiction|]; rewrite zlen_cons; pose proof (zlen_nonneg sw); lia|].
      assert (I1 : incl sw (zseq (zlen (b_settings b)))) by (intros x I1; apply in_zseq; rewrite Forall_forall in N3; exact (N3 x I1)).
      pose proof (NoDup_incl_length N2 I1) as L. apply inj_le in L. fold (zlen sw) in L. fold (zlen (zseq (zlen (b_settings b)))) in L.
      rewrite zlen_zseq in L by apply zlen_nonneg. exact L. }
    unfold total in T. pose proof (zlen_nonneg (b_switches b)). nia.
  Qed.
  Lemma kept_settings key : 0 <= key ->
    settings_Count f = Ok (zlen (b_settings b)) /\ settings_Each f = Ok (numbered 0 (map fst (b_settings b))) /\
    settings_GetNumOptions f key = match zget (b_settings b) key with Ok s => if zlen (snd s) =? 0 then Panic else Ok (zlen (snd s)) | _ => Ok 0 end.
  Proof.
    intros Hk. destruct kept_settings_stored as (l & E & E1 & F & L1 & L2 & L3 & L4 & _).
    pose proof (st_setting_names l) as S1. pose proof (st_setting_defs l) as S2. rewrite <- E in S1, S2.
    split; [rewrite (setting_count f _ S1), (F2_zlen _ _ _ F); reflexivity|]. split; [rewrite (settings_each f _ S1 L4 L1), E1; reflexivity|].
    rewrite (num_options f _ S1 S2 L2 L3 key Hk). destruct (Forall2_zget _ _ _ key F) as [(s & t & -> & -> & ->)|[-> ->]]; reflexivity.
  Qed.
  Lemma kept_switch settings key ks vs os : zget (b_switches b) key = Ok ks ->
    radices b ks os -> Forall (fun n => 0 < n) os -> Forall2 (fun k v => zget settings k = Ok v) ks vs ->
    mapping_EvaluateSwitch f key settings = Ok (position vs os mod 256).
  Proof.
    intros HK HR HP HV. destruct kept_settings_stored as (l & E & E1 & F & L1 & L2 & L3 & L4 & EW & LW).
    pose proof (st_switches l) as S1. rewrite <- E, EW in S1.
    destruct (limits_history id date ops HT) as (_ & _ & (_ & W)). fold b in W. rewrite Forall_forall in W. destruct (W ks (zget_in _ _ _ HK)) as (N1 & _ & _).
    apply (evaluate_switch f settings (b_switches b) key ks vs os S1 LW HK N1 HV).
    unfold radices in HR. clear - HR HP HD HT HO HS HB. induction HR as [|k n ks os (s & X1 & X2) _ IH]; constructor; [|apply IH; exact (Forall_inv_tail HP)].
    pose proof (zget_ok_range _ _ _ X1) as R. destruct (kept_settings k) as (_ & _ & ->); [lia|]. rewrite X1, X2. pose proof (Forall_inv HP) as P0. cbv beta in P0. destruct (Z.eqb_spec n 0); [lia|reflexivity].
  Qed.

  (** ** C71 *)
  Lemma kept_sets_stored : exists l, f = font_of l /\ glyph_sets_described b (l_glyph_sets l) /\ zlen (concat (map (set_bytes 2) (l_glyph_sets l))) < 65536 /\ zlen (b_order b) < 65536.
  Proof.
    destruct (built_history id date ops o sort b' f HD HT HO HS HB) as (l & E & DS & BT & _).
    destruct kept_builder as (_ & _ & _ & _ & EO & _ & _ & _ & EG & ES). exists l. split; [exact E|].
    pose proof (ds_glyph_sets _ _ DS) as G. unfold glyph_sets_described, set_described, indexed_as in *. rewrite EO, EG, ES in G. split; [exact G|].
    destruct (bt_sets _ _ _ BT) as (_ & L & _). pose proof (bt_glyphs _ _ _ BT) as LG. rewrite EO in LG. unfold MaxGlyphs in LG. lia.
  Qed.
  Lemma kept_sets i : 0 <= i ->
    rewrites_NumGlyphSets f = Ok (zlen (b_setsOrder b)) /\
    match zget (b_setsOrder b) i with
    | Ok uid => exists d s rs xs, rewrites_GetGlyphSet f i = Ok d /\ In (uid, s) (b_glyphSets b) /\ kept_ranges b s rs /\ kept_singles b s xs /\
        (forall T E (each : T -> Z * Z -> T * option E) t, glyph_set_EachRange each d t = Ok (each_of each t rs)) /\
        (forall T E (each : T -> Z -> T * option E) t, glyph_set_EachListGlyph each d t = Ok (each_of each t xs))
    | _ => rewrites_GetGlyphSet f i = Panic
    end.
  Proof.
    intros Hi. destruct kept_sets_stored as (l & E & G & L & LO). pose proof (st_glyph_sets l) as S. rewrite <- E in S. unfold glyph_sets_described in G.
    split. { unfold sets_bytes in S. apply stored_cons in S. destruct S as [S _]. rewrite (F2_zlen _ _ _ G). exact S. }
    assert (GET : rewrites_GetGlyphSet f i = do s <- zget (l_glyph_sets l) i; Ok (set_bytes 2 s)).
    { rewrite <- zget_map. unfold rewrites_GetGlyphSet. apply set_located; rewrite ?zlen_map; auto. apply Forall_map, Forall_forall. intros s _. discriminate. }
    destruct (Forall2_zget _ _ _ i G) as [(uid & t & -> & X2 & s & I1 & D1 & D2)|[-> X]]; [|rewrite GET, X; reflexivity].
    rewrite X2 in GET. cbn [bind] in GET. exists (set_bytes 2 t), s, (map (fun r => (fst r, fst r + snd r)) (set_ranges t)), (set_elements t).
    split; [exact GET|]. split; [exact I1|].
    assert (R : Forall (fun r => 0 <= fst r < 65536 /\ byte (snd r) /\ fst r + snd r < 65536) (set_ranges t)).
    { apply Forall_forall. intros r I2. destruct (Forall2_in_r _ _ _ _ D1 I2) as (q & _ & Y1 & Y2 & Y3). apply zget_ok_range in Y1, Y2. split; [lia|]. split; [exact Y3|]. lia. }
    assert (R2 : set_in_range 65536 t).
    { split; [eapply Forall_impl; [|exact R]; cbv beta; tauto|]. apply Forall_forall. intros x I2. destruct (Forall2_in_r _ _ _ _ D2 I2) as (q & _ & Y1). apply zget_ok_range in Y1. lia. }
    split. { unfold kept_ranges. clear - D1. induction D1 as [|r x rs xs X _ IH]; constructor; [|exact IH]. cbn [fst snd]. tauto. }
    split; [exact D2|]. split; intros T Er each t0.
    - rewrite (glyph_ranges each t t0 R2). do 2 f_equal. apply map_ext_in. intros r Hr. f_equal. rewrite Forall_forall in R. specialize (R r Hr). cbv beta in R. unfold byte in R.
      unfold u16. apply Z.mod_small. lia.
    - exact (glyph_elements each t t0 R2).
  Qed.
End Kept.
