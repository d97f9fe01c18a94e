(** What Validate says about built fonts, without any limit on their size. *)
From Coq Require Import Permutation.
From Verif Require Import Base BaseFacts Spec_Helpers Model_Helpers Proofs_Helpers Spec_Names Model_Names Proofs_Names Model_Date
  Model_Mask Spec_Mask Model_Font Model_Words Model_Rewrites Model_Parse Spec_Format Proofs_Format Spec_Layout Spec_LayoutFont Proofs_Layout
  Proofs_Font Proofs_Font2 Proofs_Font3 Proofs_Font4 Proofs_Rewrites
  Model_Builder Spec_Builder Spec_Survive Proofs_Builder Proofs_Build Proofs_Build2 Proofs_Build3 Proofs_Build4 Proofs_Build5 Proofs_Build6
  Proofs_Build7 Proofs_Build8 Spec_Accept Proofs_Accept Proofs_Build9 Proofs_Order Proofs_Survive Spec_Props Spec_Kept Proofs_Kept Model_Export.

Section Valid.
  Variables (id : Z) (date : Date) (ops : list bop) (o : order) (sort : list Model_Mask.fragment -> list Model_Mask.fragment) (b' : builder) (f : Font).
  Hypothesis HD : date_typed date.
  Hypothesis HI : uint64 id.
  Hypothesis HT : Forall op_typed ops.
  Hypothesis HO : perm_order o.
  Hypothesis HS : forall l, Permutation l (sort l).
  Let b := history id date ops.
  Hypothesis HB : Build o sort b = (b', Ok f).

  Lemma valid_header : header_Validate (Data f) =
    if entropy_too_low id then Err "font ID entropy too low" else
    if zlen (text_of TName b) =? 0 then Err "font name can't be empty" else Ok tt.
  Proof.
    destruct (kept_header id date ops o sort b' f HD HT HO HS HB HI) as (V & I & _ & _ & _ & _ & _ & N & _).
    unfold header_Validate. rewrite V. cbn [bind]. change (negb (2 =? FormatVersion)) with false. cbv iota. rewrite I. cbn [bind].
    destruct (entropy_too_low id); [reflexivity|]. rewrite N. cbn [bind]. reflexivity.
  Qed.
  Lemma valid_metrics : metrics_Validate (Data f) (OffsetToMetrics f) =
    if negb (metric_of VertInterspacing b =? 0) && negb (vertical b) then Err "VertInterspacing set without HasVertLayout" else Ok tt.
  Proof.
    destruct (kept_metrics id date ops o sort b' f HD HT HO HS HB) as (G & VL & M). unfold glyphs_Count in G.
    pose proof (M Ascent) as A. pose proof (M ExtraAscent) as X. pose proof (M VertInterspacing) as W. cbn beta iota in A, X, W.
    destruct (built_history id date ops o sort b' f HD HT HO HS HB) as (l & E & DS & BT & FN & _).
    destruct (kept_builder id date ops o sort b' f HD HT HO HS HB) as (_ & _ & _ & EM & EO & _).
    pose proof (bt_glyphs _ _ _ BT) as C. pose proof (bt_metrics _ _ _ BT) as T. unfold GetMetricsStatus in T. rewrite EM in T. rewrite EO in C. fold b in T, C.
    destruct (Z.eqb_spec (bm_ascent (b_metrics b)) 0) as [|NA]; [discriminate|].
    destruct (Z.leb_spec (bm_ascent (b_metrics b)) (bm_extraAscent (b_metrics b))) as [|LX]; [discriminate|]. clear T.
    assert (B2 : zget (Data f) (OffsetToMetrics f + 2) = Ok (if m_vert (l_metrics l) then 1 else 0)).
    { pose proof (st_metrics l) as S0. rewrite <- E in S0. unfold metrics_bytes in S0. apply stored_app in S0. destruct S0 as [_ S0].
      rewrite zlen_le_digits in S0. change (Z.of_nat 2) with 2 in S0. apply stored_cons in S0. exact (proj1 S0). }
    unfold metrics_Validate. rewrite G. cbn [bind]. fold b in C |- *. destruct (Z.eqb_spec (zlen (b_order b)) 0) as [Z0|_]; [lia|].
    rewrite B2. cbn [bind].
    replace (negb (((if m_vert (l_metrics l) then 1 else 0) =? 0) || ((if m_vert (l_metrics l) then 1 else 0) =? 1))) with false
      by (destruct (m_vert (l_metrics l)); reflexivity).
    rewrite A. cbn [bind]. unfold metric_of at 1. fold b. destruct (Z.eqb_spec (bm_ascent (b_metrics b)) 0) as [Z0|_]; [contradiction|].
    rewrite X. cbn [bind]. unfold metric_of at 1 2. fold b.
    destruct (bm_extraAscent (b_metrics b) >? bm_ascent (b_metrics b)) eqn:K; [lia|].
    rewrite W. cbn [bind]. rewrite VL. cbn [bind]. reflexivity.
  Qed.
  Lemma valid_glyphs : glyphs_Validate (Data f) (OffsetToMetrics f) (OffsetToGlyphNames f) = Ok tt.
  Proof.
    destruct (kept_metrics id date ops o sort b' f HD HT HO HS HB) as (G & _). unfold glyphs_Count in G.
    destruct (built_history id date ops o sort b' f HD HT HO HS HB) as (l & E & DS & BT & FN & _).
    destruct (kept_builder id date ops o sort b' f HD HT HO HS HB) as (_ & _ & _ & EM & EO & _).
    pose proof (bt_glyphs _ _ _ BT) as C. pose proof (bt_names _ _ _ BT) as N. unfold MaxGlyphs in C. rewrite EO in C, N.
    pose proof (st_names l) as S0. rewrite <- E in S0. unfold glyph_names_bytes in S0. apply stored_app in S0. destruct S0 as [S0 _].
    unfold glyphs_Validate. rewrite G. fold b in C, N |- *.
    assert (X : (do x <- zslice (Data f) (OffsetToGlyphNames f) (OffsetToGlyphNames f + 2); DecodeUint16LE x) = Ok (zlen (l_names l)))
      by (apply (slice16 _ _ _ _ S0); [lia|]; pose proof (zlen_nonneg (l_names l)); lia).
    destruct (zslice (Data f) (OffsetToGlyphNames f) (OffsetToGlyphNames f + 2)) as [x| | |]; try discriminate. cbn [bind] in X |- *.
    rewrite X. cbn [bind]. destruct (zlen (l_names l) >? zlen (b_order b)) eqn:K; [lia|reflexivity].
  Qed.
  Lemma valid_colors : color_Validate (Data f) (OffsetToDyes f) (OffsetToPalettes f) = Ok tt.
  Proof.
    destruct (built_history id date ops o sort b' f HD HT HO HS HB) as (l & E & DS & BT & FN & _).
    pose proof (bt_colors _ _ _ BT) as C.
    pose proof (st_dyes l) as S1. pose proof (st_palettes l) as S2. rewrite <- E in S1, S2. unfold dyes_bytes in S1. unfold palettes_bytes in S2.
    apply stored_cons in S1. apply stored_cons in S2. destruct S1 as [S1 _]. destruct S2 as [S2 _].
    rewrite (ds_dyes _ _ DS) in S1. rewrite (ds_palettes _ _ DS) in S2.
    unfold color_Validate. rewrite S1. cbn [bind]. rewrite S2. cbn [bind].
    assert (K : (zlen (b_dyes b') + zlen (b_palettes b') >? 255) = false) by lia.
    match goal with |- (if ?c then _ else _) = _ => change c with (zlen (b_dyes b') + zlen (b_palettes b') >? 255) end. rewrite K. reflexivity.
  Qed.

  Lemma valid_built : font_Validate f FmtDefault =
    if entropy_too_low id then Err "font ID entropy too low" else
    if zlen (text_of TName b) =? 0 then Err "font name can't be empty" else
    if negb (metric_of VertInterspacing b =? 0) && negb (vertical b) then Err "VertInterspacing set without HasVertLayout" else Ok tt.
  Proof.
    unfold font_Validate. rewrite valid_header, valid_metrics, valid_glyphs, valid_colors. unfold strict, FmtDefault.
    destruct (entropy_too_low id); [reflexivity|]. destruct (zlen (text_of TName b) =? 0); [reflexivity|].
    destruct (negb (metric_of VertInterspacing b =? 0) && negb (vertical b)); reflexivity.
  Qed.
  Lemma valid_exact :
    (font_Validate f FmtDefault = Ok tt <-> entropy_too_low id = false /\ text_of TName b <> [] /\ (vertical b = false -> metric_of VertInterspacing b = 0)) /\
    (font_Validate f FmtDefault = Ok tt \/ exists m, font_Validate f FmtDefault = Err m).
  Proof.
    rewrite valid_built.
    assert (N : (zlen (text_of TName b) =? 0) = true <-> text_of TName b = []).
    { destruct (text_of TName b) as [|x t]; [rewrite zlen_nil; split; reflexivity|]. rewrite zlen_cons. pose proof (zlen_nonneg t). split; [intros; lia|discriminate]. }
    destruct (entropy_too_low id).
    { split; [split; [discriminate|intros (X & _); discriminate]|right; eexists; reflexivity]. }
    destruct (zlen (text_of TName b) =? 0).
    { split; [split; [discriminate|intros (_ & X & _); destruct (X (proj1 N eq_refl))]|right; eexists; reflexivity]. }
    assert (N' : text_of TName b <> []) by (intros X; apply N in X; discriminate).
    destruct (vertical b); destruct (Z.eqb_spec (metric_of VertInterspacing b) 0) as [V|V]; cbn [negb andb].
    1, 2, 3: split; [split; [intros _; split; [reflexivity|split; [exact N'|intros; first [assumption|discriminate]]]|reflexivity]|left; reflexivity].
    split; [split; [discriminate|intros (_ & _ & X); destruct (V (X eq_refl))]|right; eexists; reflexivity].
  Qed.
End Valid.
