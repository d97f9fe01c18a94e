(** Which bytes the second half of the choices of mapped groups that are not consecutive is read from. *)
From Coq Require Import Permutation.
From Verif Require Import Base BaseFacts Spec_Helpers Model_Helpers Proofs_Helpers Spec_Names Model_Names Proofs_Names Model_Date
  Model_Mask Spec_Mask Model_Font Model_Words Model_Parse Spec_Format Proofs_Format Spec_Layout Spec_LayoutFont Proofs_Layout
  Proofs_Font Proofs_Font2 Proofs_Font3 Proofs_Font4
  Model_Builder Spec_Builder Spec_Survive Proofs_Builder Proofs_Build Proofs_Build2 Proofs_Build3 Proofs_Build4 Proofs_Build5 Proofs_Build6
  Proofs_Build7 Proofs_Build8 Spec_Accept Proofs_Accept Proofs_Build9 Proofs_Order Proofs_Survive Spec_Choices.
From Verif Require Import Proofs_Choices Proofs_Beyond.

Lemma apart_list b c g : NoDup (b_order b) -> group_described b c g -> 1 < zlen (mg_Glyphs c) -> ~ together b (mg_Glyphs c) ->
  exists fl l, g = GList fl l /\ zlen l = zlen (mg_Glyphs c).
Proof.
  intros ND (D1 & D2 & (idxs & D3 & D4) & D5 & D6) G NT.
  assert (L : zlen (group_glyphs g) = zlen (mg_Glyphs c)) by (unfold zlen; rewrite (Permutation_length D4), <- (Forall2_len _ _ _ D3); reflexivity).
  destruct g as [fl gl|fl fi si]; [exists fl, gl; auto|]. exfalso. apply NT. pose proof (range_size _ _ _ _ L ltac:(lia)) as E.
  exists fi, idxs. split; [exact D3|]. rewrite <- D4, <- E. reflexivity.
Qed.
Lemma behind_survive id date ops o sort b' f cp settings k groups case uids :
  date_typed date -> Forall op_typed ops -> perm_order o -> (forall l, Permutation l (sort l)) ->
  Build o sort (history id date ops) = (b', Ok f) -> mapping_fits b' f -> bytes (Data f) ->
  last_mapping id date ops cp = Some (k, groups) ->
  (k < 254 -> mapping_EvaluateSwitch f k settings = Ok case /\ Forall (stepped_over b') (firstn (Z.to_nat case) groups)) ->
  (254 <= k -> case = 0) -> zget groups case = Ok uids -> 1 < zlen uids -> ~ together b' uids ->
  exists gg, mapping_Utf8 f cp settings = Ok (Some gg) /\ forall i, zlen uids <= 2 * i < 2 * zlen uids ->
    group_Select f gg i = match skipn (Z.to_nat (4 * i - 2 * zlen uids)) (skipn (Z.to_nat (gg_offset gg + (2 + 2 * zlen uids))) (Data f)) with
                          | a :: b :: _ => Ok (a + 256 * b) | _ => Panic end.
Proof.
  intros HD HT HO HS HB PL BD. destruct (built_history _ _ _ _ _ _ _ HD HT HO HS HB) as (l & -> & DS & BT & FN & _ & _ & E & HT').
  rewrite <- (last_mapping_built id date ops o sort), last_mapping_get, <- E.
  destruct (ds_mapping _ _ DS) as (M1 & m & M2 & M3). destruct (fn_mapping _ FN) as [N1 N2]. destruct (fn_glyphs _ FN) as (G1 & G2 & _).
  assert (ND : NoDup (b_order b')) by (rewrite G2; exact G1). pose proof (bt_mapping _ _ _ BT) as LM. unfold MaxGlyphs in LM.
  assert (K : Forall (fun x => 0 <= fst x < 2147483648) (l_mapping l)).
  { apply Forall_forall. intros y I1. destruct (Forall2_in_r _ _ _ _ M3 I1) as ([c e] & I2 & E1 & _). cbn [fst] in E1. rewrite <- E1. apply (Permutation_in _ M2) in I2. destruct (N2 _ _ I2) as [X _]. lia. }
  assert (SZ : zlen (concat (map (fun x => entry_bytes (snd x)) (l_mapping l))) < 16777216).
  { unfold mapping_fits in PL. cbn [font_of OffsetToRewriteConditions OffsetToMapping] in PL. rewrite (section_size l 10 _ eq_refl) in PL. unfold mapping_bytes in PL.
    rewrite !zlen_app, zlen_indexed, zlen_map, zlen_le_digits in PL. rewrite (zlen_concat_fixed _ 4) in PL by reflexivity.
    assert (E1 : zlen (b_mapping b') = zlen (l_mapping l)) by (rewrite <- (F2_zlen _ _ _ M3); unfold zlen; rewrite (Permutation_length M2); reflexivity).
    rewrite E1 in PL. unfold total in PL. change (Z.of_nat 2) with 2 in PL. change (Z.of_nat 3) with 3 in PL. lia. }
  pose proof (st_mapping l) as ST. assert (LM2 : zlen (l_mapping l) < 65536) by lia.
  destruct (m_get Z.eqb (b_mapping b') cp) as [e|] eqn:ME; cbn [option_map]; [|discriminate].
  unfold target_of. intros T H1 H2 H3 GT NT. apply (m_get_in _ Z.eqb_eq) in ME. destruct (N2 _ _ ME) as (_ & NS & NF).
  assert (Tk : k = me_Switch e) by congruence. assert (Tg : groups = map mg_Glyphs (me_Cases e)) by congruence. clear T. subst k groups.
  pose proof (Permutation_in _ (Permutation_sym M2) ME) as I1. destruct (Forall2_in_l _ _ _ _ M3 I1) as ([cp' y] & I2 & E1 & X). cbn [fst snd] in *. subst cp'.
  pose proof (proj2 (bt_glyphs _ _ _ BT)) as LG.
  assert (FIN : forall gg c g, mapping_Utf8 (font_of l) cp settings = Ok (Some gg) -> mg_Glyphs c = uids -> byte (mg_Flags c) ->
    group_found (font_of l) gg g -> group_described b' c g ->
    exists gg, mapping_Utf8 (font_of l) cp settings = Ok (Some gg) /\ forall i, zlen uids <= 2 * i < 2 * zlen uids ->
      group_Select (font_of l) gg i = match skipn (Z.to_nat (4 * i - 2 * zlen uids)) (skipn (Z.to_nat (gg_offset gg + (2 + 2 * zlen uids))) (Data (font_of l))) with
                            | a :: b :: _ => Ok (a + 256 * b) | _ => Panic end).
  { intros gg c g A <- FL B D. exists gg. split; [exact A|]. destruct (group_sorted b' _ gg c g ND LG FL B D) as [GR _].
    destruct (apart_list b' c g ND D GT NT) as (fl & gl & -> & EL). intros i Hi. rewrite <- EL in *. apply (select_beyond _ _ fl gl i BD B GR); lia. }
  destruct y as [i|g|k gs]; cbn [entry_described] in X.
    + exfalso. destruct X as (X1 & uid & fl & X2 & X3). rewrite X1, X2 in *. cbn [map mg_Glyphs] in H3. rewrite H2 in H3 by lia. inversion H3. subst uids. change (zlen [uid]) with 1 in GT. lia.
    + destruct X as (X1 & c & X2 & X3 & X4). rewrite X1, X2 in *. cbn [map] in H3. rewrite H2 in H3 by lia. assert (EU : mg_Glyphs c = uids) by (change (Ok (mg_Glyphs c) = Ok uids) in H3; congruence).
      destruct (lookup_group _ _ ST M1 K LM2 SZ cp g settings I2) as (gg & A & B & _). apply (FIN gg c g A EU (Forall_inv NF) B X4).
    + destruct X as (X1 & X2 & X3 & X4). rewrite X1 in *. unfold byte in NS. destruct H1 as [H1 H4]; [lia|].
      rewrite zget_map in H3. apply bind_ok in H3 as (c & H3 & H5). assert (EU : mg_Glyphs c = uids) by congruence.
      destruct (Forall2_zget _ _ _ case X4) as [(c' & g & Y1 & Y2 & Y3)|[Y1 _]]; [|congruence]. assert (c' = c) by congruence. subst c'.
      assert (GR : Forall group_in_range gs).
      { apply Forall_forall. intros g' I3. destruct (Forall2_in_r _ _ _ _ X4 I3) as (c' & I4 & X5). rewrite Forall_forall in NF. specialize (NF _ I4).
        destruct X5 as (D1 & D2 & (idxs & D3 & D4) & D5 & D6).
        assert (L : zlen (group_glyphs g') = zlen (mg_Glyphs c')) by (unfold zlen; rewrite (Permutation_length D4), <- (Forall2_len _ _ _ D3); reflexivity).
        split; [lia|]. split.
        - destruct (Z.eq_dec (zlen (mg_Glyphs c')) 1) as [E3|E3]; [|rewrite (D5 E3); exact NF]. apply byte_flags_one; lia.
        - apply Forall_forall. intros i I5. apply (Permutation_in _ D4) in I5. destruct (Forall2_in_r _ _ _ _ D3 I5) as (u & _ & Y). apply zget_ok_range in Y. unfold MaxGlyphs in LG. lia. }
      destruct (lookup_switch _ _ ST M1 K LM2 SZ cp k gs settings case g I2 ltac:(lia) H1 Y2 GR) as (gg & A & B & _).
      { rewrite <- map_firstn in H4 || rewrite firstn_map in H4. revert H4. clear - X4 ND. generalize (Z.to_nat case). intros n. revert n. induction X4 as [|c g cs gs X X4 IH]; intros n H4; [destruct n; constructor|].
        destruct n; [constructor|]. cbn [firstn map] in *. pose proof (Forall_inv H4) as Q. apply Forall_inv_tail in H4. constructor; [|apply IH; exact H4].
        exact (over_skippable b' c g ND X Q). }
      rewrite Forall_forall in NF. apply (FIN gg c g A EU (NF _ (zget_in _ _ _ Y1)) B Y3).
Qed.
