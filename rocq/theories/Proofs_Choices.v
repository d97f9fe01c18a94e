(** What the choices of mapped groups are, in any order of the glyphs. *)
From Coq Require Import Permutation.
From Verif Require Import Base BaseFacts Spec_Helpers Model_Helpers Proofs_Helpers Spec_Names Model_Names Proofs_Names Model_Date
  Model_Mask Spec_Mask Model_Font Model_Words Model_Parse Spec_Format Proofs_Format Spec_Layout Spec_LayoutFont Proofs_Layout
  Proofs_Font Proofs_Font2 Proofs_Font3 Proofs_Font4
  Model_Builder Spec_Builder Spec_Survive Proofs_Builder Proofs_Build Proofs_Build2 Proofs_Build3 Proofs_Build4 Proofs_Build5 Proofs_Build6
  Proofs_Build7 Proofs_Build8 Spec_Accept Proofs_Accept Proofs_Build9 Proofs_Order Proofs_Survive Spec_Choices.

Lemma group_sorted b f gg c g : NoDup (b_order b) -> zlen (b_order b) <= MaxGlyphs -> byte (mg_Flags c) ->
  group_found f gg g -> group_described b c g -> group_in_range g /\ sorted_choices b f gg (mg_Glyphs c).
Proof.
  intros ND LB FL GF DC. destruct (group_shown b f gg c g ND LB FL GF DC) as [GR _]. split; [exact GR|].
  destruct DC as (D1 & D2 & (idxs & D3 & D4) & D5 & D6).
  assert (L : zlen (group_glyphs g) = zlen (mg_Glyphs c)) by (unfold zlen; rewrite (Permutation_length D4), <- (Forall2_len _ _ _ D3); reflexivity).
  exists (group_glyphs g). split; [exact D2|]. split; [exists idxs; split; [exact D3|exact D4]|].
  split; [|split; [|split]].
  - intros first C i x Hx. pose proof (zget_ok_range _ _ _ Hx) as R. apply (select_in f gg g GF GR); [|lia].
    destruct (Z.eq_dec (zlen (mg_Glyphs c)) 1) as [E|E]; [assert (i = 0) by lia; subst i; destruct g; exact Hx|].
    assert (E1 : g = GRange (mg_Flags c) first (zlen (mg_Glyphs c))) by (apply D6; [lia|exact C]). rewrite E1 in *. exact Hx.
  - intros NC i x I0 Hx. apply (select_in f gg g GF GR); [|exact I0]. destruct g as [fl gl|fl fi si]; [exact Hx|]. exfalso.
    apply (NC fi). cbn [group_glyphs] in *. rewrite <- L. rewrite zlen_map. destruct (Z_le_dec 0 si); [now rewrite zlen_zseq by lia|].
    unfold zseq. replace (Z.to_nat si) with 0%nat by lia. reflexivity.
  - intros E. rewrite (group_flags_single f gg g GF GR) by lia. f_equal. unfold group_flags. rewrite L, E. reflexivity.
  - intros E. apply (group_flags_low f gg g GF GR). lia.
Qed.
Lemma range_size fl fi si n : zlen (group_glyphs (GRange fl fi si)) = n -> 0 < n -> si = n.
Proof.
  cbn [group_glyphs]. rewrite zlen_map. intros L P. destruct (Z_le_dec 0 si); [rewrite zlen_zseq in L by lia; exact L|].
  unfold zseq in L. replace (Z.to_nat si) with 0%nat in L by lia. change (zlen (map Z.of_nat (seq 0 0))) with 0 in L. lia.
Qed.
Lemma indices_unique (order : list Z) : NoDup order -> forall uids a b, Forall2 (fun uid i => zget order i = Ok uid) uids a ->
  Forall2 (fun uid i => zget order i = Ok uid) uids b -> a = b.
Proof.
  intros ND uids. induction uids as [|u us IH]; intros a b A B; inversion A; inversion B; subst; [reflexivity|].
  f_equal; [eapply nodup_zget; eassumption|auto].
Qed.
Lemma over_skippable b c g : NoDup (b_order b) -> group_described b c g -> stepped_over b (mg_Glyphs c) -> skippable g.
Proof.
  intros ND (D1 & D2 & (idxs & D3 & D4) & D5 & D6) Q.
  assert (L : zlen (group_glyphs g) = zlen (mg_Glyphs c)) by (unfold zlen; rewrite (Permutation_length D4), <- (Forall2_len _ _ _ D3); reflexivity).
  destruct g as [fl gl|fl fi si]; cbn [skippable].
  - cbn [group_glyphs] in L. destruct Q as [Q|[[Q _]|[Q (first & idxs' & T1 & T2)]]]; [lia..|].
    rewrite (indices_unique _ ND _ _ _ T1 D3) in T2.
    assert (E : GList fl gl = GRange (mg_Flags c) first (zlen (mg_Glyphs c))); [|discriminate].
    apply D6; [lia|]. apply ordered_unique; [exact D2|apply ordered_map_zseq|]. rewrite D4. exact T2.
  - pose proof (range_size _ _ _ _ L ltac:(lia)) as E. destruct Q as [Q|[[_ Q]|[Q _]]]; [left; lia| |right; lia].
    exfalso. apply Q. exists fi, idxs. split; [exact D3|]. rewrite <- D4, <- E. reflexivity.
Qed.
Lemma choices_survive id date ops o sort b' f cp settings :
  date_typed date -> Forall op_typed ops -> perm_order o -> (forall l, Permutation l (sort l)) ->
  Build o sort (history id date ops) = (b', Ok f) -> mapping_fits b' f -> in_int32 cp ->
  match last_mapping id date ops cp with
  | None => mapping_Utf8 f cp settings = Ok None
  | Some (k, groups) => forall case uids,
      (k < 254 -> mapping_EvaluateSwitch f k settings = Ok case /\ Forall (stepped_over b') (firstn (Z.to_nat case) groups)) ->
      (254 <= k -> case = 0) -> zget groups case = Ok uids ->
      exists gg, mapping_Utf8 f cp settings = Ok (Some gg) /\ sorted_choices b' f gg uids
  end.
Proof.
  intros HD HT HO HS HB PL Hcp. destruct (built_history _ _ _ _ _ _ _ HD HT HO HS HB) as (l & -> & DS & BT & FN & _ & _ & E & HT').
  rewrite <- (last_mapping_built id date ops o sort), last_mapping_get, <- E.
  destruct (ds_mapping _ _ DS) as (M1 & m & M2 & M3). destruct (fn_mapping _ FN) as [N1 N2]. destruct (fn_glyphs _ FN) as (G1 & G2 & _).
  assert (ND : NoDup (b_order b')) by (rewrite G2; exact G1). pose proof (bt_mapping _ _ _ BT) as LM. unfold MaxGlyphs in LM.
  assert (K : Forall (fun x => 0 <= fst x < 2147483648) (l_mapping l)).
  { apply Forall_forall. intros y I1. destruct (Forall2_in_r _ _ _ _ M3 I1) as ([c e] & I2 & E1 & _). cbn [fst] in E1. rewrite <- E1. apply (Permutation_in _ M2) in I2. destruct (N2 _ _ I2) as [X _]. lia. }
  assert (SZ : zlen (concat (map (fun x => entry_bytes (snd x)) (l_mapping l))) < 16777216).
  { unfold mapping_fits in PL. cbn [font_of OffsetToRewriteConditions OffsetToMapping] in PL. rewrite (section_size l 10 _ eq_refl) in PL. unfold mapping_bytes in PL.
    rewrite !zlen_app, zlen_indexed, zlen_map, zlen_le_digits in PL. rewrite (zlen_concat_fixed _ 4) in PL by reflexivity.
    assert (E1 : zlen (b_mapping b') = zlen (l_mapping l)) by (rewrite <- (F2_zlen _ _ _ M3); unfold zlen; rewrite (Permutation_length M2); reflexivity).
    rewrite E1 in PL. unfold total in PL. change (Z.of_nat 2) with 2 in PL. change (Z.of_nat 3) with 3 in PL. lia. }
  pose proof (st_mapping l) as ST. assert (LM2 : zlen (l_mapping l) < 65536) by lia.
  destruct (m_get Z.eqb (b_mapping b') cp) as [e|] eqn:ME; cbn [option_map].
  - unfold target_of. intros case uids H1 H2 H3. apply (m_get_in _ Z.eqb_eq) in ME. destruct (N2 _ _ ME) as (_ & NS & NF).
    pose proof (Permutation_in _ (Permutation_sym M2) ME) as I1. destruct (Forall2_in_l _ _ _ _ M3 I1) as ([cp' y] & I2 & E1 & X). cbn [fst snd] in *. subst cp'.
    pose proof (proj2 (bt_glyphs _ _ _ BT)) as LG. destruct y as [i|g|k gs]; cbn [entry_described] in X.
    + destruct X as (X1 & uid & fl & X2 & X3). rewrite X1, X2 in *. cbn [map mg_Glyphs] in H3. rewrite H2 in H3 by lia. inversion H3. subst uids.
      destruct (lookup_glyph _ _ ST M1 K LM2 SZ cp i settings I2) as (gg & A & B & C & _). exists gg. split; [exact A|].
      assert (RI : 0 <= i < 65536) by (apply zget_ok_range in X3; unfold MaxGlyphs in LG; lia).
      destruct (direct_size (font_of l) gg B) as [DS1 DS2]. exists [i]. split; [split; [easy|exact I]|].
      split; [exists [i]; split; [constructor; [exact X3|constructor]|reflexivity]|].
      assert (SE : group_Select (font_of l) gg 0 = Ok i) by (rewrite (direct_select _ _ i) by assumption; reflexivity).
      split; [intros _ _ j x HJ; pose proof (zget_ok_range _ _ _ HJ) as RJ; change (zlen [i]) with 1 in RJ; assert (j = 0) by lia; subst j; inversion HJ; subst x; exact SE|].
      split; [intros _ j x J0 HJ; pose proof (zget_ok_range _ _ _ HJ) as RJ; change (zlen [i]) with 1 in RJ; assert (j = 0) by lia; subst j; inversion HJ; subst x; exact SE|].
      split; [intros _; exact DS2|]. change (zlen [uid]) with 1. lia.
    + destruct X as (X1 & c & X2 & X3 & X4). rewrite X1, X2 in *. cbn [map] in H3. rewrite H2 in H3 by lia. inversion H3. subst uids.
      destruct (lookup_group _ _ ST M1 K LM2 SZ cp g settings I2) as (gg & A & B & _). exists gg. split; [exact A|].
      apply (group_sorted b' _ gg c g ND LG (Forall_inv NF) B X4).
    + destruct X as (X1 & X2 & X3 & X4). rewrite X1 in *. unfold byte in NS. destruct H1 as [H1 H4]; [lia|].
      rewrite zget_map in H3. apply bind_ok in H3 as (c & H3 & H5). inversion H5. subst uids.
      destruct (Forall2_zget _ _ _ case X4) as [(c' & g & Y1 & Y2 & Y3)|[Y1 _]]; [|congruence]. assert (c' = c) by congruence. subst c'.
      assert (GR : Forall group_in_range gs).
      { apply Forall_forall. intros g' I3. destruct (Forall2_in_r _ _ _ _ X4 I3) as (c' & I4 & X5). rewrite Forall_forall in NF. specialize (NF _ I4).
        destruct X5 as (D1 & D2 & (idxs & D3 & D4) & D5 & D6).
        assert (L : zlen (group_glyphs g') = zlen (mg_Glyphs c')) by (unfold zlen; rewrite (Permutation_length D4), <- (Forall2_len _ _ _ D3); reflexivity).
        split; [lia|]. split.
        - destruct (Z.eq_dec (zlen (mg_Glyphs c')) 1) as [E3|E3]; [|rewrite (D5 E3); exact NF]. apply byte_flags_one; lia.
        - apply Forall_forall. intros i I5. apply (Permutation_in _ D4) in I5. destruct (Forall2_in_r _ _ _ _ D3 I5) as (u & _ & Y). apply zget_ok_range in Y. unfold MaxGlyphs in LG. lia. }
      destruct (lookup_switch _ _ ST M1 K LM2 SZ cp k gs settings case g I2 ltac:(lia) H1 Y2 GR) as (gg & A & B & _).
      { rewrite <- map_firstn in H4 || rewrite firstn_map in H4. revert H4. clear - X4 ND. generalize (Z.to_nat case). intros n. revert n. induction X4 as [|c g cs gs X X4 IH]; intros n H4; [destruct n; constructor|].
        destruct n; [constructor|]. cbn [firstn map] in *. pose proof (Forall_inv H4) as Q. apply Forall_inv_tail in H4. constructor; [|apply IH; exact H4].
        exact (over_skippable b' c g ND X Q). }
      exists gg. split; [exact A|]. rewrite Forall_forall in NF. apply (group_sorted b' _ gg c g ND LG (NF _ (zget_in _ _ _ Y1)) B Y3).
  - apply (lookup_missing _ _ ST M1 K LM2); [exact Hcp|]. intros e I1. apply (proj1 (m_get_none _ Z.eqb_eq _ _) ME).
    destruct (Forall2_in_r _ _ _ _ M3 I1) as ([c e'] & I2 & E1 & _). cbn [fst] in E1. subst c. apply (Permutation_in _ M2) in I2. apply in_map_iff. exists (cp, e'). auto.
Qed.
