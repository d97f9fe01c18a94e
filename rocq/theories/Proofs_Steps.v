(** What the lookup of mapped code points with a switch leads to in built fonts, for any groups. *)
From Coq Require Import Permutation.
From Verif Require Import Base BaseFacts Spec_Helpers Model_Helpers Proofs_Helpers Spec_Names Model_Names Proofs_Names Model_Date
  Model_Mask Spec_Mask Model_Font Model_Words Model_Parse Spec_Format Proofs_Format Spec_Layout Spec_LayoutFont Proofs_Layout
  Proofs_Font Proofs_Font2 Proofs_Font3 Proofs_Font4
  Model_Builder Spec_Builder Spec_Survive Proofs_Builder Proofs_Build Proofs_Build2 Proofs_Build3 Proofs_Build4 Proofs_Build5 Proofs_Build6
  Proofs_Build7 Proofs_Build8 Spec_Accept Proofs_Accept Proofs_Build9 Proofs_Order Proofs_Survive Spec_Choices.
From Verif Require Import Spec_Choices Proofs_Choices Spec_Walk Proofs_Walk Spec_Steps.

Lemma described_stored b c g : NoDup (b_order b) -> group_described b c g -> stored_as b (mg_Glyphs c) g.
Proof.
  intros ND (D1 & D2 & (idxs & D3 & D4) & D5 & D6). split; [exact D2|]. split; [exists idxs; auto|]. intros G.
  assert (L : zlen (group_glyphs g) = zlen (mg_Glyphs c)) by (unfold zlen; rewrite (Permutation_length D4), <- (Forall2_len _ _ _ D3); reflexivity).
  split.
  - intros (first & idxs' & T1 & T2). rewrite (indices_unique _ ND _ _ _ T1 D3) in T2.
    rewrite (D6 first G); [exact I|]. apply ordered_unique; [exact D2|apply ordered_map_zseq|]. rewrite D4. exact T2.
  - destruct g as [fl gl|fl fi si]; [easy|]. intros _. pose proof (range_size _ _ _ _ L ltac:(lia)) as E.
    exists fi, idxs. split; [exact D3|]. rewrite <- D4, <- E. reflexivity.
Qed.
Lemma walk_survives id date ops o sort b' f cp settings k groups case :
  date_typed date -> Forall op_typed ops -> perm_order o -> (forall l, Permutation l (sort l)) ->
  Build o sort (history id date ops) = (b', Ok f) -> mapping_fits b' f ->
  last_mapping id date ops cp = Some (k, groups) -> k < 254 -> groups <> [] -> mapping_EvaluateSwitch f k settings = Ok case ->
  exists gs, Forall2 (stored_as b') groups gs /\
    match walk (Z.to_nat case) (concat (map group_bytes gs)) with
    | Some r => exists gg, mapping_Utf8 f cp settings = Ok (Some gg) /\ gg_directMapping gg = false /\ gg_switchType gg = k /\ gg_caseBranch gg = case /\
        r <> [] /\ stored (Data f) (gg_offset gg) r
    | None => mapping_Utf8 f cp settings = Panic
    end.
Proof.
  intros HD HT HO HS HB PL. destruct (built_history _ _ _ _ _ _ _ HD HT HO HS HB) as (l & -> & DS & BT & FN & _ & _ & E & HT').
  rewrite <- (last_mapping_built id date ops o sort), last_mapping_get, <- E.
  destruct (ds_mapping _ _ DS) as (M1 & m & M2 & M3). destruct (fn_mapping _ FN) as [N1 N2]. destruct (fn_glyphs _ FN) as (G1 & G2 & _).
  assert (ND : NoDup (b_order b')) by (rewrite G2; exact G1). pose proof (bt_mapping _ _ _ BT) as LM. unfold MaxGlyphs in LM.
  assert (K : Forall (fun x => 0 <= fst x < 2147483648) (l_mapping l)).
  { apply Forall_forall. intros y I1. destruct (Forall2_in_r _ _ _ _ M3 I1) as ([c e] & I2 & E1 & _). cbn [fst] in E1. rewrite <- E1. apply (Permutation_in _ M2) in I2. destruct (N2 _ _ I2) as [X _]. lia. }
  assert (SZ : zlen (concat (map (fun x => entry_bytes (snd x)) (l_mapping l))) < 16777216).
  { unfold mapping_fits in PL. cbn [font_of OffsetToRewriteConditions OffsetToMapping] in PL. rewrite (section_size l 10 _ eq_refl) in PL. unfold mapping_bytes in PL.
    rewrite !zlen_app, zlen_indexed, zlen_map, zlen_le_digits in PL. rewrite (zlen_concat_fixed _ 4) in PL by reflexivity.
    assert (E1 : zlen (b_mapping b') = zlen (l_mapping l)) by (rewrite <- (F2_zlen _ _ _ M3); unfold zlen; rewrite (Permutation_length M2); reflexivity).
    rewrite E1 in PL. unfold total in PL. change (Z.of_nat 2) with 2 in PL. change (Z.of_nat 3) with 3 in PL. lia. }
  pose proof (st_mapping l) as ST. assert (LM2 : zlen (l_mapping l) < 65536) by lia.
  destruct (m_get Z.eqb (b_mapping b') cp) as [e|] eqn:ME; cbn [option_map]; [|discriminate].
  unfold target_of. intros T KL NE EV. apply (m_get_in _ Z.eqb_eq) in ME. destruct (N2 _ _ ME) as (_ & NS & NF).
  pose proof (Permutation_in _ (Permutation_sym M2) ME) as I1. destruct (Forall2_in_l _ _ _ _ M3 I1) as ([cp' y] & I2 & E1 & X). cbn [fst snd] in *. subst cp'.
  destruct y as [i|g|k' gs]; cbn [entry_described] in X.
  - exfalso. destruct X as (X1 & uid & fl & X2 & X3). rewrite X1 in T. inversion T. lia.
  - exfalso. destruct X as (X1 & c & X2 & X3). rewrite X1 in T. inversion T. lia.
  - destruct X as (X1 & X2 & X3 & X4). rewrite X1 in T, NS. inversion T. unfold byte in NS.
    assert (KK : k = k') by (inversion T; lia). subst k'.
    rewrite <- KK in I2. exists gs. split.
    { clear - X4 ND. induction X4 as [|c g cs gs X X4 IH]; cbn [map]; [constructor|]. constructor; [exact (described_stored _ _ _ ND X)|exact IH]. }
    apply (lookup_walk _ _ ST M1 K LM2 SZ cp k gs settings case I2); [lia| | |exact EV].
    + intros ->. inversion X4 as [EQ|]. apply NE. subst groups. rewrite <- EQ. reflexivity.
    + clear - X4 NF. induction X4 as [|c g cs gs X X4 IH]; cbn [map concat]; [constructor|].
      apply Forall_app. split; [apply (group_bytes_ok b' c g (Forall_inv NF) X)|apply IH; exact (Forall_inv_tail NF)].
Qed.
