(** Glyph and setting accessors. *)
From Verif Require Import Base BaseFacts Spec_Helpers Model_Helpers Proofs_Helpers Model_Mask Model_Words Model_Font
  Spec_Format Proofs_Format Proofs_Font Proofs_Font2.

Lemma end24 {A} d off (l : list (list A)) i b : stored d off (offsets 3 l) -> zget l i = Ok b ->
  zlen (concat l) < 16777216 -> stored d (off + 3 * i) (le_digits 3 (start_of l i + zlen b)) /\ 0 <= start_of l i + zlen b < 16777216.
Proof.
  intros H E Hl. pose proof (end_le _ _ _ E). pose proof (start_nonneg l i). pose proof (zlen_nonneg b).
  split; [exact (stored_end 3 l d off i b H E)|lia].
Qed.
Lemma start24 {A} d off (l : list (list A)) i b : stored d off (offsets 3 l) -> zget l i = Ok b ->
  zlen (concat l) < 16777216 -> 0 < i -> stored d (off + 3 * (i - 1)) (le_digits 3 (start_of l i)) /\ 0 <= start_of l i < 16777216.
Proof.
  intros H E Hl Hi. pose proof (start_le l i). pose proof (start_nonneg l i).
  split; [exact (stored_start 3 l d off i b H E Hi)|lia].
Qed.

(** ** finding glyphs by name *)
Lemma zget_lt {A} (l : list A) i a : zget l i = Ok a -> 0 <= i < zlen l.
Proof. apply zget_ok_range. Qed.

Section Names.
  Variables (f : Font) (l : list (list Z * Z)).
  Hypothesis HS : stored (Data f) (OffsetToGlyphNames f) (glyph_names_bytes l).
  Hypothesis HL : zlen (concat (map fst l)) < 16777216.
  Hypothesis HC : zlen l < 65536.
  Hypothesis HI : Forall (fun x => 0 <= snd x < 65536) l.

  Lemma named_count : glyphs_NamedCount f = Ok (zlen l).
  Proof.
    unfold glyphs_NamedCount. unfold glyph_names_bytes in HS. apply stored_app in HS. destruct HS as [H _].
    apply (slice16 _ _ _ _ H); [lia|]. pose proof (zlen_nonneg l). lia.
  Qed.
  Lemma names_parts :
    stored (Data f) (OffsetToGlyphNames f + 2) (concat (map (fun x => le_digits 2 (snd x)) l)) /\
    stored (Data f) (OffsetToGlyphNames f + 2 + 2 * zlen l) (offsets 3 (map fst l)) /\
    stored (Data f) (OffsetToGlyphNames f + 2 + 2 * zlen l + 3 * zlen l) (concat (map fst l)).
  Proof.
    unfold glyph_names_bytes in HS. apply stored_app in HS. destruct HS as [_ H]. rewrite zlen_le_digits in H.
    apply stored_app in H. destruct H as [H1 H].
    rewrite (zlen_concat_fixed (fun x => le_digits 2 (snd x)) 2) in H by (intros; apply zlen_le_digits).
    apply stored_indexed in H. destruct H as [H2 H3]. rewrite zlen_map in H3. auto.
  Qed.
  Lemma nth_name i n : zget (map fst l) i = Ok n -> getNthGlyphName f i (zlen l) = Ok n.
  Proof.
    intros E. destruct names_parts as (_ & H2 & H3). unfold getNthGlyphName. cbv zeta.
    rewrite !shiftl_mul by lia. change (2 ^ 1) with 2.
    destruct (end24 _ _ _ _ _ H2 E HL) as [S R]. rewrite <- (bind_assoc (zslice _ _ _) DecodeUint24LE).
    rewrite (slice24 _ _ _ (start_of (map fst l) i + zlen n)); [|eapply stored_at; [exact S|lia]|lia|exact R]. cbn [bind].
    pose proof (zget_lt _ _ _ E). pose proof (stored_blob _ _ _ _ _ H3 E) as SB.
    destruct (Z.eqb_spec i 0) as [->|Hi].
    - rewrite start_0 in *. apply stored_slice_eq; [eapply stored_at; [exact SB|lia]|lia].
    - destruct (start24 _ _ _ _ _ H2 E HL ltac:(lia)) as [S2 R2]. rewrite <- (bind_assoc (zslice _ _ _) DecodeUint24LE).
      rewrite (slice24 _ _ _ (start_of (map fst l) i)); [|eapply stored_at; [exact S2|lia]|lia|exact R2]. cbn [bind].
      apply stored_slice_eq; [eapply stored_at; [exact SB|lia]|lia].
  Qed.
  Lemma name_index i x : zget l i = Ok x ->
    (do b <- zslice (Data f) (OffsetToGlyphNames f + 2 + Z.shiftl i 1) (OffsetToGlyphNames f + 2 + Z.shiftl i 1 + 2); DecodeUint16LE b) = Ok (snd x).
  Proof.
    intros E. destruct names_parts as (H1 & _ & _). rewrite shiftl_mul by lia. change (2 ^ 1) with 2.
    pose proof (stored_array (fun x => le_digits 2 (snd x)) 2 l _ _ _ _ (fun x => zlen_le_digits 2 (snd x)) H1 E) as S.
    apply slice16; [eapply stored_at; [exact S|lia]|reflexivity|]. exact (forall_get _ _ _ _ HI E).
  Qed.
  Lemma eq_str a : forall b, bytesEqStr a b = true <-> a = b.
  Proof.
    induction a as [|x a IH]; intros [|y b]; cbn [bytesEqStr]; split; intros H; try discriminate; auto.
    - apply andb_prop in H. destruct H as [H1 H2]. apply IH in H2. apply Z.eqb_eq in H1. congruence.
    - injection H as -> ->. rewrite Z.eqb_refl. cbn. now apply IH.
  Qed.
  Lemma name_less i : 0 <= i < zlen l -> exists n, zget (map fst l) i = Ok n /\
    forall q, (do v <- getNthGlyphName f i (zlen l); Ok (bytesSmallerThanStr v q)) = Ok (bytesSmallerThanStr n q).
  Proof.
    intros Hi. destruct (zget_in_range (map fst l) i) as [n E]; [now rewrite zlen_map|]. exists n. split; [exact E|].
    intros q. now rewrite (nth_name _ _ E).
  Qed.

  (** whatever the order of the table: only stored indices are returned, or GlyphMissing *)
  Lemma find_sound q : exists r, glyphs_FindIndexByName f q = Ok r /\ (r = GlyphMissing \/ In (q, r) l).
  Proof.
    unfold glyphs_FindIndexByName. rewrite named_count. cbn [bind]. pose proof (zlen_nonneg l).
    destruct (Z.eqb_spec (zlen l) 0) as [E|Hn]; [eauto|].
    destruct (lower_bound_loop_total 64 (fun mid => do value <- getNthGlyphName f mid (zlen l); Ok (bytesSmallerThanStr value q)) 0 (zlen l - 1))
      as (r & Er & Hr); [lia|eapply Z.lt_trans with 65536; [lia|reflexivity]| |].
    { intros i Hi. destruct (name_less i ltac:(lia)) as (n & _ & H1). rewrite H1. eauto. }
    rewrite Er. cbn [bind]. destruct (Z.geb_spec r (zlen l)); [eauto|].
    destruct (zget_in_range l r ltac:(lia)) as [x Ex].
    rewrite (nth_name r (fst x)) by (rewrite zget_map, Ex; reflexivity). cbn [bind].
    destruct (bytesEqStr (fst x) q) eqn:Eq; cbn [negb]; [|eauto].
    exists (snd x). split; [now apply name_index|]. right. apply eq_str in Eq. subst q.
    apply zget_in in Ex. now destruct x.
  Qed.
  Lemma find_complete q k x : zget l k = Ok x -> fst x = q ->
    (forall i n, zget (map fst l) i = Ok n -> (bytesSmallerThanStr n q = true <-> i < k)) ->
    glyphs_FindIndexByName f q = Ok (snd x).
  Proof.
    intros Ex Hq Ho. pose proof (zget_lt _ _ _ Ex) as Hk. unfold glyphs_FindIndexByName. rewrite named_count. cbn [bind].
    destruct (Z.eqb_spec (zlen l) 0) as [E|Hn]; [lia|].
    destruct (lower_bound_loop_spec 64 (fun mid => do value <- getNthGlyphName f mid (zlen l); Ok (bytesSmallerThanStr value q)) (fun i => i <? k) 0 (zlen l - 1))
      as (r & Er & Hr & P1 & P2); [lia|eapply Z.lt_trans with 65536; [lia|reflexivity]| |intros; lia|].
    { intros i Hi. destruct (name_less i ltac:(lia)) as (n & En & H1). rewrite H1. f_equal.
      specialize (Ho i n En). destruct (bytesSmallerThanStr n q); symmetry; [apply Z.ltb_lt; now apply Ho|].
      apply Z.ltb_ge. destruct (Z_lt_dec i k) as [L|]; [|lia]. apply Ho in L. discriminate. }
    rewrite Er. cbn [bind].
    assert (r = k).
    { destruct (Z_lt_dec r k) as [L|]; [|destruct (Z_lt_dec k r) as [G|]; [|lia]].
      - specialize (P2 r ltac:(lia)). cbv beta in P2. lia.
      - specialize (P1 k ltac:(lia)). cbv beta in P1. lia. }
    subst r. destruct (Z.geb_spec k (zlen l)); [lia|].
    rewrite (nth_name k (fst x)) by (rewrite zget_map, Ex; reflexivity). cbn [bind].
    rewrite Hq, (proj2 (eq_str q q) eq_refl). cbn [negb]. now apply name_index.
  Qed.
End Names.

(** what the comparison really tests *)
Definition reads_smaller (n q : list Z) : Prop :=
  length n <> length q /\ forall i, (i < length n)%nat -> (i < length q)%nat -> nth i n 0 <= nth i q 0.
Lemma smaller_loop n : forall q k, bytesSmaller_loop n q k = true <->
  (forall i, (i < length n)%nat -> (i < length q)%nat -> nth i n 0 <= nth i q 0) /\ ((length n <= length q)%nat -> k <> O).
Proof.
  induction n as [|b n IH]; intros [|c q] k; cbn [bytesSmaller_loop length].
  - rewrite negb_true_iff, Nat.eqb_neq. split; [intros H; split; [lia|auto]|intros [_ H]; apply H; lia].
  - rewrite negb_true_iff, Nat.eqb_neq. split; [intros H; split; [lia|auto]|intros [_ H]; apply H; lia].
  - split; [intros _; split; lia|auto].
  - destruct (Z.gtb_spec b c) as [G|G].
    + split; [discriminate|]. intros [H _]. specialize (H O ltac:(lia) ltac:(lia)). cbn [nth] in H. lia.
    + rewrite IH. split; intros [H1 H2]; (split; [|intros H3; apply H2; lia]).
      * intros [|i] L1 L2; cbn [nth]; [lia|]. apply H1; lia.
      * intros i L1 L2. specialize (H1 (S i) ltac:(lia) ltac:(lia)). exact H1.
Qed.
Lemma smaller_spec n q : bytesSmallerThanStr n q = true <-> reads_smaller n q.
Proof.
  unfold bytesSmallerThanStr, reads_smaller. rewrite smaller_loop. unfold zlen.
  destruct (Z.eqb_spec (Z.of_nat (length n)) (Z.of_nat (length q))) as [E|E]; split; intros [H1 H2]; split; auto; try lia.
Qed.

(** ** glyph masks *)
Section Masks.
  Variables (f : Font) (m : metrics_fields) (l : list glyph).
  Hypothesis HM : stored (Data f) (OffsetToMetrics f) (metrics_bytes m).
  Hypothesis HR : metrics_in_range m.
  Hypothesis HG : m_glyphs m = zlen l.
  Hypothesis HS : stored (Data f) (OffsetToGlyphMasks f) (glyph_masks_bytes (m_vert m) l).
  Hypothesis HL : zlen (concat (map (glyph_bytes (m_vert m)) l)) < 16777216.

  Let L : list (list Z) := map (glyph_bytes (m_vert m)) l.
  Lemma glyph_count : glyphs_Count f = Ok (zlen l).
  Proof. unfold glyphs_Count. rewrite <- HG. exact (proj1 (metrics_stored _ _ _ HM HR)). Qed.
  Lemma glyph_vert : glyphs_hasVertLayout f = Ok (m_vert m).
  Proof. exact (proj1 (proj2 (metrics_stored _ _ _ HM HR))). Qed.
  Lemma mask_parts : stored (Data f) (OffsetToGlyphMasks f) (offsets 3 L) /\ stored (Data f) (OffsetToGlyphMasks f + 3 * zlen l) (concat L).
  Proof. pose proof (stored_indexed _ _ _ _ HS) as H. now rewrite zlen_map in H. Qed.
  Lemma glyph_nonempty i b : zget L i = Ok b -> 0 < zlen b.
  Proof.
    intros E. apply zget_in in E. apply in_map_iff in E. destruct E as ([p ops] & <- & _).
    unfold glyph_bytes, placement_bytes. rewrite zlen_app. pose proof (zlen_nonneg (snd (p, ops))).
    destruct (m_vert m); cbn [fst]; rewrite !zlen_cons, zlen_nil; lia.
  Qed.
  Lemma data_start i b : zget L i = Ok b -> getGlyphDataStartOffset f i = Ok (start_of L i).
  Proof.
    intros E. pose proof (zget_lt _ _ _ E). unfold getGlyphDataStartOffset.
    destruct (Z.eqb_spec i 0) as [->|Hi]; [now rewrite start_0|].
    cbv zeta. rewrite shiftl_mul by lia. change (2 ^ 1) with 2. destruct mask_parts as [H1 _].
    destruct (start24 _ _ _ _ _ H1 E HL ltac:(lia)) as [S R].
    apply from24; [eapply stored_at; [exact S|lia]|exact R].
  Qed.
  Lemma data_offsets i b : zget L i = Ok b -> getGlyphDataOffsets f i = Ok (start_of L i, start_of L i + zlen b).
  Proof.
    intros E. pose proof (zget_lt _ _ _ E). unfold getGlyphDataOffsets. cbv zeta.
    rewrite !shiftl_mul by lia. change (2 ^ 1) with 2. destruct mask_parts as [H1 _].
    destruct (end24 _ _ _ _ _ H1 E HL) as [S R]. rewrite <- (bind_assoc (zfrom _ _) DecodeUint24LE).
    rewrite (from24 _ _ (start_of L i + zlen b)); [|eapply stored_at; [exact S|lia]|exact R]. cbn [bind].
    destruct (Z.eqb_spec (i * 2 + i) 0) as [Hz|Hi].
    - replace i with 0 by lia. now rewrite start_0.
    - destruct (start24 _ _ _ _ _ H1 E HL ltac:(lia)) as [S2 R2]. rewrite <- (bind_assoc (zfrom _ _) DecodeUint24LE).
      rewrite (from24 _ _ (start_of L i)); [|eapply stored_at; [exact S2|lia]|exact R2]. cbn [bind].
      pose proof (glyph_nonempty _ _ E). destruct (Z.leb_spec (start_of L i + zlen b) (start_of L i)); [lia|reflexivity].
  Qed.
  Lemma glyph_at i g : zget l i = Ok g -> stored (Data f) (OffsetToGlyphMasks f + 3 * zlen l + start_of L i) (glyph_bytes (m_vert m) g) /\
    zget L i = Ok (glyph_bytes (m_vert m) g).
  Proof.
    intros E. assert (E' : zget L i = Ok (glyph_bytes (m_vert m) g)) by (unfold L; rewrite zget_map, E; reflexivity).
    split; [|exact E']. destruct mask_parts as [_ H2]. exact (stored_blob _ _ _ _ _ H2 E').
  Qed.
  Lemma mask_ops i g : zget l i = Ok g -> glyphs_mask_ops f i = Ok (snd g).
  Proof.
    intros E. destruct (glyph_at i g E) as [S E']. unfold glyphs_mask_ops. rewrite (data_offsets _ _ E'). cbn [bind].
    rewrite glyph_vert, glyph_count. cbn [bind]. cbv zeta. rewrite shiftl_mul by lia. change (2 ^ 1) with 2.
    unfold glyph_bytes in *. apply stored_app in S. destruct S as [_ S]. rewrite !zlen_app.
    unfold placement_bytes in *. destruct (m_vert m); rewrite !zlen_cons, zlen_nil in *;
      (apply stored_slice_eq; [eapply stored_at; [exact S|lia]|lia]).
  Qed.
  Lemma rasterize_glyph i g : zget l i = Ok g ->
    glyphs_RasterizeMask f i = match Rasterize (snd g) with Err _ => Panic | r => r end.
  Proof. intros E. unfold glyphs_RasterizeMask. now rewrite (mask_ops i g E). Qed.
  Lemma advance_of i : 0 <= i -> glyphs_Advance f i = do g <- zget l i; Ok (pl_advance (fst g)).
  Proof.
    intros Hi. unfold glyphs_Advance. rewrite glyph_count. cbn [bind].
    destruct (Z.geb_spec i (zlen l)); [rewrite zget_panic by lia; reflexivity|].
    destruct (zget_in_range l i ltac:(lia)) as [g E]. rewrite E. destruct (glyph_at i g E) as [S E'].
    rewrite (data_start _ _ E'). cbn [bind]. rewrite shiftl_mul by lia. change (2 ^ 1) with 2.
    unfold glyph_bytes, placement_bytes in S. apply stored_app in S. destruct S as [S _].
    apply (stored_at _ _ _ (OffsetToGlyphMasks f + zlen l * 2 + zlen l + start_of L i)) in S; [|lia].
    destruct (m_vert m); apply stored_cons in S; apply S.
  Qed.
  Lemma placement_of i : 0 <= i -> glyphs_Placement f i = do g <- zget l i;
    Ok (if m_vert m then mkPlacement (pl_advance (fst g)) (pl_top (fst g)) (pl_bottom (fst g)) (pl_center (fst g))
        else mkPlacement (pl_advance (fst g)) 0 0 0).
  Proof.
    intros Hi. unfold glyphs_Placement. rewrite glyph_count. cbn [bind].
    destruct (Z.geb_spec i (zlen l)); [rewrite zget_panic by lia; reflexivity|].
    destruct (zget_in_range l i ltac:(lia)) as [g E]. rewrite E. destruct (glyph_at i g E) as [S E'].
    rewrite (data_start _ _ E'). cbn [bind]. cbv zeta. rewrite shiftl_mul by lia. change (2 ^ 1) with 2.
    unfold glyph_bytes, placement_bytes in S. apply stored_app in S. destruct S as [S _].
    apply (stored_at _ _ _ (OffsetToGlyphMasks f + zlen l * 2 + zlen l + start_of L i)) in S; [|lia].
    rewrite glyph_vert. set (x := OffsetToGlyphMasks f + zlen l * 2 + zlen l + start_of L i) in *.
    destruct (m_vert m); apply stored_cons in S; destruct S as [-> S]; cbn [bind]; [|reflexivity].
    apply stored_cons in S. destruct S as [-> S]. cbn [bind].
    apply stored_cons in S. destruct S as [G2 S]. apply stored_cons in S. destruct S as [G3 _].
    replace (x + 2) with (x + 1 + 1) by lia. rewrite G2. replace (x + 3) with (x + 1 + 1 + 1) by lia. now rewrite G3.
  Qed.
End Masks.

(** ** settings *)
Section Settings.
  Variables (f : Font) (ws : list (list Z)) (l : list setting).
  Hypothesis HN : stored (Data f) (OffsetToSettingNames f) (setting_names_bytes l).
  Hypothesis HD : stored (Data f) (OffsetToSettingDefinitions f) (setting_defs_bytes l).
  Hypothesis HT : zlen (concat (map snd l)) < 65536.
  Hypothesis HO : Forall (fun s => zlen (snd s) <= 255) l.

  Lemma setting_count : settings_Count f = Ok (zlen l).
  Proof. unfold settings_Count. unfold setting_names_bytes in HN. now apply stored_cons in HN. Qed.
  Lemma opts_get key o : zget (map snd l) key = Ok o -> 0 <= zlen o <= 255.
  Proof.
    intros E. rewrite zget_map in E. destruct (zget l key) as [s| | |] eqn:Es; try discriminate. cbn [bind] in E.
    assert (snd s = o) by congruence. subst. pose proof (forall_get _ _ _ _ HO Es) as X. cbv beta in X. pose proof (zlen_nonneg (snd s)). lia.
  Qed.
  Lemma range_of key o : zget (map snd l) key = Ok o ->
    setting_range f key = if zlen o =? 0 then Panic else Ok (start_of (map snd l) key, start_of (map snd l) key + zlen o).
  Proof.
    intros E. pose proof (zget_lt _ _ _ E). pose proof (opts_get _ _ E). unfold setting_range. cbv zeta.
    rewrite !shiftl_mul by lia. change (2 ^ 1) with 2. pose proof (stored_indexed _ _ _ _ HD) as [H1 _].
    rewrite <- (bind_assoc (zfrom _ _) DecodeUint16LE). rewrite (end16 _ _ _ _ _ _ H1 E) by lia. cbn [bind].
    rewrite (start16 _ _ _ _ _ _ _ H1 E) by lia. cbn [bind].
    destruct (Z.leb_spec (start_of (map snd l) key + zlen o) (start_of (map snd l) key)); destruct (Z.eqb_spec (zlen o) 0); try lia; [reflexivity|].
    destruct (Z.gtb_spec (start_of (map snd l) key + zlen o - start_of (map snd l) key) 255); [lia|reflexivity].
  Qed.
  Lemma num_options key : 0 <= key ->
    settings_GetNumOptions f key = match zget l key with Ok s => if zlen (snd s) =? 0 then Panic else Ok (zlen (snd s)) | _ => Ok 0 end.
  Proof.
    intros Hk. unfold settings_GetNumOptions. rewrite setting_count. cbn [bind].
    destruct (Z.geb_spec key (zlen l)); [rewrite zget_panic by lia; reflexivity|].
    destruct (zget_in_range l key ltac:(lia)) as [s E]. rewrite E.
    rewrite (range_of key (snd s)) by (rewrite zget_map, E; reflexivity). destruct (zlen (snd s) =? 0); cbn [bind]; [reflexivity|]. f_equal. lia.
  Qed.
  Lemma option_name key option :
    stored (Data f) (OffsetToWords f) (words_bytes ws) -> Forall (fun w => w <> []) ws -> zlen (concat ws) < 65536 ->
    Forall (fun s => bytes (snd s)) l -> 0 <= key -> 0 <= option ->
    settings_GetOptionName f key option =
      do s <- zget l key; do w <- zget (snd s) option; if w <? zlen ws then zget ws w else GetPredefinedWord w.
  Proof.
    intros HW HW1 HW2 HB Hk Ho. unfold settings_GetOptionName. rewrite setting_count. cbn [bind].
    destruct (Z.geb_spec key (zlen l)); [rewrite zget_panic by lia; reflexivity|].
    destruct (zget_in_range l key ltac:(lia)) as [s E]. rewrite E.
    assert (E' : zget (map snd l) key = Ok (snd s)) by (rewrite zget_map, E; reflexivity).
    rewrite (range_of key (snd s) E'). destruct (Z.eqb_spec (zlen (snd s)) 0) as [Z0|_].
    { cbn [bind]. rewrite (zget_panic (snd s)) by lia. reflexivity. }
    cbn [bind].
    destruct (Z.geb_spec option (start_of (map snd l) key + zlen (snd s) - start_of (map snd l) key)).
    - rewrite (zget_panic (snd s)) by lia. reflexivity.
    - destruct (zget_in_range (snd s) option ltac:(lia)) as [w Ew]. rewrite Ew.
      pose proof (stored_indexed _ _ _ _ HD) as [_ H2]. pose proof (stored_blob _ _ _ _ _ H2 E') as S.
      rewrite zlen_map in S. rewrite shiftl_mul by lia. change (2 ^ 1) with 2.
      pose proof (stored_get _ _ _ option S ltac:(lia)) as G. rewrite Ew in G.
      replace (OffsetToSettingDefinitions f + zlen l * 2 + start_of (map snd l) key + option)
        with (OffsetToSettingDefinitions f + Z.of_nat 2 * zlen l + start_of (map snd l) key + option) by lia.
      rewrite G. cbn [bind]. apply get_word; auto. pose proof (forall_get _ _ _ _ HB E) as Hb. cbv beta in Hb.
      pose proof (bytes_get _ _ _ Hb Ew) as Hw. unfold byte in Hw. lia.
  Qed.
End Settings.

Lemma setting_names_spec d off names l2 : forall l1 s,
  stored d off (offsets 2 (l1 ++ l2)) -> stored d names (concat (l1 ++ l2)) ->
  zlen (concat (l1 ++ l2)) < 65536 -> Forall (fun n => n <> []) l2 -> s = zlen (concat l1) ->
  setting_names_loop (length l2) d off names s (zlen l1) = Ok (numbered (zlen l1) l2).
Proof.
  induction l2 as [|n l2 IH]; intros l1 s H1 H2 Hl Hne ->; cbn [setting_names_loop length]; [reflexivity|].
  pose proof (skip_prefix l1 n l2) as E. rewrite <- (bind_assoc (zfrom _ _) DecodeUint16LE).
  rewrite (end16 _ _ _ _ _ _ H1 E) by lia. cbn [bind]. rewrite start_app.
  inversion Hne as [|? ? Hn Hne2]; subst. pose proof (nonempty_len _ Hn).
  destruct (Z.ltb_spec (zlen (concat l1) + zlen n - zlen (concat l1)) 0); [lia|].
  rewrite (stored_string d (names + zlen (concat l1)) n); [|rewrite <- (start_app l1 (n :: l2)); exact (stored_blob _ _ _ _ _ H2 E)|lia|assumption].
  cbn [bind]. replace (zlen l1 + 1) with (zlen (l1 ++ [n])) by (rewrite zlen_app; reflexivity).
  rewrite IH; [cbn [bind numbered]; rewrite zlen_app; reflexivity|..]; rewrite <- ?app_assoc; auto.
  rewrite concat_app, zlen_app. cbn [concat]. now rewrite app_nil_r.
Qed.
Lemma settings_each f (l : list setting) : stored (Data f) (OffsetToSettingNames f) (setting_names_bytes l) ->
  Forall (fun s => fst s <> []) l -> zlen (concat (map fst l)) < 65536 ->
  settings_Each f = Ok (numbered 0 (map fst l)).
Proof.
  intros H Hne Hl. unfold settings_Each. rewrite (setting_count f l H). cbn [bind]. cbv zeta.
  unfold setting_names_bytes in H. apply stored_cons in H. destruct H as [_ H]. apply stored_indexed in H. destruct H as [H1 H2].
  pose proof (setting_names_spec _ _ _ (map fst l) [] 0 H1 H2 Hl) as R. rewrite zlen_nil, map_length in R.
  unfold zlen at 1. rewrite Nat2Z.id. rewrite zlen_map in R. replace (zlen l * 2) with (Z.of_nat 2 * zlen l) by lia.
  apply R; auto. now apply Forall_map.
Qed.
