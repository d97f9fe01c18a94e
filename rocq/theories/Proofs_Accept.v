(** The parser accepts every laid out font within its limits. *)
From Verif Require Import Base BaseFacts Spec_Helpers Model_Helpers Proofs_Helpers Spec_Format Proofs_Format Proofs_Font Model_Font
  Model_Parse Spec_Parse Proofs_Parse Proofs_Parse2 Proofs_Parse6 Proofs_Parse9 Spec_Layout Spec_LayoutFont Proofs_Layout Spec_Accept.

(** ** The actions of the parser on a buffer with known contents *)
Lemma p_adv P i n : 0 <= n -> i + n <= zlen P -> AdvanceBytes n (full P i) = POk tt (full P (i + n)).
Proof. intros H1 H2. rewrite advance_full by lia. destruct (Z.leb_spec (i + n) (zlen P)); [reflexivity|lia]. Qed.
Lemma p_u8 P i v : zget P i = Ok v -> ReadUint8 (full P i) = POk v (full P (i + 1)).
Proof.
  intros H. pose proof (zget_ok_range _ _ _ H). rewrite u8_full by lia. destruct (Z.leb_spec (i + 1) (zlen P)); [|lia].
  f_equal. unfold zget in H. destruct (Z.ltb_spec i 0); [lia|]. unfold byte_at.
  destruct (nth_error P (Z.to_nat i)) eqn:E; [|discriminate]. inversion H. subst. apply nth_error_nth. exact E.
Qed.
Lemma p_with {A} P i n (decode : list Z -> outcome A) b v : stored P i b -> zlen b = n -> 0 < n ->
  (forall post, decode (b ++ post) = Ok v) -> read_with n decode (full P i) = POk v (full P (i + n)).
Proof.
  intros S L Hn D. pose proof (stored_range _ _ _ S) as [R1 R2]. rewrite (read_with_full P i n decode v) by (try lia; intros _;
    destruct (stored_from _ _ _ S) as (post & E); rewrite zfrom_ok in E by lia; replace (skipn (Z.to_nat i) P) with (b ++ post) by congruence; apply D).
  destruct (Z.leb_spec (i + n) (zlen P)); [reflexivity|lia].
Qed.
Lemma p_u16 P i v : stored P i (le_digits 2 v) -> 0 <= v < 65536 -> ReadUint16 (full P i) = POk v (full P (i + 2)).
Proof. intros S R. apply (p_with _ _ _ _ _ _ S); [reflexivity|lia|]. intros. rewrite decode16_digits, Z.mod_small by lia. reflexivity. Qed.
Lemma p_u24 P i v : stored P i (le_digits 3 v) -> 0 <= v < 16777216 -> ReadUint24 (full P i) = POk v (full P (i + 3)).
Proof. intros S R. apply (p_with _ _ _ _ _ _ S); [reflexivity|lia|]. intros. rewrite decode24_digits, Z.mod_small by lia. reflexivity. Qed.
Lemma p_ign24 P i v : stored P i (le_digits 3 v) -> 0 <= v < 16777216 -> ignore_err ReadUint24 (full P i) = POk v (full P (i + 3)).
Proof. intros S R. unfold ignore_err. rewrite (p_u24 _ _ _ S R). reflexivity. Qed.
Lemma p_str P i n : 0 <= i -> 0 <= n -> i + n <= zlen P -> exists s, read_str n (full P i) = POk s (full P (i + n)).
Proof. intros H0 H1 H2. rewrite read_str_full by lia. destruct (Z.leb_spec (i + n) (zlen P)); [eauto|lia]. Qed.
Lemma p_when b m P i : b = false -> when b m (full P i) = POk tt (full P i).
Proof. intros ->. reflexivity. Qed.
Lemma p_idx P i : get_index (full P i) = POk i (full P i).
Proof. reflexivity. Qed.
Lemma p_bytes {A} (f : list Z -> outcome A) P i a : f P = Ok a -> on_bytes f (full P i) = POk a (full P i).
Proof. intros H. unfold on_bytes. change (Bytes (full P i)) with P. rewrite H. reflexivity. Qed.
Lemma full_at P i j : i = j -> full P i = full P j.
Proof. now intros ->. Qed.
Lemma stored_last {A} w (l : list (list A)) P i : stored P i (offsets w l) -> 0 < zlen l ->
  stored P (i + (zlen l - 1) * Z.of_nat w) (le_digits w (total l)).
Proof.
  intros S L. destruct (zget_in_range l (zlen l - 1)) as [b E]; [lia|]. apply (stored_end w l P i _ b S) in E as S2.
  eapply stored_at; [|rewrite Z.mul_comm; reflexivity]. unfold total. rewrite <- start_all.
  replace (zlen l) with (zlen l - 1 + 1) at 2 by lia. rewrite (start_next _ _ _ E). exact S2.
Qed.

Ltac step e := rewrite (bind_ok _ _ _ _ _ e).

(** a string with its length *)
Lemma p_short P i s : stored P i (short_string s) -> zlen s < 256 -> exists t, ReadShortStr (full P i) = POk t (full P (i + zlen (short_string s))).
Proof.
  intros S L. pose proof (stored_range _ _ _ S) as [R1 R2]. apply stored_cons in S. destruct S as [G S]. pose proof (zlen_nonneg s).
  unfold short_string in *. rewrite zlen_cons in *. unfold ReadShortStr. step (p_u8 _ _ _ G).
  destruct (p_str P (i + 1) (zlen s)) as (t & E); [lia..|]. rewrite E. exists t. f_equal; try (apply full_at; lia).
Qed.
Lemma p_long P i s : stored P i (long_string s) -> zlen s < 65536 -> exists t, ReadString (full P i) = POk t (full P (i + zlen (long_string s))).
Proof.
  intros S L. pose proof (stored_range _ _ _ S) as [R1 R2]. unfold long_string in *. apply stored_app in S. destruct S as [G S]. pose proof (zlen_nonneg s).
  rewrite zlen_app, zlen_le_digits in *. unfold ReadString. step (p_u16 _ _ _ G ltac:(lia)).
  destruct (p_str P (i + 2) (zlen s)) as (t & E); [lia..|]. rewrite E. exists t. f_equal; try (apply full_at; lia).
Qed.

(** ** The sections *)
Section Sections.
  Variable P : list Z.
  Variable i : Z.
  Definition goes {A} (m : action A) (a : A) (b : list Z) : Prop := m (full P i) = POk a (full P (i + zlen b)).

  Lemma go_header h entropy_ok : (forall x, entropy_ok x -> entropy_too_low x = false) -> i = 0 -> stored P i (header_bytes h) ->
    zlen (header_bytes h) < zlen P ->
    header_in_range h -> h_format h = 2 -> entropy_ok (h_id h) -> h_name h <> [] ->
    goes parse_header tt (header_bytes h).
  Proof.
    intros HE Hi S HL R F E N. unfold goes, parse_header. rewrite Hi in *. pose proof (stored_range _ _ _ S) as [_ R2].
    assert (PS : exists post, P = header_bytes h ++ post /\ post <> []).
    { destruct S as (pre & post & -> & Z0). apply zlen_0_nil in Z0. subst. exists post. split; [reflexivity|]. intros ->. rewrite app_nil_l, app_nil_r in HL. lia. }
    destruct PS as (post & PE & PN).
    pose proof (header_laid_out _ _ S) as L. pose proof R as (_ & _ & _ & _ & _ & _ & _ & R3 & R4 & R5 & R6).
    assert (Hh : zlen (header_bytes h) = 33 + zlen (h_name h) + zlen (h_family h) + zlen (h_author h) + zlen (h_about h)).
    { unfold header_bytes, short_string, long_string. rewrite ?zlen_app, ?zlen_cons, ?zlen_le_digits, ?zlen_date, ?zlen_app, ?zlen_le_digits. lia. }
    pose proof (zlen_nonneg (h_name h)). pose proof (zlen_nonneg (h_family h)). pose proof (zlen_nonneg (h_author h)). pose proof (zlen_nonneg (h_about h)).
    step (p_adv P 0 28 ltac:(lia) ltac:(lia)).
    destruct (p_short P (0 + 28) _ (hl_name _ _ L) R3) as (t1 & E1). step E1. unfold short_string. rewrite zlen_cons.
    destruct (p_short P (29 + zlen (h_name h)) (h_family h)) as (t2 & E2); [eapply stored_at; [exact (hl_family _ _ L)|lia]|exact R4|].
    replace (0 + 28 + (1 + zlen (h_name h))) with (29 + zlen (h_name h)) by lia. step E2. unfold short_string. rewrite zlen_cons.
    destruct (p_short P (30 + zlen (h_name h) + zlen (h_family h)) (h_author h)) as (t3 & E3); [eapply stored_at; [exact (hl_author _ _ L)|lia]|exact R5|].
    replace (29 + zlen (h_name h) + (1 + zlen (h_family h))) with (30 + zlen (h_name h) + zlen (h_family h)) by lia. step E3. unfold short_string. rewrite zlen_cons.
    destruct (p_long P (31 + zlen (h_name h) + zlen (h_family h) + zlen (h_author h)) (h_about h)) as (t4 & E4); [exact (hl_about _ _ L)|exact R6|].
    replace (30 + zlen (h_name h) + zlen (h_family h) + (1 + zlen (h_author h))) with (31 + zlen (h_name h) + zlen (h_family h) + zlen (h_author h)) by lia. step E4.
    rewrite (p_bytes header_Validate P _ tt).
    - f_equal. apply full_at. unfold long_string. rewrite zlen_app, zlen_le_digits. lia.
    - unfold header_Validate. destruct (header_fixed P h post PE R) as (-> & -> & _). cbn [bind]. rewrite F, (HE _ E).
      destruct (header_strings P h post PE R PN) as (-> & _). cbn [bind FormatVersion negb Z.eqb]. change (2 =? FormatVersion) with true. cbn [negb].
      destruct (Z.eqb_spec (zlen (h_name h)) 0) as [Z0|]; [|reflexivity]. apply zlen_0_nil in Z0. contradiction.
  Qed.

  Lemma go_metrics m : stored P i (metrics_bytes m) -> metrics_in_range m -> m_glyphs m <> 0 -> m_ascent m <> 0 ->
    m_extra_ascent m <= m_ascent m -> (m_vert m = false -> m_vert_spacing m = 0) -> goes parse_metrics i (metrics_bytes m).
  Proof.
    intros S R N0 N1 N2 N3. pose proof (stored_range _ _ _ S) as [_ R2]. unfold goes, parse_metrics. step (p_idx P i).
    assert (L : zlen (metrics_bytes m) = 15) by reflexivity. rewrite L in *.
    step (p_adv P i 15 ltac:(lia) ltac:(lia)).
    assert (V : metrics_Validate P i = Ok tt).
    { unfold metrics_Validate. pose proof (metrics_stored _ _ _ S R) as (-> & -> & _ & _ & -> & -> & _ & _ & _ & _ & _ & -> & _). cbn [bind].
      destruct (Z.eqb_spec (m_glyphs m) 0); [contradiction|].
      assert (G : zget P (i + 2) = Ok (if m_vert m then 1 else 0)).
      { unfold metrics_bytes in S. apply stored_app in S. destruct S as [_ S]. apply stored_cons in S. rewrite zlen_le_digits in S. exact (proj1 S). }
      rewrite G. cbn [bind]. replace (negb (((if m_vert m then 1 else 0) =? 0) || ((if m_vert m then 1 else 0) =? 1))) with false by (destruct (m_vert m); reflexivity).
      destruct (Z.eqb_spec (m_ascent m) 0); [contradiction|]. destruct (Z.gtb_spec (m_extra_ascent m) (m_ascent m)); [lia|].
      destruct (m_vert m) eqn:V; [rewrite andb_false_r; reflexivity|]. rewrite N3 by reflexivity. reflexivity. }
    step (p_bytes (fun b => metrics_Validate b i) P (i + 15) tt V). reflexivity.
  Qed.

  Lemma go_dyes l : stored P i (dyes_bytes l) -> colors_sized l -> total (map snd l) <= 255 -> goes parse_dyes (i, total (map snd l)) (dyes_bytes l).
  Proof.
    intros S C U. pose proof (stored_range _ _ _ S) as [R1 R2]. destruct C as [L1 [L2 C]].
    unfold goes, parse_dyes. step (p_idx P i). unfold dyes_bytes, indexed in *. apply stored_cons in S. destruct S as [G S]. step (p_u8 _ _ _ G).
    rewrite zlen_cons, !zlen_app, !zlen_offsets, !zlen_map in *. fold (total (map fst l)) in *. fold (total (map snd l)) in *. pose proof (zlen_nonneg l).
    destruct (Z.gtb_spec (zlen l) 0) as [N|].
    - apply stored_app in S. destruct S as [S1 S]. apply stored_app in S. destruct S as [S2 S]. apply stored_app in S. destruct S as [S3 S4].
      rewrite !zlen_offsets, ?zlen_map in *. fold (total (map snd l)) in *. 
      step (p_adv P (i + 1) (zlen l - 1) ltac:(lia) ltac:(lia)).
      apply stored_last in S1; [|rewrite zlen_map; lia]. rewrite zlen_map in S1. change (le_digits 1 (total (map snd l))) with [total (map snd l) mod 256] in S1.
      apply stored_cons in S1. destruct S1 as [S1 _]. rewrite Z.mod_small in S1 by lia. replace (i + 1 + (zlen l - 1) * Z.of_nat 1) with (i + 1 + (zlen l - 1)) in S1 by lia.
      step (p_u8 _ _ _ S1). step (p_when (total (map snd l) <? zlen l) "invalid dye end index" P (i + 1 + (zlen l - 1) + 1) ltac:(lia)).
      step (p_adv P (i + 1 + (zlen l - 1) + 1) (total (map snd l)) ltac:(lia) ltac:(lia)).
      step (p_adv P (i + 1 + (zlen l - 1) + 1 + total (map snd l)) ((zlen l - 1) * 2) ltac:(lia) ltac:(lia)).
      apply stored_last in S3; [|rewrite zlen_map; lia]. rewrite zlen_map in S3.
      eapply stored_at with (off' := i + 1 + (zlen l - 1) + 1 + total (map snd l) + (zlen l - 1) * 2) in S3; [|lia].
      step (p_u16 _ _ _ S3 ltac:(lia)).
      step (p_when (total (map fst l) <? zlen l) "invalid dye name offset" P (i + 1 + (zlen l - 1) + 1 + total (map snd l) + (zlen l - 1) * 2 + 2) ltac:(lia)).
      step (p_adv P (i + 1 + (zlen l - 1) + 1 + total (map snd l) + (zlen l - 1) * 2 + 2) (total (map fst l)) ltac:(lia) ltac:(lia)).
      unfold pret. f_equal; try (apply full_at; lia).
    - assert (l = []) by (apply zlen_0_nil; lia). subst. unfold pret. cbn [map concat total]. unfold total. cbn. f_equal; try (apply full_at; lia).
  Qed.
  Lemma go_palettes l used : stored P i (palettes_bytes l) -> colors_sized l -> 0 <= used -> used + total (map snd l) <= 255 -> goes (parse_palettes used) i (palettes_bytes l).
  Proof.
    intros S C U0 U. pose proof (stored_range _ _ _ S) as [R1 R2]. destruct C as [L1 [L2 C]].
    unfold goes, parse_palettes. step (p_idx P i). unfold palettes_bytes, indexed in *. apply stored_cons in S. destruct S as [G S]. step (p_u8 _ _ _ G).
    assert (LC : zlen (concat (map color_bytes (concat (map snd l)))) = 4 * total (map snd l)).
    { unfold total. apply zlen_concat_fixed. intros [[[? ?] ?] ?]. reflexivity. }
    rewrite zlen_cons, !zlen_app, !zlen_offsets, !zlen_map, LC in *. fold (total (map fst l)) in *. pose proof (zlen_nonneg l).
    destruct (Z.gtb_spec (zlen l) 0) as [N|].
    - apply stored_app in S. destruct S as [S1 S]. apply stored_app in S. destruct S as [S2 S]. apply stored_app in S. destruct S as [S3 S4].
      rewrite !zlen_offsets, ?zlen_map, ?LC in *.
      step (p_adv P (i + 1) (zlen l - 1) ltac:(lia) ltac:(lia)).
      apply stored_last in S1; [|rewrite zlen_map; lia]. rewrite zlen_map in S1. change (le_digits 1 (total (map snd l))) with [total (map snd l) mod 256] in S1.
      apply stored_cons in S1. destruct S1 as [S1 _]. rewrite Z.mod_small in S1 by lia. replace (i + 1 + (zlen l - 1) * Z.of_nat 1) with (i + 1 + (zlen l - 1)) in S1 by lia.
      step (p_u8 _ _ _ S1). step (p_when (used + total (map snd l) >? 255) "dyes and palettes exceeding 255 color indices" P (i + 1 + (zlen l - 1) + 1) ltac:(lia)).
      step (p_when (total (map snd l) <? zlen l) "invalid palette end index" P (i + 1 + (zlen l - 1) + 1) ltac:(lia)).
      step (p_adv P (i + 1 + (zlen l - 1) + 1) (total (map snd l) * 4) ltac:(lia) ltac:(lia)).
      step (p_adv P (i + 1 + (zlen l - 1) + 1 + total (map snd l) * 4) ((zlen l - 1) * 2) ltac:(lia) ltac:(lia)).
      apply stored_last in S3; [|rewrite zlen_map; lia]. rewrite zlen_map in S3.
      eapply stored_at with (off' := i + 1 + (zlen l - 1) + 1 + total (map snd l) * 4 + (zlen l - 1) * 2) in S3; [|lia].
      step (p_u16 _ _ _ S3 ltac:(lia)).
      step (p_when (total (map fst l) <? zlen l) "invalid palette name offset" P (i + 1 + (zlen l - 1) + 1 + total (map snd l) * 4 + (zlen l - 1) * 2 + 2) ltac:(lia)).
      step (p_adv P (i + 1 + (zlen l - 1) + 1 + total (map snd l) * 4 + (zlen l - 1) * 2 + 2) (total (map fst l)) ltac:(lia) ltac:(lia)).
      unfold pret. f_equal; try (apply full_at; lia).
    - assert (l = []) by (apply zlen_0_nil; lia). subst. unfold pret. unfold total. cbn. f_equal; try (apply full_at; lia).
  Qed.

  Lemma go_names l om n v : stored P i (glyph_names_bytes l) -> metrics_NumGlyphs P om = Ok n -> metrics_HasVertLayout P om = Ok v -> n < 65536 ->
    zlen l <= n -> sized 0 32 16777216 (map fst l) -> goes (parse_glyph_names om) (i, n, v) (glyph_names_bytes l).
  Proof.
    intros S E1 E2 Hn L [[_ Z1] Z2]. rewrite zlen_map in Z1. assert (0 <= total (map fst l)) by apply zlen_nonneg. pose proof (stored_range _ _ _ S) as [R1 R2]. unfold goes, parse_glyph_names. step (p_idx P i).
    unfold glyph_names_bytes, indexed in *. apply stored_app in S. destruct S as [S1 S]. pose proof (zlen_nonneg l). step (p_u16 _ _ _ S1 ltac:(lia)).
    step (p_bytes (fun b => metrics_NumGlyphs b om) P (i + 2) n E1). step (p_bytes (fun b => metrics_HasVertLayout b om) P (i + 2) v E2).
    assert (LC : zlen (concat (map (fun x : list Z * Z => le_digits 2 (snd x)) l)) = 2 * zlen l) by (apply zlen_concat_fixed; reflexivity).
    rewrite !zlen_app, zlen_le_digits, !zlen_offsets, !zlen_map, LC in *. fold (total (map fst l)) in *.
    destruct (Z.gtb_spec (zlen l) 0) as [N|].
    - apply stored_app in S. destruct S as [S2 S]. apply stored_app in S. destruct S as [S3 S4]. rewrite ?zlen_le_digits, ?LC in *.
      step (p_when (zlen l >? n) "NumNamedGlyphs can't exceed NumGlyphs" P (i + 2) ltac:(lia)).
      step (p_adv P (i + 2) (zlen l * 2) ltac:(lia) ltac:(lia)). step (p_adv P (i + 2 + zlen l * 2) ((zlen l - 1) * 3) ltac:(lia) ltac:(lia)).
      apply stored_last in S3; [|rewrite zlen_map; lia]. rewrite zlen_map in S3.
      eapply stored_at with (off' := i + 2 + zlen l * 2 + (zlen l - 1) * 3) in S3; [|lia].
      step (p_u24 _ _ _ S3 ltac:(lia)).
      step (p_when (total (map fst l) >? zlen l * 32) "GlyphNameEndOffsets declares GlyphNames to end beyond allowed" P (i + 2 + zlen l * 2 + (zlen l - 1) * 3 + 3) ltac:(lia)).
      step (p_adv P (i + 2 + zlen l * 2 + (zlen l - 1) * 3 + 3) (total (map fst l)) ltac:(lia) ltac:(lia)).
      unfold pret. f_equal; try (apply full_at; lia).
    - assert (l = []) by (apply zlen_0_nil; lia). subst. unfold pret. unfold total. cbn. f_equal; try (apply full_at; lia).
  Qed.

  Lemma total_glyphs v (l : list (placement * list Z)) : total (map (glyph_bytes v) l) = (if v then 4 else 1) * zlen l + total (map snd l).
  Proof.
    unfold total. induction l as [|[p ops] r IH]; [destruct v; reflexivity|]. cbn [map concat]. unfold glyph_bytes at 1. rewrite !zlen_app, IH, zlen_cons. cbn [fst snd].
    unfold placement_bytes. destruct v; rewrite ?zlen_cons, zlen_nil; lia.
  Qed.
  Lemma go_masks v l : stored P i (glyph_masks_bytes v l) -> 0 < zlen l <= 56789 -> total (map snd l) <= 255 * zlen l ->
    goes (parse_glyph_masks (zlen l) v) i (glyph_masks_bytes v l).
  Proof.
    intros S N T. pose proof (stored_range _ _ _ S) as [R1 R2]. unfold goes, parse_glyph_masks. step (p_idx P i).
    unfold glyph_masks_bytes, indexed in *. apply stored_app in S. destruct S as [S1 S]. pose proof (total_glyphs v l) as TG. assert (0 <= total (map snd l)) by apply zlen_nonneg.
    rewrite !zlen_app, !zlen_offsets, !zlen_map in *. fold (total (map (glyph_bytes v) l)) in *.
    replace (u16 (zlen l - 1)) with (zlen l - 1) by (unfold u16; lia).
    assert (TB : 0 <= total (map (glyph_bytes v) l) < 16777216) by (rewrite TG; destruct v; lia).
    step (p_adv P i ((zlen l - 1) * 3) ltac:(lia) ltac:(lia)). apply stored_last in S1; [|rewrite zlen_map; lia]. rewrite zlen_map in S1. change (Z.of_nat 3) with 3 in *.
    step (p_u24 _ _ _ S1 TB). cbv zeta.
    step (p_when (total (map (glyph_bytes v) l) <? (if v then 4 else 1) * zlen l) "GlyphMaskEndOffsets declares GlyphMasks to end before allowed" P (i + (zlen l - 1) * 3 + 3) ltac:(lia)).
    step (p_when (total (map (glyph_bytes v) l) >? ((if v then 4 else 1) + 255) * zlen l) "GlyphMaskEndOffsets declares GlyphMasks to end beyond allowed" P (i + (zlen l - 1) * 3 + 3) ltac:(destruct v; lia)).
    step (p_adv P (i + (zlen l - 1) * 3 + 3) (total (map (glyph_bytes v) l)) ltac:(lia) ltac:(lia)).
    unfold pret. f_equal; try (apply full_at; lia).
  Qed.

  (** a byte with the number of elements, their EndOffsets and the elements *)
  Lemma go_words l : stored P i (words_bytes l) -> zlen l <= 255 -> sized 1 32 65536 l -> goes parse_words i (words_bytes l).
  Proof.
    intros S L [[Z0 Z1] Z2]. pose proof (stored_range _ _ _ S) as [R1 R2]. unfold goes, parse_words. step (p_idx P i).
    unfold words_bytes, indexed in *. apply stored_cons in S. destruct S as [G S]. pose proof (zlen_nonneg l). step (p_u8 _ _ _ G).
    rewrite zlen_cons, !zlen_app, !zlen_offsets in *. fold (total l) in *. change (Z.of_nat 2) with 2 in *.
    destruct (Z.gtb_spec (zlen l) 0) as [N|].
    - apply stored_app in S. destruct S as [S3 S4]. step (p_adv P (i + 1) ((zlen l - 1) * 2) ltac:(lia) ltac:(lia)).
      apply stored_last in S3; [|lia]. step (p_u16 _ _ _ S3 ltac:(lia)). change (Z.of_nat 2) with 2.
      step (p_when (total l <? zlen l) "WordEndOffsets declares Words to end before allowed" P (i + 1 + (zlen l - 1) * 2 + 2) ltac:(lia)).
      step (p_when (total l >? zlen l * 32) "WordEndOffsets declares Words to end beyond allowed" P (i + 1 + (zlen l - 1) * 2 + 2) ltac:(lia)).
      step (p_adv P (i + 1 + (zlen l - 1) * 2 + 2) (total l) ltac:(lia) ltac:(lia)).
      unfold pret. f_equal; try (apply full_at; lia).
    - assert (l = []) by (apply zlen_0_nil; lia). subst. unfold pret. unfold total. cbn. f_equal; try (apply full_at; lia).
  Qed.
  Lemma go_settings l : stored P i (setting_names_bytes l ++ setting_defs_bytes l) -> zlen l <= 255 -> sized 1 32 65536 (map fst l) ->
    sized 1 65536 65536 (map snd l) ->
    goes parse_settings (i, i + zlen (setting_names_bytes l), zlen l) (setting_names_bytes l ++ setting_defs_bytes l).
  Proof.
    intros S L [[Z0 Z1] Z2] [[Z3 _] Z4]. pose proof (stored_range _ _ _ S) as [R1 R2]. unfold goes, parse_settings. step (p_idx P i).
    apply stored_app in S. destruct S as [S0 S5]. unfold setting_names_bytes, setting_defs_bytes, indexed in *. apply stored_cons in S0. destruct S0 as [G S]. pose proof (zlen_nonneg l). step (p_u8 _ _ _ G).
    rewrite zlen_app, !zlen_cons, !zlen_app, !zlen_offsets, !zlen_map in *. fold (total (map fst l)) in *. fold (total (map snd l)) in *. change (Z.of_nat 2) with 2 in *.
    destruct (Z.gtb_spec (zlen l) 0) as [N|].
    - apply stored_app in S. destruct S as [S3 S4]. step (p_adv P (i + 1) ((zlen l - 1) * 2) ltac:(lia) ltac:(lia)).
      apply stored_last in S3; [|rewrite zlen_map; lia]. rewrite zlen_map in S3. change (Z.of_nat 2) with 2 in *. step (p_u16 _ _ _ S3 ltac:(lia)).
      step (p_when (total (map fst l) <? zlen l) "SettingNameEndOffsets declares SettingNames to end before allowed" P (i + 1 + (zlen l - 1) * 2 + 2) ltac:(lia)).
      step (p_when (total (map fst l) >? zlen l * 32) "SettingNameEndOffsets declares SettingNames to end beyond allowed" P (i + 1 + (zlen l - 1) * 2 + 2) ltac:(lia)).
      step (p_adv P (i + 1 + (zlen l - 1) * 2 + 2) (total (map fst l)) ltac:(lia) ltac:(lia)). step (p_idx P (i + 1 + (zlen l - 1) * 2 + 2 + total (map fst l))).
      step (p_adv P (i + 1 + (zlen l - 1) * 2 + 2 + total (map fst l)) ((zlen l - 1) * 2) ltac:(lia) ltac:(lia)).
      apply stored_app in S5. destruct S5 as [S5 S6]. apply stored_last in S5; [|rewrite zlen_map; lia]. rewrite zlen_map in S5. change (Z.of_nat 2) with 2 in *.
      eapply stored_at with (off' := i + 1 + (zlen l - 1) * 2 + 2 + total (map fst l) + (zlen l - 1) * 2) in S5; [|lia]. step (p_u16 _ _ _ S5 ltac:(lia)).
      step (p_when (total (map snd l) <? zlen l) "SettingEndOffsets declares Settings to end before allowed" P (i + 1 + (zlen l - 1) * 2 + 2 + total (map fst l) + (zlen l - 1) * 2 + 2) ltac:(lia)).
      step (p_adv P (i + 1 + (zlen l - 1) * 2 + 2 + total (map fst l) + (zlen l - 1) * 2 + 2) (total (map snd l)) ltac:(lia) ltac:(lia)).
      unfold pret. replace (i + (1 + (2 * zlen l + total (map fst l)))) with (i + 1 + (zlen l - 1) * 2 + 2 + total (map fst l)) by lia. f_equal; try (apply full_at; lia).
    - assert (l = []) by (apply zlen_0_nil; lia). subst. unfold pret. unfold total. cbn. f_equal; try (apply full_at; lia).
  Qed.
  Lemma go_switches l n : stored P i (switches_bytes l) -> zlen l <= 253 -> sized 1 n 65536 l -> goes (parse_switches n) i (switches_bytes l).
  Proof.
    intros S L [[Z0 Z1] Z2]. pose proof (stored_range _ _ _ S) as [R1 R2]. unfold goes, parse_switches. step (p_idx P i).
    unfold switches_bytes, indexed in *. apply stored_cons in S. destruct S as [G S]. pose proof (zlen_nonneg l). step (p_u8 _ _ _ G).
    rewrite zlen_cons, !zlen_app, !zlen_offsets in *. fold (total l) in *. change (Z.of_nat 2) with 2 in *.
    step (p_when (zlen l >? 253) "NumMappingSwitches can't exceed 254 (both 254 and 255 are reserved)" P (i + 1) ltac:(lia)).
    destruct (Z.gtb_spec (zlen l) 0) as [N|].
    - apply stored_app in S. destruct S as [S3 S4]. step (p_adv P (i + 1) ((zlen l - 1) * 2) ltac:(lia) ltac:(lia)).
      apply stored_last in S3; [|lia]. step (p_u16 _ _ _ S3 ltac:(lia)). change (Z.of_nat 2) with 2.
      step (p_when (total l <? zlen l) "MappingSwitchEndOffsets declares MappingSwitches to end before allowed" P (i + 1 + (zlen l - 1) * 2 + 2) ltac:(lia)).
      step (p_when (total l >? zlen l * n) "MappingSwitchEndOffsets declares MappingSwitches to end beyond allowed" P (i + 1 + (zlen l - 1) * 2 + 2) ltac:(lia)).
      step (p_adv P (i + 1 + (zlen l - 1) * 2 + 2) (total l) ltac:(lia) ltac:(lia)).
      unfold pret. f_equal; try (apply full_at; lia).
    - assert (l = []) by (apply zlen_0_nil; lia). subst. unfold pret. unfold total. cbn. f_equal; try (apply full_at; lia).
  Qed.
  Lemma go_mapping l : stored P i (mapping_bytes l) -> zlen l < 65536 -> sized 3 16777216 16777216 (map (fun x => entry_bytes (snd x)) l) ->
    goes parse_mapping i (mapping_bytes l).
  Proof.
    intros S L [[Z0 _] Z2]. pose proof (stored_range _ _ _ S) as [R1 R2]. unfold goes, parse_mapping. step (p_idx P i).
    unfold mapping_bytes, indexed in *. apply stored_app in S. destruct S as [S1 S]. pose proof (zlen_nonneg l). step (p_u16 _ _ _ S1 ltac:(lia)).
    assert (LC : zlen (concat (map (fun x : Z * entry => le_digits 4 (fst x)) l)) = 4 * zlen l) by (apply zlen_concat_fixed; reflexivity).
    rewrite !zlen_app, zlen_le_digits, !zlen_offsets, !zlen_map, LC in *. set (t := map (fun x : Z * entry => entry_bytes (snd x)) l) in *. fold (total t) in *.
    assert (LT : zlen t = zlen l) by (apply zlen_map). assert (0 <= total t) by apply zlen_nonneg. change (Z.of_nat 2) with 2 in *. change (Z.of_nat 3) with 3 in *.
    destruct (Z.gtb_spec (zlen l) 0) as [N|].
    - apply stored_app in S. destruct S as [S2 S]. apply stored_app in S. destruct S as [S3 S4]. rewrite ?zlen_le_digits, ?LC in *. change (Z.of_nat 2) with 2 in *.
      step (p_adv P (i + 2) (zlen l * 4) ltac:(lia) ltac:(lia)). step (p_adv P (i + 2 + zlen l * 4) ((zlen l - 1) * 3) ltac:(lia) ltac:(lia)).
      apply stored_last in S3; [|lia]. rewrite LT in S3.
      eapply stored_at with (off' := i + 2 + zlen l * 4 + (zlen l - 1) * 3) in S3; [|lia].
      step (p_u24 _ _ _ S3 ltac:(lia)).
      step (p_when (total t <? zlen l * 3) "MappingEndOffsets declares Mappings to end before allowed" P (i + 2 + zlen l * 4 + (zlen l - 1) * 3 + 3) ltac:(lia)).
      step (p_adv P (i + 2 + zlen l * 4 + (zlen l - 1) * 3 + 3) (total t) ltac:(lia) ltac:(lia)).
      unfold pret. f_equal; try (apply full_at; lia).
    - assert (l = []) by (apply zlen_0_nil; lia). subst. unfold pret. unfold total. cbn. f_equal; try (apply full_at; lia).
  Qed.
  Lemma go_u16 minLen msg l : stored P i (zlen l :: indexed 2 l) -> zlen l <= 255 -> total l < 65536 -> (0 < zlen l -> minLen (zlen l) <= total l) ->
    goes (parse_u16_blocks minLen msg) i (zlen l :: indexed 2 l).
  Proof.
    intros S L Z2 Z0. pose proof (stored_range _ _ _ S) as [R1 R2]. unfold goes, parse_u16_blocks. step (p_idx P i).
    unfold indexed in *. apply stored_cons in S. destruct S as [G S]. pose proof (zlen_nonneg l). step (p_u8 _ _ _ G).
    rewrite zlen_cons, !zlen_app, !zlen_offsets in *. fold (total l) in *. change (Z.of_nat 2) with 2 in *. assert (0 <= total l) by apply zlen_nonneg.
    destruct (Z.gtb_spec (zlen l) 0) as [N|].
    - apply stored_app in S. destruct S as [S3 S4]. step (p_adv P (i + 1) ((zlen l - 1) * 2) ltac:(lia) ltac:(lia)).
      apply stored_last in S3; [|lia]. step (p_u16 _ _ _ S3 ltac:(lia)). change (Z.of_nat 2) with 2. specialize (Z0 N).
      step (p_when (total l <? minLen (zlen l)) msg P (i + 1 + (zlen l - 1) * 2 + 2) ltac:(lia)).
      step (p_adv P (i + 1 + (zlen l - 1) * 2 + 2) (total l) ltac:(lia) ltac:(lia)).
      unfold pret. f_equal; try (apply full_at; lia).
    - assert (l = []) by (apply zlen_0_nil; lia). subst. unfold pret. unfold total. cbn. f_equal; try (apply full_at; lia).
  Qed.
  Lemma go_rules w hi before beyond l : stored P i (rules_bytes w l) -> zlen l < 65536 -> sized 8 hi 16777216 (map (rule_bytes w) l) ->
    goes (parse_rules hi before beyond) i (rules_bytes w l).
  Proof.
    intros S L [[Z0 Z1] Z2]. pose proof (stored_range _ _ _ S) as [R1 R2]. unfold goes, parse_rules. step (p_idx P i).
    unfold rules_bytes, indexed in *. apply stored_app in S. destruct S as [S1 S]. pose proof (zlen_nonneg l). step (p_u16 _ _ _ S1 ltac:(lia)).
    rewrite !zlen_app, zlen_le_digits, !zlen_offsets, !zlen_map in *. set (t := map (rule_bytes w) l) in *. fold (total t) in *.
    assert (LT : zlen t = zlen l) by (apply zlen_map). assert (0 <= total t) by apply zlen_nonneg. change (Z.of_nat 2) with 2 in *. change (Z.of_nat 3) with 3 in *.
    destruct (Z.gtb_spec (zlen l) 0) as [N|].
    - apply stored_app in S. destruct S as [S3 S4]. rewrite ?zlen_le_digits in *. change (Z.of_nat 2) with 2 in *.
      step (p_adv P (i + 2) ((zlen l - 1) * 3) ltac:(lia) ltac:(lia)).
      apply stored_last in S3; [|lia]. rewrite LT in S3. change (Z.of_nat 3) with 3 in *.
      step (p_ign24 _ _ _ S3 ltac:(lia)).
      step (p_when (total t <? zlen l * 8) before P (i + 2 + (zlen l - 1) * 3 + 3) ltac:(lia)).
      step (p_when (total t >? zlen l * hi) beyond P (i + 2 + (zlen l - 1) * 3 + 3) ltac:(lia)).
      step (p_adv P (i + 2 + (zlen l - 1) * 3 + 3) (total t) ltac:(lia) ltac:(lia)).
      unfold pret. f_equal; try (apply full_at; lia).
    - assert (l = []) by (apply zlen_0_nil; lia). subst. unfold pret. unfold total. cbn. f_equal; try (apply full_at; lia).
  Qed.
  Lemma go_kernings n msg l : stored P i (kernings_bytes l) -> zlen l < 16777216 -> zlen l <= n * n -> goes (parse_kernings n msg) i (kernings_bytes l).
  Proof.
    intros S L Z1. pose proof (stored_range _ _ _ S) as [R1 R2]. unfold goes, parse_kernings. step (p_idx P i).
    unfold kernings_bytes in *. apply stored_app in S. destruct S as [S1 S]. pose proof (zlen_nonneg l). step (p_ign24 _ _ _ S1 ltac:(lia)).
    assert (LC : zlen (concat (map (fun p : Z * Z * Z => le_digits 4 (pair_key p)) l)) = 4 * zlen l) by (apply zlen_concat_fixed; reflexivity).
    assert (LD : zlen (concat (map (fun p : Z * Z * Z => le_digits 1 (pair_value p)) l)) = 1 * zlen l) by (apply zlen_concat_fixed; reflexivity).
    rewrite !zlen_app, zlen_le_digits, LC, LD in *. change (Z.of_nat 3) with 3 in *.
    destruct (Z.gtb_spec (zlen l) 0) as [N|].
    - step (p_when (zlen l >? n * n) msg P (i + 3) ltac:(lia)). step (p_adv P (i + 3) (zlen l * 5) ltac:(lia) ltac:(lia)). unfold pret. f_equal; try (apply full_at; lia).
    - unfold pret. f_equal; try (apply full_at; lia).
  Qed.
End Sections.

Lemma stored_join d i a b : stored d i a -> stored d (i + zlen a) b -> stored d i (a ++ b).
Proof.
  intros (pre & post & E1 & Z1) (pre' & post' & E2 & Z2).
  assert (X : firstn (length pre') d = pre') by (rewrite E2, firstn_app, Nat.sub_diag, firstn_all; cbn [firstn]; apply app_nil_r).
  assert (Y : firstn (length (pre ++ a)) d = pre ++ a) by (rewrite E1, app_assoc, firstn_app, Nat.sub_diag, firstn_all; cbn [firstn]; apply app_nil_r).
  replace (length (pre ++ a)) with (length pre') in Y by (rewrite app_length; unfold zlen in *; lia).
  exists pre, post'. split; [|exact Z1]. rewrite E2. replace pre' with (pre ++ a) by congruence. rewrite <- !app_assoc. reflexivity.
Qed.
Lemma start_S l k s : nth_error (sections l) k = Some s -> section_start l (S k) = section_start l k + zlen s.
Proof.
  intros H. unfold section_start. apply nth_error_split in H. destruct H as (l1 & l2 & E & <-). rewrite E.
  replace (S (length l1)) with (length (l1 ++ [s])) by (rewrite app_length; cbn; lia). change (s :: l2) with ([s] ++ l2). rewrite app_assoc at 1.
  rewrite firstn_app, Nat.sub_diag, firstn_all. cbn [firstn]. rewrite app_nil_r, concat_app, zlen_app.
  rewrite firstn_app, Nat.sub_diag, firstn_all. cbn [firstn concat]. rewrite !app_nil_r. reflexivity.
Qed.

Lemma sections_accepted l : accepted (fun id => entropy_too_low id = false) l -> 
  exists f, parse_sections (full (font_bytes l) 0) = POk f (full (font_bytes l) (zlen (font_bytes l))) /\ set_Data f (font_bytes l) = font_of l.
Proof.
  intros [AB AS (AH1 & AH2 & AH3 & AH4) (AG1 & AG2) (AM1 & AM2 & AM3) (AC1 & AC2 & AC3) (AN1 & AN2) AK (AW1 & AW2) (AT1 & AT2 & AT3) (AX1 & AX2) (AP1 & AP2) (AO1 & AO2) (AU1 & AU2) (AV1 & AV2) (AR1 & AR2) (AQ1 & AQ2) (AY1 & AY2 & AY3 & AY4)].
  set (P := font_bytes l).
  assert (MR : metrics_in_range (l_metrics l)).
  { split; [rewrite AG1; lia|]. unfold font_bytes, sections in AB. cbn [concat] in AB. unfold bytes in *. rewrite !Forall_app in AB. tauto. }
  pose proof (st_header l) as S0. pose proof (st_metrics l) as S1. pose proof (st_dyes l) as S2. pose proof (st_palettes l) as S3. pose proof (st_names l) as S4.
  pose proof (st_masks l) as S5. pose proof (st_words l) as S6. pose proof (st_setting_names l) as S7. pose proof (st_setting_defs l) as S8. pose proof (st_switches l) as S9.
  pose proof (st_mapping l) as S10. pose proof (st_conditions l) as S11. pose proof (st_utf8_sets l) as S12. pose proof (st_glyph_sets l) as S13.
  pose proof (st_utf8_rules l) as S14. pose proof (st_glyph_rules l) as S15. pose proof (st_horz l) as S16. pose proof (st_vert l) as S17.
  cbn [font_of Data OffsetToMetrics OffsetToDyes OffsetToPalettes OffsetToGlyphNames OffsetToGlyphMasks OffsetToWords OffsetToSettingNames
    OffsetToSettingDefinitions OffsetToMappingSwitches OffsetToMapping OffsetToRewriteConditions OffsetToRewriteUtf8Sets OffsetToRewriteGlyphSets
    OffsetToUtf8Rewrites OffsetToGlyphRewrites OffsetToHorzKernings OffsetToVertKernings] in *. fold P in S0, S1, S2, S3, S4, S5, S6, S7, S8, S9, S10, S11, S12, S13, S14, S15, S16, S17.
  pose proof (metrics_stored _ _ _ S1 MR) as (M1 & M2 & _).
  assert (HL : zlen (header_bytes (l_header l)) < zlen P).
  { destruct (payload_header l) as (post & E & N). unfold P. rewrite E, zlen_app. destruct post; [contradiction|]. rewrite zlen_cons. pose proof (zlen_nonneg post). lia. }
  pose proof (go_header P 0 _ _ (fun x H => H) eq_refl S0 HL AH1 AH2 AH3 AH4) as G0.
  pose proof (go_metrics P _ _ S1 MR ltac:(lia) AM1 AM2 AM3) as G1.
  assert (U1 : total (map snd (l_dyes l)) <= 255) by (unfold total in *; pose proof (zlen_nonneg (concat (map snd (l_palettes l)))); lia).
  pose proof (go_dyes P _ _ S2 AC1 U1) as G2. pose proof (go_palettes P _ _ (total (map snd (l_dyes l))) S3 AC2 (zlen_nonneg _) AC3) as G3.
  pose proof (go_names P _ _ _ _ _ S4 M1 M2 ltac:(lia) ltac:(lia) AN2) as G4. pose proof (go_masks P _ _ _ S5 AG2 AK) as G5.
  pose proof (go_words P _ _ S6 AW1 AW2) as G6.
  assert (S7' : stored P (section_start l 7) (setting_names_bytes (l_settings l) ++ setting_defs_bytes (l_settings l))).
  { apply stored_join; [exact S7|]. rewrite <- (start_S l 7 _ eq_refl). exact S8. }
  pose proof (go_settings P _ _ S7' AT1 AT2 AT3) as G7. pose proof (go_switches P _ _ _ S9 AX1 AX2) as G9. pose proof (go_mapping P _ _ S10 AP1 AP2) as G10.
  destruct AO2 as [[AO3 _] AO4]. destruct AU2 as [[AU3 _] AU4]. destruct AV2 as [[AV3 _] AV4].
  assert (G11 : goes P (section_start l 11) parse_conditions (section_start l 11) (conditions_bytes (l_conditions l))).
  { unfold conditions_bytes, parse_conditions in *. rewrite <- (zlen_map condition_bytes) in *. apply go_u16; [exact S11|exact AO1|exact AO4|]. lia. }
  assert (G12 : goes P (section_start l 12) parse_utf8_sets (section_start l 12) (sets_bytes 4 (l_utf8_sets l))).
  { unfold sets_bytes, parse_utf8_sets in *. rewrite <- (zlen_map (set_bytes 4)) in *. apply go_u16; [exact S12|exact AU1|exact AU4|]. lia. }
  assert (G13 : goes P (section_start l 13) parse_glyph_sets (section_start l 13) (sets_bytes 2 (l_glyph_sets l))).
  { unfold sets_bytes, parse_glyph_sets in *. rewrite <- (zlen_map (set_bytes 2)) in *. apply go_u16; [exact S13|exact AV1|exact AV4|]. lia. }
  pose proof (go_rules P _ 4 1026 "UTF8RuleEndOffsets declares UTF8Rules to end before allowed" "UTF8RuleEndOffsets declares UTF8Rules to end beyond allowed" _ S14 AR1 AR2) as G14.
  pose proof (go_rules P _ 2 514 "GlyphRuleEndOffsets declares GlyphRules to end before allowed" "GlyphRuleEndOffsets declares GlyphRules to end beyond allowed" _ S15 AQ1 AQ2) as G15.
  pose proof (go_kernings P _ (zlen (l_glyphs l)) "NumHorzKerningPairs can't exceed NumGlyphs^2" _ S16 AY1 AY2) as G16.
  pose proof (go_kernings P _ (zlen (l_glyphs l)) "NumVertKerningPairs can't exceed NumGlyphs^2" _ S17 AY3 AY4) as G17.
  unfold goes in *. rewrite AG1 in *.
  replace (0 + zlen (header_bytes (l_header l))) with (section_start l 1) in G0 by (rewrite (start_S l 0 _ eq_refl); reflexivity).
  rewrite <- (start_S l 1 _ eq_refl) in G1. rewrite <- (start_S l 2 _ eq_refl) in G2. rewrite <- (start_S l 3 _ eq_refl) in G3. rewrite <- (start_S l 4 _ eq_refl) in G4.
  rewrite <- (start_S l 5 _ eq_refl) in G5. rewrite <- (start_S l 6 _ eq_refl) in G6. rewrite zlen_app, Z.add_assoc, <- (start_S l 7 _ eq_refl), <- (start_S l 8 _ eq_refl) in G7.
  rewrite <- (start_S l 9 _ eq_refl) in G9. rewrite <- (start_S l 10 _ eq_refl) in G10. rewrite <- (start_S l 11 _ eq_refl) in G11. rewrite <- (start_S l 12 _ eq_refl) in G12.
  rewrite <- (start_S l 13 _ eq_refl) in G13. rewrite <- (start_S l 14 _ eq_refl) in G14. rewrite <- (start_S l 15 _ eq_refl) in G15. rewrite <- (start_S l 16 _ eq_refl) in G16.
  rewrite <- (start_S l 17 _ eq_refl) in G17.
  assert (CV : color_Validate P (section_start l 2) (section_start l 3) = Ok tt).
  { unfold color_Validate. apply stored_cons in S2. apply stored_cons in S3. rewrite (proj1 S2), (proj1 S3). cbn [bind].
    destruct AC1 as [X1 _]. destruct AC2 as [X2 _]. destruct (Z.gtb_spec (zlen (l_dyes l) + zlen (l_palettes l)) 255); [lia|reflexivity]. }
  assert (GV : glyphs_Validate P (section_start l 1) (section_start l 4) = Ok tt).
  { unfold glyphs_Validate. unfold glyph_names_bytes in S4. apply stored_app in S4. rewrite <- (bind_assoc (zslice _ _ _) DecodeUint16LE).
    pose proof (zlen_nonneg (l_names l)). rewrite (slice16 _ _ _ _ (proj1 S4)) by lia. cbn [bind]. rewrite M1. cbn [bind]. destruct (Z.gtb_spec (zlen (l_names l)) (zlen (l_glyphs l))); [lia|reflexivity]. }
  eexists. split.
  - unfold parse_sections. step G0. step G1. rewrite (bind_ok _ _ _ _ _ G2). step G3. step (p_bytes (fun b => color_Validate b (section_start l 2) (section_start l 3)) P (section_start l 4) tt CV).
    step G4. step G5. step (p_bytes (fun b => glyphs_Validate b (section_start l 1) (section_start l 4)) P (section_start l 6) tt GV). step G6. step G7. step G9. step G10. step G11. step G12. step G13.
    unfold parse_utf8_rules, parse_glyph_rules. step G14. step G15. step G16. step G17. unfold pret. reflexivity.
  - reflexivity.
Qed.

Lemma accepted_parses l i : accepted (fun id => entropy_too_low id = false) l -> delivers i (font_bytes l) -> parse_payload i = Ok (font_of l).
Proof.
  intros A D. destruct (sections_accepted l A) as (f & E & <-). eapply payload_ok; [split; [exact (ac_bytes _ _ A)|exact (ac_size _ _ A)]|exact D|exact E|]. left. reflexivity.
Qed.
