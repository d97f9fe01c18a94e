From Verif Require Import Base BaseFacts Spec_Helpers Model_Helpers Proofs_Helpers Model_Words Model_Font Model_Rewrites Model_Parse Spec_Parse Spec_Parsed.
From Verif Require Import Proofs_Parse Proofs_Parse2 Proofs_Flat Proofs_Parsed.

Lemma byte_num d i : byte_at d i = num 1 d i.
Proof.
  unfold byte_at, num. generalize (Z.to_nat i). induction d as [|x r IH]; intros [|n]; cbn; try lia; auto. rewrite IH. reflexivity.
Qed.
Lemma num_range w d i : bytes d -> 0 <= num w d i < 256 ^ Z.of_nat w.
Proof. exact (le_at_range w d i). Qed.

Section Data.
  Variable d : list Z.
  Hypothesis HD : bytes d.

  Lemma get_num i : 0 <= i -> i + 1 <= zlen d -> zget d i = Ok (num 1 d i).
  Proof. intros H0 H. rewrite (zget_nth d i 0) by lia. now rewrite <- byte_num. Qed.
  Lemma from2 i : 0 <= i -> i + 2 <= zlen d -> (do b <- zfrom d i; DecodeUint16LE b) = Ok (num 2 d i).
  Proof.
    intros H0 H. rewrite zfrom_ok by lia. cbn [bind]. rewrite decode16_spec by now apply bytes_skipn. rewrite zlen_skipn.
    destruct (Z.ltb_spec (Z.max 0 (zlen d - Z.of_nat (Z.to_nat i))) 2); [lia|reflexivity].
  Qed.
  Lemma from3 i : 0 <= i -> i + 3 <= zlen d -> (do b <- zfrom d i; DecodeUint24LE b) = Ok (num 3 d i).
  Proof.
    intros H0 H. rewrite zfrom_ok by lia. cbn [bind]. rewrite decode24_spec by now apply bytes_skipn. rewrite zlen_skipn.
    destruct (Z.ltb_spec (Z.max 0 (zlen d - Z.of_nat (Z.to_nat i))) 3); [lia|reflexivity].
  Qed.
  Lemma from4 i : 0 <= i -> i + 4 <= zlen d -> (do b <- zfrom d i; DecodeUint32LE b) = Ok (num 4 d i).
  Proof.
    intros H0 H. rewrite zfrom_ok by lia. cbn [bind]. rewrite decode32_spec by now apply bytes_skipn. rewrite zlen_skipn.
    destruct (Z.ltb_spec (Z.max 0 (zlen d - Z.of_nat (Z.to_nat i))) 4); [lia|reflexivity].
  Qed.
  Lemma slice2 i j : 0 <= i -> j = i + 2 -> j <= zlen d -> (do b <- zslice d i j; DecodeUint16LE b) = Ok (num 2 d i).
  Proof.
    intros H0 -> H. rewrite zslice_ok by lia. cbn [bind]. rewrite decode16_spec by now apply bytes_firstn, bytes_skipn. rewrite zlen_firstn, zlen_skipn.
    destruct (Z.ltb_spec (Z.min (Z.of_nat (Z.to_nat (i + 2 - i))) (Z.max 0 (zlen d - Z.of_nat (Z.to_nat i)))) 2); [lia|].
    f_equal. unfold num. rewrite firstn_firstn. now replace (Nat.min 2 (Z.to_nat (i + 2 - i))) with 2%nat by lia.
  Qed.
  Lemma slice3 i j : 0 <= i -> j = i + 3 -> j <= zlen d -> (do b <- zslice d i j; DecodeUint24LE b) = Ok (num 3 d i).
  Proof.
    intros H0 -> H. rewrite zslice_ok by lia. cbn [bind]. rewrite decode24_spec by now apply bytes_firstn, bytes_skipn. rewrite zlen_firstn, zlen_skipn.
    destruct (Z.ltb_spec (Z.min (Z.of_nat (Z.to_nat (i + 3 - i))) (Z.max 0 (zlen d - Z.of_nat (Z.to_nat i)))) 3); [lia|].
    f_equal. unfold num. rewrite firstn_firstn. now replace (Nat.min 3 (Z.to_nat (i + 3 - i))) with 3%nat by lia.
  Qed.
  Lemma slice_part a b : 0 <= a <= b -> b <= zlen d -> zslice d a b = Ok (part d a b).
  Proof. intros. now rewrite zslice_ok by lia. Qed.
  Lemma string_part a n : 0 <= a -> 0 < n -> a + n <= zlen d -> unsafe_string d a n = Ok (part d a (a + n)).
  Proof. intros. unfold unsafe_string. rewrite get_num by lia. cbn [bind]. now rewrite slice_part by lia. Qed.
End Data.

(** ** Loops over names *)
Lemma end_nonneg w d t k : bytes d -> 0 <= end_of w d t k.
Proof. intros H. apply num_range, H. Qed.
Lemma start_nonneg w d t k : bytes d -> 0 <= start_of w d t k.
Proof. intros H. unfold start_of. destruct (k =? 0); [lia|]. now apply end_nonneg. Qed.
Lemma rising_le w d t n : rising w d t n -> forall k, 0 <= k < n -> end_of w d t k <= end_of w d t (n - 1).
Proof.
  intros R k Hk. remember (Z.to_nat (n - 1 - k)) as m eqn:Em. revert k Hk Em. induction m as [|m IH]; intros k Hk Em.
  - replace k with (n - 1) by lia. lia.
  - specialize (IH (k + 1) ltac:(lia) ltac:(lia)). specialize (R (k + 1) ltac:(lia)). unfold start_of in R. destruct (Z.eqb_spec (k + 1) 0); [lia|].
    replace (k + 1 - 1) with k in R by lia. lia.
Qed.
Lemma rising_in_order w d t n : rising w d t n -> forall k, 0 <= k < n -> in_order w d t n k.
Proof. intros R k Hk. split; [lia|]. split; [now apply R|now apply rising_le]. Qed.

Lemma framed_end w d t n j : framed w d t n j -> 0 < n -> t + Z.of_nat w * n + end_of w d t (n - 1) = j /\ j <= zlen d.
Proof. intros (_ & _ & H1 & H2) H. split; [exact (H2 H)|lia]. Qed.

Lemma names_loop_ok d t n j : bytes d -> framed 2 d t n j -> rising 2 d t n -> forall m k, Z.of_nat m + k = n -> 0 <= k ->
  names_loop m d (t + 2 * k) (t + 2 * n) (start_of 2 d t k) k = Ok (map (fun i => (i, block 2 d t n i)) (map Z.of_nat (seq (Z.to_nat k) m))).
Proof.
  intros HD HF HR. induction m as [|m IH]; intros k Hm Hk; [reflexivity|]. cbn [names_loop].
  pose proof (framed_end _ _ _ _ _ HF ltac:(lia)) as [E1 E2]. change (Z.of_nat 2) with 2 in E1. pose proof HF as (T0 & _ & T1 & _). change (Z.of_nat 2) with 2 in T1.
  pose proof (end_nonneg 2 d t (n - 1) HD). pose proof (rising_le _ _ _ _ HR k ltac:(lia)). pose proof (HR k ltac:(lia)) as SR. pose proof (start_nonneg 2 d t k HD).
  assert (A : (do b <- zfrom d (t + 2 * k); DecodeUint16LE b) = Ok (end_of 2 d t k)) by (rewrite from2 by (auto; lia); reflexivity).
  destruct (zfrom d (t + 2 * k)) as [b|e| |]; try discriminate A. cbn [bind] in A |- *. rewrite A. cbn [bind].
  destruct (Z.leb_spec (end_of 2 d t k) (start_of 2 d t k)); [lia|].
  rewrite string_part by lia. cbn [bind].
  replace (t + 2 * k + 2) with (t + 2 * (k + 1)) by lia.
  replace (names_loop m d (t + 2 * (k + 1)) (t + 2 * n) (end_of 2 d t k) (k + 1)) with (names_loop m d (t + 2 * (k + 1)) (t + 2 * n) (start_of 2 d t (k + 1)) (k + 1))
    by (f_equal; unfold start_of; destruct (Z.eqb_spec (k + 1) 0); [lia|]; now replace (k + 1 - 1) with k by lia).
  rewrite IH by lia. cbn [bind]. cbn [seq map]. f_equal. f_equal; [|now replace (Z.to_nat (k + 1)) with (S (Z.to_nat k)) by lia].
  rewrite Z2Nat.id by lia. f_equal. unfold block. change (Z.of_nat 2) with 2. f_equal. lia.
Qed.
Lemma setting_loop_ok d t n j : bytes d -> framed 2 d t n j -> rising 2 d t n -> forall m k, Z.of_nat m + k = n -> 0 <= k ->
  setting_names_loop m d t (t + 2 * n) (start_of 2 d t k) k = Ok (map (fun i => (i, block 2 d t n i)) (map Z.of_nat (seq (Z.to_nat k) m))).
Proof.
  intros HD HF HR. induction m as [|m IH]; intros k Hm Hk; [reflexivity|]. cbn [setting_names_loop].
  pose proof (framed_end _ _ _ _ _ HF ltac:(lia)) as [E1 E2]. change (Z.of_nat 2) with 2 in E1. pose proof HF as (T0 & _ & T1 & _). change (Z.of_nat 2) with 2 in T1.
  pose proof (end_nonneg 2 d t (n - 1) HD). pose proof (rising_le _ _ _ _ HR k ltac:(lia)). pose proof (HR k ltac:(lia)) as SR. pose proof (start_nonneg 2 d t k HD).
  replace (t + k * 2) with (t + 2 * k) by lia.
  assert (A : (do b <- zfrom d (t + 2 * k); DecodeUint16LE b) = Ok (end_of 2 d t k)) by (rewrite from2 by (auto; lia); reflexivity).
  destruct (zfrom d (t + 2 * k)) as [b|e| |]; try discriminate A. cbn [bind] in A |- *. rewrite A. cbn [bind].
  destruct (Z.ltb_spec (end_of 2 d t k - start_of 2 d t k) 0); [lia|].
  rewrite string_part by lia. cbn [bind].
  replace (setting_names_loop m d t (t + 2 * n) (end_of 2 d t k) (k + 1)) with (setting_names_loop m d t (t + 2 * n) (start_of 2 d t (k + 1)) (k + 1))
    by (f_equal; unfold start_of; destruct (Z.eqb_spec (k + 1) 0); [lia|]; now replace (k + 1 - 1) with k by lia).
  rewrite IH by lia. cbn [bind]. cbn [seq map]. f_equal. f_equal; [|now replace (Z.to_nat (k + 1)) with (S (Z.to_nat k)) by lia].
  rewrite Z2Nat.id by lia. f_equal. unfold block. change (Z.of_nat 2) with 2. f_equal. lia.
Qed.

(** ** Accessors *)
Lemma shl1 n : Z.shiftl n 1 = 2 * n.
Proof. rewrite Z.shiftl_mul_pow2 by lia. lia. Qed.
Lemma shl2 n : Z.shiftl n 2 = 4 * n.
Proof. rewrite Z.shiftl_mul_pow2 by lia. lia. Qed.
Ltac bind_from L := lazymatch goal with |- context [bind (zfrom ?d ?i) ?k] =>
  let A := fresh in pose proof (L : (bind (zfrom d i) _) = _) as A; destruct (zfrom d i) as [?b|?e| |]; try discriminate A; cbn [bind] in A |- *; rewrite A; clear A; cbn [bind] end.
Ltac bind_slice L := lazymatch goal with |- context [bind (zslice ?d ?i ?j) ?k] =>
  let A := fresh in pose proof (L : (bind (zslice d i j) _) = _) as A; destruct (zslice d i j) as [?b|?e| |]; try discriminate A; cbn [bind] in A |- *; rewrite A; clear A; cbn [bind] end.

(** the block of an entry of a table of two byte ends *)
Lemma two_ends d t k : bytes d -> 0 <= k -> 0 <= t -> t + 2 * k + 2 <= zlen d ->
  (do b <- zfrom d (t + 2 * k); DecodeUint16LE b) = Ok (end_of 2 d t k) /\
  (if k >? 0 then do b <- zfrom d (t + 2 * k - 2); DecodeUint16LE b else Ok 0) = Ok (start_of 2 d t k).
Proof.
  intros HD Hk Ht HL. split; [rewrite from2 by (auto; lia); reflexivity|]. unfold start_of.
  destruct (Z.gtb_spec k 0); destruct (Z.eqb_spec k 0); try lia; [|reflexivity].
  rewrite from2 by (auto; lia). unfold end_of. change (Z.of_nat 2) with 2. do 2 f_equal. lia.
Qed.

Section Font.
  Variable f : Font.
  Hypothesis HF : parsed f.
  Let d := Data f.
  Let HD : bytes d := proj1 (parsed_frames f HF).
  Let FR : frames d f := proj2 (parsed_frames f HF).

  Lemma numbers :
    color_NumDyes f = Ok (dye_count f) /\ color_NumPalettes f = Ok (palette_count f) /\
    color_NumDyeIndices f = Ok (num 1 d (OffsetToDyes f + dye_count f)) /\
    color_NumPaletteIndices f = Ok (num 1 d (OffsetToPalettes f + palette_count f)) /\
    color_Count f = Ok (num 1 d (OffsetToDyes f + dye_count f) + num 1 d (OffsetToPalettes f + palette_count f)) /\
    glyphs_Count f = Ok (glyph_count f) /\ glyphs_NamedCount f = Ok (name_count f) /\
    settings_NumWords f = Ok (word_count f) /\ settings_Count f = Ok (setting_count f) /\
    mapping_NumSwitchTypes f = Ok (num 1 d (OffsetToMappingSwitches f)) /\ mapping_NumEntries f = Ok (entry_count f) /\
    rewrites_NumConditions f = Ok (num 1 d (OffsetToRewriteConditions f)) /\
    rewrites_NumUTF8Sets f = Ok (num 1 d (OffsetToRewriteUtf8Sets f)) /\ rewrites_NumGlyphSets f = Ok (num 1 d (OffsetToRewriteGlyphSets f)) /\
    rewrites_NumUTF8Rules f = Ok (num 2 d (OffsetToUtf8Rewrites f)) /\ rewrites_NumGlyphRules f = Ok (num 2 d (OffsetToGlyphRewrites f)).
  Proof.
    pose proof FR as FRc. destruct FRc as [A0 A1 A2 A3 A4 A5 A6 A7 A8 A9 B0 B1 B2 B3 B4 B5 B6]. cbv zeta in *. rewrite !byte_num in *.
    change (num 1 d (OffsetToDyes f)) with (dye_count f) in *. change (num 1 d (OffsetToPalettes f)) with (palette_count f) in *.
    assert (C1 : color_NumDyes f = Ok (dye_count f)) by (apply get_num; fold d; lia).
    assert (C2 : color_NumPalettes f = Ok (palette_count f)) by (apply get_num; fold d; lia).
    assert (C3 : color_NumDyeIndices f = Ok (num 1 d (OffsetToDyes f + dye_count f))) by (unfold color_NumDyeIndices; rewrite C1; cbn [bind]; apply get_num; fold d; lia).
    assert (C4 : color_NumPaletteIndices f = Ok (num 1 d (OffsetToPalettes f + palette_count f))) by (unfold color_NumPaletteIndices; rewrite C2; cbn [bind]; apply get_num; fold d; lia).
    repeat match goal with |- _ /\ _ => split end; auto; try (apply get_num; fold d; lia); try (apply from2; fold d; auto; lia).
    - unfold color_Count. rewrite C3, C4. cbn [bind]. unfold u8. rewrite Z.mod_small by lia.
      destruct (Z.ltb_spec (num 1 d (OffsetToDyes f + dye_count f) + num 1 d (OffsetToPalettes f + palette_count f)) (num 1 d (OffsetToDyes f + dye_count f))); [lia|reflexivity].
    - apply slice2; fold d; auto; lia.
    - apply slice2; fold d; auto; lia.
  Qed.

  (** *** words, options *)
  Lemma word k : in_order 2 d (word_table f) (word_count f) k -> settings_GetWord f k = Ok (block 2 d (word_table f) (word_count f) k).
  Proof.
    intros (Hk & S1 & S2). destruct numbers as (_ & _ & _ & _ & _ & _ & _ & N & _). unfold settings_GetWord. rewrite N. cbn [bind].
    destruct (Z.ltb_spec k (word_count f)); [|lia]. pose proof (fr_words _ _ FR) as (A0 & A1 & A2). rewrite byte_num in A2. change (num 1 d (OffsetToWords f)) with (word_count f) in A2.
    pose proof (framed_end _ _ _ _ _ A2 ltac:(lia)) as [E1 E2]. pose proof A2 as (T0 & _ & T1 & _). change (Z.of_nat 2) with 2 in *. fold (word_table f) in *.
    pose proof (end_nonneg 2 d (word_table f) (word_count f - 1) HD). pose proof (start_nonneg 2 d (word_table f) k HD).
    destruct (two_ends d (word_table f) k) as [Q1 Q2]; auto; try lia. rewrite !shl1. cbv zeta. fold d. bind_from Q1. rewrite Q2. cbn [bind].
    destruct (Z.leb_spec (end_of 2 d (word_table f) k) (start_of 2 d (word_table f) k)); [lia|].
    rewrite string_part by (auto; lia). unfold block. change (Z.of_nat 2) with 2. do 2 f_equal. lia.
  Qed.
  Lemma options k : 0 <= k < setting_count f -> settings_GetNumOptions f k =
    let n := end_of 2 d (setting_table f) k - start_of 2 d (setting_table f) k in if (0 <? n) && (n <=? 255) then Ok n else Panic.
  Proof.
    intros Hk. destruct numbers as (_ & _ & _ & _ & _ & _ & _ & _ & N & _). unfold settings_GetNumOptions. rewrite N. cbn [bind].
    destruct (Z.geb_spec k (setting_count f)); [lia|]. pose proof (fr_settings _ _ FR) as (A0 & A1 & _ & A2). rewrite byte_num in A2. change (num 1 d (OffsetToSettingNames f)) with (setting_count f) in A2.
    pose proof A2 as (T0 & _ & T1 & _). change (Z.of_nat 2) with 2 in *. fold (setting_table f) in *.
    destruct (two_ends d (setting_table f) k) as [Q1 Q2]; auto; try lia. unfold setting_range. rewrite !shl1. cbv zeta. fold (setting_table f) d. bind_from Q1. rewrite Q2. cbn [bind].
    destruct (Z.leb_spec (end_of 2 d (setting_table f) k) (start_of 2 d (setting_table f) k)), (Z.ltb_spec 0 (end_of 2 d (setting_table f) k - start_of 2 d (setting_table f) k)); try lia; [reflexivity|].
    rewrite Z.gtb_ltb. destruct (Z.ltb_spec 255 (end_of 2 d (setting_table f) k - start_of 2 d (setting_table f) k)), (Z.leb_spec (end_of 2 d (setting_table f) k - start_of 2 d (setting_table f) k) 255); try lia; reflexivity.
  Qed.
  Lemma option_name k o : in_order 2 d (setting_table f) (setting_count f) k -> 0 <= o < end_of 2 d (setting_table f) k - start_of 2 d (setting_table f) k ->
    end_of 2 d (setting_table f) k - start_of 2 d (setting_table f) k <= 255 ->
    settings_GetOptionName f k o = settings_GetWord f (num 1 d (setting_table f + 2 * setting_count f + start_of 2 d (setting_table f) k + o)).
  Proof.
    intros (Hk & S1 & S2) Ho H255. destruct numbers as (_ & _ & _ & _ & _ & _ & _ & _ & N & _). unfold settings_GetOptionName. rewrite N. cbn [bind].
    destruct (Z.geb_spec k (setting_count f)); [lia|]. pose proof (fr_settings _ _ FR) as (A0 & A1 & _ & A2). rewrite byte_num in A2. change (num 1 d (OffsetToSettingNames f)) with (setting_count f) in A2.
    pose proof (framed_end _ _ _ _ _ A2 ltac:(lia)) as [E1 E2]. pose proof A2 as (T0 & _ & T1 & _). change (Z.of_nat 2) with 2 in *. fold (setting_table f) in *.
    pose proof (start_nonneg 2 d (setting_table f) k HD).
    destruct (two_ends d (setting_table f) k) as [Q1 Q2]; auto; try lia. unfold setting_range. rewrite !shl1. cbv zeta. fold (setting_table f) d. bind_from Q1. rewrite Q2. cbn [bind].
    destruct (Z.leb_spec (end_of 2 d (setting_table f) k) (start_of 2 d (setting_table f) k)); [lia|].
    rewrite Z.gtb_ltb. destruct (Z.ltb_spec 255 (end_of 2 d (setting_table f) k - start_of 2 d (setting_table f) k)); [lia|]. cbn [bind].
    destruct (Z.geb_spec o (end_of 2 d (setting_table f) k - start_of 2 d (setting_table f) k)); [lia|].
    rewrite get_num by lia. reflexivity.
  Qed.

  (** *** names *)
  Lemma each_dye : rising 2 d (dye_names f) (dye_count f) -> color_EachDye f = Ok (map (fun k => (k, block 2 d (dye_names f) (dye_count f) k)) (zseq (dye_count f))).
  Proof.
    intros R. destruct numbers as (N1 & _ & N2 & _). unfold color_EachDye. rewrite N1. cbn [bind]. rewrite N2. cbn [bind]. cbv zeta. rewrite shl1.
    pose proof (fr_dyes _ _ FR) as (_ & A1 & _ & _ & _ & A2). rewrite !byte_num in *. change (num 1 d (OffsetToDyes f)) with (dye_count f) in *. fold (dye_names f) in *.
    pose proof (names_loop_ok d (dye_names f) (dye_count f) _ HD A2 R (Z.to_nat (dye_count f)) 0 ltac:(lia) ltac:(lia)) as X.
    replace (dye_names f + 2 * 0) with (dye_names f) in X by lia. exact X.
  Qed.
  Lemma each_palette : rising 2 d (palette_names f) (palette_count f) -> color_EachPalette f = Ok (map (fun k => (k, block 2 d (palette_names f) (palette_count f) k)) (zseq (palette_count f))).
  Proof.
    intros R. destruct numbers as (_ & N1 & _ & N2 & _). unfold color_EachPalette. rewrite N1. cbn [bind]. rewrite N2. cbn [bind]. cbv zeta. rewrite shl1, shl2.
    pose proof (fr_palettes _ _ FR) as (_ & A1 & _ & _ & _ & A2). rewrite !byte_num in *. change (num 1 d (OffsetToPalettes f)) with (palette_count f) in *. fold (palette_names f) in *.
    pose proof (names_loop_ok d (palette_names f) (palette_count f) _ HD A2 R (Z.to_nat (palette_count f)) 0 ltac:(lia) ltac:(lia)) as X.
    replace (palette_names f + 2 * 0) with (palette_names f) in X by lia. exact X.
  Qed.
  Lemma each_setting : rising 2 d (setting_names f) (setting_count f) -> settings_Each f = Ok (map (fun k => (k, block 2 d (setting_names f) (setting_count f) k)) (zseq (setting_count f))).
  Proof.
    intros R. destruct numbers as (_ & _ & _ & _ & _ & _ & _ & _ & N & _). unfold settings_Each. rewrite N. cbn [bind]. cbv zeta.
    pose proof (fr_settings _ _ FR) as (_ & _ & A2 & _). rewrite !byte_num in *. change (num 1 d (OffsetToSettingNames f)) with (setting_count f) in *. fold (setting_names f) in *.
    pose proof A2 as (_ & T & _).
    pose proof (setting_loop_ok d (setting_names f) (setting_count f) _ HD A2 R (Z.to_nat (setting_count f)) 0 ltac:(lia) ltac:(lia)) as X.
    replace (setting_count f * 2) with (2 * setting_count f) by lia. exact X.
  Qed.
End Font.
