(** What the parser accepts of a laid out font is exactly what is within its limits. *)
From Verif Require Import Base BaseFacts Spec_Helpers Model_Helpers Proofs_Helpers Spec_Format Proofs_Format Proofs_Font Model_Font
  Model_Parse Spec_Parse Proofs_Parse Proofs_Parse2 Proofs_Parse6 Proofs_Parse8 Proofs_Parse9 Spec_Layout Spec_LayoutFont Proofs_Layout Spec_Accept Proofs_Accept.

Lemma when_step {A} (k : unit -> action A) b m P i v s (Q : Prop) : (b = false -> k tt (full P i) = POk v s -> Q) -> pbind (when b m) k (full P i) = POk v s -> Q.
Proof. intros H. unfold pbind, when. destruct b; [discriminate|]. exact (H eq_refl). Qed.
Ltac wh := apply when_step; let W := fresh "W" in intros W.
Lemma total_nonneg {A} (l : list (list A)) : 0 <= total l.
Proof. apply zlen_nonneg. Qed.
Ltac fin := repeat match goal with W : (_ <? _) = false |- _ => apply Z.ltb_ge in W | W : (_ >? _) = false |- _ => rewrite Z.gtb_ltb in W; apply Z.ltb_ge in W end;
  try lia.
Ltac none l := assert (l = []) by (apply zlen_0_nil; lia); subst l; unfold total; cbn [map concat]; rewrite ?zlen_nil; intuition lia.

Section Sections.
  Variable P : list Z.
  Variable i : Z.
  Lemma only_dyes l v s : stored P i (dyes_bytes l) -> total (map snd l) < 256 -> total (map fst l) < 65536 -> parse_dyes (full P i) = POk v s ->
    zlen l <= total (map snd l) /\ zlen l <= total (map fst l).
  Proof.
    intros S U C. pose proof (total_nonneg (map fst l)). pose proof (total_nonneg (map snd l)). pose proof (stored_range _ _ _ S) as [R1 R2].
    unfold parse_dyes. step (p_idx P i). unfold dyes_bytes, indexed in *. apply stored_cons in S. destruct S as [G S]. step (p_u8 _ _ _ G).
    rewrite zlen_cons, !zlen_app, !zlen_offsets, !zlen_map in *. fold (total (map fst l)) in *. fold (total (map snd l)) in *. pose proof (zlen_nonneg l).
    destruct (Z.gtb_spec (zlen l) 0) as [N|].
    - apply stored_app in S. destruct S as [S1 S]. apply stored_app in S. destruct S as [S2 S]. apply stored_app in S. destruct S as [S3 S4].
      rewrite !zlen_offsets, ?zlen_map in *. fold (total (map snd l)) in *. 
      step (p_adv P (i + 1) (zlen l - 1) ltac:(lia) ltac:(lia)).
      apply stored_last in S1; [|rewrite zlen_map; lia]. rewrite zlen_map in S1. change (le_digits 1 (total (map snd l))) with [total (map snd l) mod 256] in S1.
      apply stored_cons in S1. destruct S1 as [S1 _]. rewrite Z.mod_small in S1 by (split; [apply zlen_nonneg|lia]). replace (i + 1 + (zlen l - 1) * Z.of_nat 1) with (i + 1 + (zlen l - 1)) in S1 by lia.
      step (p_u8 _ _ _ S1). wh.
      step (p_adv P (i + 1 + (zlen l - 1) + 1) (total (map snd l)) ltac:(lia) ltac:(lia)).
      step (p_adv P (i + 1 + (zlen l - 1) + 1 + total (map snd l)) ((zlen l - 1) * 2) ltac:(lia) ltac:(lia)).
      apply stored_last in S3; [|rewrite zlen_map; lia]. rewrite zlen_map in S3.
      eapply stored_at with (off' := i + 1 + (zlen l - 1) + 1 + total (map snd l) + (zlen l - 1) * 2) in S3; [|lia].
      step (p_u16 _ _ _ S3 ltac:(lia)).
      wh.
      step (p_adv P (i + 1 + (zlen l - 1) + 1 + total (map snd l) + (zlen l - 1) * 2 + 2) (total (map fst l)) ltac:(lia) ltac:(lia)).
      intros _. fin.
    - intros _. none l.
  Qed.
  Lemma only_palettes l used v s : stored P i (palettes_bytes l) -> total (map snd l) < 256 -> total (map fst l) < 65536 -> 0 <= used <= 255 -> parse_palettes used (full P i) = POk v s ->
    zlen l <= total (map snd l) /\ zlen l <= total (map fst l) /\ used + total (map snd l) <= 255.
  Proof.
    intros S U C U0. pose proof (total_nonneg (map fst l)). pose proof (total_nonneg (map snd l)). pose proof (stored_range _ _ _ S) as [R1 R2].
    unfold parse_palettes. step (p_idx P i). unfold palettes_bytes, indexed in *. apply stored_cons in S. destruct S as [G S]. step (p_u8 _ _ _ G).
    assert (LC : zlen (concat (map color_bytes (concat (map snd l)))) = 4 * total (map snd l)).
    { unfold total. apply zlen_concat_fixed. intros [[[? ?] ?] ?]. reflexivity. }
    rewrite zlen_cons, !zlen_app, !zlen_offsets, !zlen_map, LC in *. fold (total (map fst l)) in *. pose proof (zlen_nonneg l).
    destruct (Z.gtb_spec (zlen l) 0) as [N|].
    - apply stored_app in S. destruct S as [S1 S]. apply stored_app in S. destruct S as [S2 S]. apply stored_app in S. destruct S as [S3 S4].
      rewrite !zlen_offsets, ?zlen_map, ?LC in *.
      step (p_adv P (i + 1) (zlen l - 1) ltac:(lia) ltac:(lia)).
      apply stored_last in S1; [|rewrite zlen_map; lia]. rewrite zlen_map in S1. change (le_digits 1 (total (map snd l))) with [total (map snd l) mod 256] in S1.
      apply stored_cons in S1. destruct S1 as [S1 _]. rewrite Z.mod_small in S1 by (split; [apply zlen_nonneg|lia]). replace (i + 1 + (zlen l - 1) * Z.of_nat 1) with (i + 1 + (zlen l - 1)) in S1 by lia.
      step (p_u8 _ _ _ S1). wh.
      wh.
      step (p_adv P (i + 1 + (zlen l - 1) + 1) (total (map snd l) * 4) ltac:(lia) ltac:(lia)).
      step (p_adv P (i + 1 + (zlen l - 1) + 1 + total (map snd l) * 4) ((zlen l - 1) * 2) ltac:(lia) ltac:(lia)).
      apply stored_last in S3; [|rewrite zlen_map; lia]. rewrite zlen_map in S3.
      eapply stored_at with (off' := i + 1 + (zlen l - 1) + 1 + total (map snd l) * 4 + (zlen l - 1) * 2) in S3; [|lia].
      step (p_u16 _ _ _ S3 ltac:(lia)).
      wh.
      step (p_adv P (i + 1 + (zlen l - 1) + 1 + total (map snd l) * 4 + (zlen l - 1) * 2 + 2) (total (map fst l)) ltac:(lia) ltac:(lia)).
      intros _. fin.
    - intros _. none l.
  Qed.

  Lemma only_names l om n v a s : stored P i (glyph_names_bytes l) -> metrics_NumGlyphs P om = Ok n -> metrics_HasVertLayout P om = Ok v -> 0 <= n -> zlen l < 65536 -> total (map fst l) < 16777216 ->
    parse_glyph_names om (full P i) = POk a s -> zlen l <= n /\ total (map fst l) <= 32 * zlen l.
  Proof.
    intros S E1 E2 Hn L Z2. pose proof (total_nonneg (map fst l)). assert (0 <= total (map fst l)) by apply zlen_nonneg. pose proof (stored_range _ _ _ S) as [R1 R2]. unfold parse_glyph_names. step (p_idx P i).
    unfold glyph_names_bytes, indexed in *. apply stored_app in S. destruct S as [S1 S]. pose proof (zlen_nonneg l). step (p_u16 _ _ _ S1 ltac:(lia)).
    step (p_bytes (fun b => metrics_NumGlyphs b om) P (i + 2) n E1). step (p_bytes (fun b => metrics_HasVertLayout b om) P (i + 2) v E2).
    assert (LC : zlen (concat (map (fun x : list Z * Z => le_digits 2 (snd x)) l)) = 2 * zlen l) by (apply zlen_concat_fixed; reflexivity).
    rewrite !zlen_app, zlen_le_digits, !zlen_offsets, !zlen_map, LC in *. fold (total (map fst l)) in *.
    destruct (Z.gtb_spec (zlen l) 0) as [N|].
    - apply stored_app in S. destruct S as [S2 S]. apply stored_app in S. destruct S as [S3 S4]. rewrite ?zlen_le_digits, ?LC in *.
      wh.
      step (p_adv P (i + 2) (zlen l * 2) ltac:(lia) ltac:(lia)). step (p_adv P (i + 2 + zlen l * 2) ((zlen l - 1) * 3) ltac:(lia) ltac:(lia)).
      apply stored_last in S3; [|rewrite zlen_map; lia]. rewrite zlen_map in S3.
      eapply stored_at with (off' := i + 2 + zlen l * 2 + (zlen l - 1) * 3) in S3; [|lia].
      step (p_u24 _ _ _ S3 ltac:(lia)).
      wh.
      step (p_adv P (i + 2 + zlen l * 2 + (zlen l - 1) * 3 + 3) (total (map fst l)) ltac:(lia) ltac:(lia)).
      intros _. fin.
    - intros _. none l.
  Qed.

  Lemma only_masks v l a s : stored P i (glyph_masks_bytes v l) -> 0 < zlen l < 65536 -> total (map (glyph_bytes v) l) < 16777216 -> parse_glyph_masks (zlen l) v (full P i) = POk a s ->
    total (map snd l) <= 255 * zlen l.
  Proof.
    intros S N T. pose proof (total_nonneg (map (glyph_bytes v) l)). pose proof (total_nonneg (map snd l)). pose proof (stored_range _ _ _ S) as [R1 R2]. unfold parse_glyph_masks. step (p_idx P i).
    unfold glyph_masks_bytes, indexed in *. apply stored_app in S. destruct S as [S1 S]. pose proof (total_glyphs v l) as TG. assert (0 <= total (map snd l)) by apply zlen_nonneg.
    rewrite !zlen_app, !zlen_offsets, !zlen_map in *. fold (total (map (glyph_bytes v) l)) in *.
    replace (u16 (zlen l - 1)) with (zlen l - 1) by (unfold u16; lia).
    assert (TB : 0 <= total (map (glyph_bytes v) l) < 16777216) by (split; [apply zlen_nonneg|exact T]).
    step (p_adv P i ((zlen l - 1) * 3) ltac:(lia) ltac:(lia)). apply stored_last in S1; [|rewrite zlen_map; lia]. rewrite zlen_map in S1. change (Z.of_nat 3) with 3 in *.
    step (p_u24 _ _ _ S1 TB). cbv zeta.
    wh.
    wh.
    step (p_adv P (i + (zlen l - 1) * 3 + 3) (total (map (glyph_bytes v) l)) ltac:(lia) ltac:(lia)).
    intros _. fin.
  Qed.

  (** a byte with the number of elements, their EndOffsets and the elements *)
  Lemma only_words l a s : stored P i (words_bytes l) -> zlen l < 256 -> total l < 65536 -> parse_words (full P i) = POk a s -> zlen l <= total l <= 32 * zlen l.
  Proof.
    intros S L Z2. pose proof (total_nonneg l). pose proof (stored_range _ _ _ S) as [R1 R2]. unfold parse_words. step (p_idx P i).
    unfold words_bytes, indexed in *. apply stored_cons in S. destruct S as [G S]. pose proof (zlen_nonneg l). step (p_u8 _ _ _ G).
    rewrite zlen_cons, !zlen_app, !zlen_offsets in *. fold (total l) in *. change (Z.of_nat 2) with 2 in *.
    destruct (Z.gtb_spec (zlen l) 0) as [N|].
    - apply stored_app in S. destruct S as [S3 S4]. step (p_adv P (i + 1) ((zlen l - 1) * 2) ltac:(lia) ltac:(lia)).
      apply stored_last in S3; [|lia]. step (p_u16 _ _ _ S3 ltac:(lia)). change (Z.of_nat 2) with 2.
      wh.
      wh.
      step (p_adv P (i + 1 + (zlen l - 1) * 2 + 2) (total l) ltac:(lia) ltac:(lia)).
      intros _. fin.
    - intros _. none l.
  Qed.
  Lemma only_settings l a s : stored P i (setting_names_bytes l ++ setting_defs_bytes l) -> zlen l < 256 -> total (map fst l) < 65536 -> total (map snd l) < 65536 -> parse_settings (full P i) = POk a s ->
    zlen l <= total (map fst l) <= 32 * zlen l /\ zlen l <= total (map snd l).
  Proof.
    intros S L Z2 Z4. pose proof (total_nonneg (map fst l)). pose proof (total_nonneg (map snd l)). pose proof (stored_range _ _ _ S) as [R1 R2]. unfold parse_settings. step (p_idx P i).
    apply stored_app in S. destruct S as [S0 S5]. unfold setting_names_bytes, setting_defs_bytes, indexed in *. apply stored_cons in S0. destruct S0 as [G S]. pose proof (zlen_nonneg l). step (p_u8 _ _ _ G).
    rewrite zlen_app, !zlen_cons, !zlen_app, !zlen_offsets, !zlen_map in *. fold (total (map fst l)) in *. fold (total (map snd l)) in *. change (Z.of_nat 2) with 2 in *.
    destruct (Z.gtb_spec (zlen l) 0) as [N|].
    - apply stored_app in S. destruct S as [S3 S4]. step (p_adv P (i + 1) ((zlen l - 1) * 2) ltac:(lia) ltac:(lia)).
      apply stored_last in S3; [|rewrite zlen_map; lia]. rewrite zlen_map in S3. change (Z.of_nat 2) with 2 in *. step (p_u16 _ _ _ S3 ltac:(lia)).
      wh.
      wh.
      step (p_adv P (i + 1 + (zlen l - 1) * 2 + 2) (total (map fst l)) ltac:(lia) ltac:(lia)). step (p_idx P (i + 1 + (zlen l - 1) * 2 + 2 + total (map fst l))).
      step (p_adv P (i + 1 + (zlen l - 1) * 2 + 2 + total (map fst l)) ((zlen l - 1) * 2) ltac:(lia) ltac:(lia)).
      apply stored_app in S5. destruct S5 as [S5 S6]. apply stored_last in S5; [|rewrite zlen_map; lia]. rewrite zlen_map in S5. change (Z.of_nat 2) with 2 in *.
      eapply stored_at with (off' := i + 1 + (zlen l - 1) * 2 + 2 + total (map fst l) + (zlen l - 1) * 2) in S5; [|lia]. step (p_u16 _ _ _ S5 ltac:(lia)).
      wh.
      step (p_adv P (i + 1 + (zlen l - 1) * 2 + 2 + total (map fst l) + (zlen l - 1) * 2 + 2) (total (map snd l)) ltac:(lia) ltac:(lia)).
      intros _. fin.
    - intros _. none l.
  Qed.
  Lemma only_switches l n a s : stored P i (switches_bytes l) -> zlen l < 256 -> total l < 65536 -> parse_switches n (full P i) = POk a s -> zlen l <= 253 /\ zlen l <= total l <= n * zlen l.
  Proof.
    intros S L Z2. pose proof (total_nonneg l). pose proof (stored_range _ _ _ S) as [R1 R2]. unfold parse_switches. step (p_idx P i).
    unfold switches_bytes, indexed in *. apply stored_cons in S. destruct S as [G S]. pose proof (zlen_nonneg l). step (p_u8 _ _ _ G).
    rewrite zlen_cons, !zlen_app, !zlen_offsets in *. fold (total l) in *. change (Z.of_nat 2) with 2 in *.
    wh.
    destruct (Z.gtb_spec (zlen l) 0) as [N|].
    - apply stored_app in S. destruct S as [S3 S4]. step (p_adv P (i + 1) ((zlen l - 1) * 2) ltac:(lia) ltac:(lia)).
      apply stored_last in S3; [|lia]. step (p_u16 _ _ _ S3 ltac:(lia)). change (Z.of_nat 2) with 2.
      wh.
      wh.
      step (p_adv P (i + 1 + (zlen l - 1) * 2 + 2) (total l) ltac:(lia) ltac:(lia)).
      intros _. fin.
    - intros _. none l.
  Qed.
  Lemma only_mapping l a s : stored P i (mapping_bytes l) -> zlen l < 65536 -> total (map (fun x => entry_bytes (snd x)) l) < 16777216 -> parse_mapping (full P i) = POk a s ->
    3 * zlen l <= total (map (fun x => entry_bytes (snd x)) l).
  Proof.
    intros S L Z2. pose proof (total_nonneg (map (fun x => entry_bytes (snd x)) l)). pose proof (stored_range _ _ _ S) as [R1 R2]. unfold parse_mapping. step (p_idx P i).
    unfold mapping_bytes, indexed in *. apply stored_app in S. destruct S as [S1 S]. pose proof (zlen_nonneg l). step (p_u16 _ _ _ S1 ltac:(lia)).
    assert (LC : zlen (concat (map (fun x : Z * entry => le_digits 4 (fst x)) l)) = 4 * zlen l) by (apply zlen_concat_fixed; reflexivity).
    rewrite !zlen_app, zlen_le_digits, !zlen_offsets, !zlen_map, LC in *. set (t := map (fun x : Z * entry => entry_bytes (snd x)) l) in *. fold (total t) in *.
    assert (LT : zlen t = zlen l) by (apply zlen_map). assert (0 <= total t) by apply zlen_nonneg. change (Z.of_nat 2) with 2 in *. change (Z.of_nat 3) with 3 in *.
    destruct (Z.gtb_spec (zlen l) 0) as [N|].
    - apply stored_app in S. destruct S as [S2 S]. apply stored_app in S. destruct S as [S3 S4]. rewrite ?zlen_le_digits, ?LC in *. change (Z.of_nat 2) with 2 in *.
      step (p_adv P (i + 2) (zlen l * 4) ltac:(lia) ltac:(lia)). step (p_adv P (i + 2 + zlen l * 4) ((zlen l - 1) * 3) ltac:(lia) ltac:(lia)).
      apply stored_last in S3; [|lia]. rewrite LT in S3.
      eapply stored_at with (off' := i + 2 + zlen l * 4 + (zlen l - 1) * 3) in S3; [|lia].
      step (p_u24 _ _ _ S3 ltac:(lia)).
      wh.
      step (p_adv P (i + 2 + zlen l * 4 + (zlen l - 1) * 3 + 3) (total t) ltac:(lia) ltac:(lia)).
      intros _. fin.
    - intros _. none l.
  Qed.
  Lemma only_u16 minLen msg l a s : stored P i (zlen l :: indexed 2 l) -> zlen l < 256 -> total l < 65536 -> parse_u16_blocks minLen msg (full P i) = POk a s -> zlen l = 0 \/ minLen (zlen l) <= total l.
  Proof.
    intros S L Z2. pose proof (total_nonneg l). pose proof (stored_range _ _ _ S) as [R1 R2]. unfold parse_u16_blocks. step (p_idx P i).
    unfold indexed in *. apply stored_cons in S. destruct S as [G S]. pose proof (zlen_nonneg l). step (p_u8 _ _ _ G).
    rewrite zlen_cons, !zlen_app, !zlen_offsets in *. fold (total l) in *. change (Z.of_nat 2) with 2 in *. assert (0 <= total l) by apply zlen_nonneg.
    destruct (Z.gtb_spec (zlen l) 0) as [N|].
    - apply stored_app in S. destruct S as [S3 S4]. step (p_adv P (i + 1) ((zlen l - 1) * 2) ltac:(lia) ltac:(lia)).
      apply stored_last in S3; [|lia]. step (p_u16 _ _ _ S3 ltac:(lia)). change (Z.of_nat 2) with 2.
      wh.
      step (p_adv P (i + 1 + (zlen l - 1) * 2 + 2) (total l) ltac:(lia) ltac:(lia)).
      intros _. fin.
    - intros _. none l.
  Qed.
  Lemma only_rules w hi before beyond l a s : stored P i (rules_bytes w l) -> zlen l < 65536 -> total (map (rule_bytes w) l) < 16777216 -> parse_rules hi before beyond (full P i) = POk a s ->
    8 * zlen l <= total (map (rule_bytes w) l) <= hi * zlen l.
  Proof.
    intros S L Z2. pose proof (total_nonneg (map (rule_bytes w) l)). pose proof (stored_range _ _ _ S) as [R1 R2]. unfold parse_rules. step (p_idx P i).
    unfold rules_bytes, indexed in *. apply stored_app in S. destruct S as [S1 S]. pose proof (zlen_nonneg l). step (p_u16 _ _ _ S1 ltac:(lia)).
    rewrite !zlen_app, zlen_le_digits, !zlen_offsets, !zlen_map in *. set (t := map (rule_bytes w) l) in *. fold (total t) in *.
    assert (LT : zlen t = zlen l) by (apply zlen_map). assert (0 <= total t) by apply zlen_nonneg. change (Z.of_nat 2) with 2 in *. change (Z.of_nat 3) with 3 in *.
    destruct (Z.gtb_spec (zlen l) 0) as [N|].
    - apply stored_app in S. destruct S as [S3 S4]. rewrite ?zlen_le_digits in *. change (Z.of_nat 2) with 2 in *.
      step (p_adv P (i + 2) ((zlen l - 1) * 3) ltac:(lia) ltac:(lia)).
      apply stored_last in S3; [|lia]. rewrite LT in S3. change (Z.of_nat 3) with 3 in *.
      step (p_ign24 _ _ _ S3 ltac:(lia)).
      wh.
      wh.
      step (p_adv P (i + 2 + (zlen l - 1) * 3 + 3) (total t) ltac:(lia) ltac:(lia)).
      intros _. fin.
    - intros _. none l.
  Qed.
  Lemma only_kernings n msg l a s : stored P i (kernings_bytes l) -> zlen l < 16777216 -> parse_kernings n msg (full P i) = POk a s -> zlen l <= n * n.
  Proof.
    intros S L. pose proof (stored_range _ _ _ S) as [R1 R2]. unfold parse_kernings. step (p_idx P i).
    unfold kernings_bytes in *. apply stored_app in S. destruct S as [S1 S]. pose proof (zlen_nonneg l). step (p_ign24 _ _ _ S1 ltac:(lia)).
    assert (LC : zlen (concat (map (fun p : Z * Z * Z => le_digits 4 (pair_key p)) l)) = 4 * zlen l) by (apply zlen_concat_fixed; reflexivity).
    assert (LD : zlen (concat (map (fun p : Z * Z * Z => le_digits 1 (pair_value p)) l)) = 1 * zlen l) by (apply zlen_concat_fixed; reflexivity).
    rewrite !zlen_app, zlen_le_digits, LC, LD in *. change (Z.of_nat 3) with 3 in *.
    destruct (Z.gtb_spec (zlen l) 0) as [N|].
    - wh. step (p_adv P (i + 3) (zlen l * 5) ltac:(lia) ltac:(lia)). intros _. fin.
    - intros _. pose proof (Z.square_nonneg n). lia.
  Qed.
End Sections.

Lemma only_header P h s : stored P 0 (header_bytes h) -> zlen (header_bytes h) < zlen P -> header_in_range h ->
  parse_header (full P 0) = POk tt s -> h_format h = 2 /\ entropy_too_low (h_id h) = false /\ h_name h <> [].
Proof.
  intros S HL R. unfold parse_header. pose proof (stored_range _ _ _ S) as [_ R2].
  assert (PS : exists post, P = header_bytes h ++ post /\ post <> []).
  { destruct S as (pre & post & -> & Z0). apply zlen_0_nil in Z0. subst. exists post. split; [reflexivity|]. intros ->. rewrite app_nil_l, app_nil_r in HL. lia. }
  destruct PS as (post & PE & PN).
  pose proof (header_laid_out _ _ S) as L. pose proof R as (_ & _ & _ & _ & _ & _ & _ & R3 & R4 & R5 & R6).
  assert (Hh : zlen (header_bytes h) = 33 + zlen (h_name h) + zlen (h_family h) + zlen (h_author h) + zlen (h_about h)).
  { unfold header_bytes, short_string, long_string. rewrite ?zlen_app, ?zlen_cons, ?zlen_le_digits, ?zlen_date, ?zlen_app, ?zlen_le_digits. lia. }
  pose proof (zlen_nonneg (h_name h)). pose proof (zlen_nonneg (h_family h)). pose proof (zlen_nonneg (h_author h)). pose proof (zlen_nonneg (h_about h)).
  step (p_adv P 0 28 ltac:(lia) ltac:(lia)).
  destruct (p_short P (0 + 28) _ (hl_name _ _ L) R3) as (t1 & E1). step E1. unfold short_string. rewrite zlen_cons.
  destruct (p_short P (29 + zlen (h_name h)) (h_family h)) as (t2 & E2); [eapply stored_at; [exact (hl_family _ _ L)|lia]|exact R4|].
  replace (0 + 28 + (1 + zlen (h_name h))) with (29 + zlen (h_name h)) by lia. step E2. unfold short_string. rewrite zlen_cons.
  destruct (p_short P (30 + zlen (h_name h) + zlen (h_family h)) (h_author h)) as (t3 & E3); [eapply stored_at; [exact (hl_author _ _ L)|lia]|exact R5|].
  replace (29 + zlen (h_name h) + (1 + zlen (h_family h))) with (30 + zlen (h_name h) + zlen (h_family h)) by lia. step E3. unfold short_string. rewrite zlen_cons.
  destruct (p_long P (31 + zlen (h_name h) + zlen (h_family h) + zlen (h_author h)) (h_about h)) as (t4 & E4); [exact (hl_about _ _ L)|exact R6|].
  replace (30 + zlen (h_name h) + zlen (h_family h) + (1 + zlen (h_author h))) with (31 + zlen (h_name h) + zlen (h_family h) + zlen (h_author h)) by lia. step E4.
  unfold on_bytes. cbn [Bytes full]. unfold header_Validate. destruct (header_fixed P h post PE R) as (-> & -> & _). destruct (header_strings P h post PE R PN) as (-> & _). cbn [bind].
  unfold FormatVersion. destruct (Z.eqb_spec (h_format h) 2) as [F|]; cbn [negb]; [|discriminate]. destruct (entropy_too_low (h_id h)); [discriminate|].
  destruct (Z.eqb_spec (zlen (h_name h)) 0) as [|N]; [discriminate|]. intros _. split; [exact F|]. split; [reflexivity|]. intros X. rewrite X in N. apply N. reflexivity.
Qed.

Lemma only_metrics P i m a s : stored P i (metrics_bytes m) -> metrics_in_range m -> parse_metrics (full P i) = POk a s ->
  m_glyphs m <> 0 /\ m_ascent m <> 0 /\ m_extra_ascent m <= m_ascent m /\ (m_vert m = false -> m_vert_spacing m = 0).
Proof.
  intros S R. pose proof (stored_range _ _ _ S) as [_ R2]. unfold parse_metrics. step (p_idx P i).
  assert (L : zlen (metrics_bytes m) = 15) by reflexivity. rewrite L in *. step (p_adv P i 15 ltac:(lia) ltac:(lia)).
  unfold pbind, on_bytes. cbn [Bytes full]. unfold metrics_Validate. pose proof (metrics_stored _ _ _ S R) as (-> & -> & _ & _ & -> & -> & _ & _ & _ & _ & _ & -> & _). cbn [bind].
  destruct (Z.eqb_spec (m_glyphs m) 0); [discriminate|].
  assert (G : zget P (i + 2) = Ok (if m_vert m then 1 else 0)).
  { unfold metrics_bytes in S. apply stored_app in S. destruct S as [_ S]. apply stored_cons in S. rewrite zlen_le_digits in S. exact (proj1 S). }
  rewrite G. cbn [bind]. replace (negb (((if m_vert m then 1 else 0) =? 0) || ((if m_vert m then 1 else 0) =? 1))) with false by (destruct (m_vert m); reflexivity).
  destruct (Z.eqb_spec (m_ascent m) 0); [discriminate|]. destruct (Z.gtb_spec (m_extra_ascent m) (m_ascent m)); [discriminate|].
  intros X. repeat split; try assumption. intros V. rewrite V in X. cbn [negb andb] in X. rewrite andb_true_r in X. destruct (Z.eqb_spec (m_vert_spacing m) 0); [assumption|discriminate].
Qed.

Lemma go_masks' P i v l : stored P i (glyph_masks_bytes v l) -> 0 < zlen l < 65536 -> total (map (glyph_bytes v) l) < 16777216 -> total (map snd l) <= 255 * zlen l ->
  goes P i (parse_glyph_masks (zlen l) v) i (glyph_masks_bytes v l).
Proof.
  intros S N T0 T. pose proof (stored_range _ _ _ S) as [R1 R2]. unfold goes, parse_glyph_masks. step (p_idx P i).
  unfold glyph_masks_bytes, indexed in *. apply stored_app in S. destruct S as [S1 S]. pose proof (total_glyphs v l) as TG. assert (0 <= total (map snd l)) by apply zlen_nonneg.
  rewrite !zlen_app, !zlen_offsets, !zlen_map in *. fold (total (map (glyph_bytes v) l)) in *.
  replace (u16 (zlen l - 1)) with (zlen l - 1) by (unfold u16; lia).
  assert (TB : 0 <= total (map (glyph_bytes v) l) < 16777216) by (split; [apply zlen_nonneg|exact T0]).
  step (p_adv P i ((zlen l - 1) * 3) ltac:(lia) ltac:(lia)). apply stored_last in S1; [|rewrite zlen_map; lia]. rewrite zlen_map in S1. change (Z.of_nat 3) with 3 in *.
  step (p_u24 _ _ _ S1 TB). cbv zeta.
  step (p_when (total (map (glyph_bytes v) l) <? (if v then 4 else 1) * zlen l) "GlyphMaskEndOffsets declares GlyphMasks to end before allowed" P (i + (zlen l - 1) * 3 + 3) ltac:(lia)).
  step (p_when (total (map (glyph_bytes v) l) >? ((if v then 4 else 1) + 255) * zlen l) "GlyphMaskEndOffsets declares GlyphMasks to end beyond allowed" P (i + (zlen l - 1) * 3 + 3) ltac:(destruct v; lia)).
  step (p_adv P (i + (zlen l - 1) * 3 + 3) (total (map (glyph_bytes v) l)) ltac:(lia) ltac:(lia)).
  unfold pret. f_equal; try (apply full_at; lia).
Qed.

(** ** The whole font *)
Section Layout.
  Variable l : layout.
  Hypothesis EN : encodable l.
  Let P := font_bytes l.
  Notation st k := (section_start l k).
  Notation at_ k := (full P (section_start l k)).
  Let n := zlen (l_glyphs l).

  Lemma en_metrics : metrics_in_range (l_metrics l).
  Proof.
    pose proof (en_bytes _ EN) as AB. destruct (en_glyphs _ EN) as (G1 & G2 & _). pose proof (zlen_nonneg (l_glyphs l)). split; [lia|].
    unfold font_bytes, sections in AB. cbn [concat] in AB. unfold bytes in *. rewrite !Forall_app in AB. tauto.
  Qed.
  Lemma x_header : zlen (header_bytes (l_header l)) < zlen P.
  Proof. destruct (payload_header l) as (post & E & N). unfold P. rewrite E, zlen_app. destruct post; [contradiction|]. rewrite zlen_cons. pose proof (zlen_nonneg post). lia. Qed.
  Lemma g_header : h_format (l_header l) = 2 /\ entropy_too_low (h_id (l_header l)) = false /\ h_name (l_header l) <> [] -> parse_header (full P 0) = POk tt (at_ 1%nat).
  Proof.
    intros (H1 & H2 & H3). pose proof (go_header P 0 _ _ (fun x H => H) eq_refl (st_header l) x_header (en_header _ EN) H1 H2 H3) as G. unfold goes in G. rewrite G. rewrite (start_S l 0 _ eq_refl). reflexivity.
  Qed.
  Lemma t_header s : parse_header (full P 0) = POk tt s -> h_format (l_header l) = 2 /\ entropy_too_low (h_id (l_header l)) = false /\ h_name (l_header l) <> [].
  Proof. apply only_header; [exact (st_header l)|exact x_header|exact (en_header _ EN)]. Qed.

  Lemma g_metrics : m_glyphs (l_metrics l) <> 0 /\ m_ascent (l_metrics l) <> 0 /\ m_extra_ascent (l_metrics l) <= m_ascent (l_metrics l) /\ (m_vert (l_metrics l) = false -> m_vert_spacing (l_metrics l) = 0) ->
    parse_metrics (at_ 1%nat) = POk (st 1%nat) (at_ 2%nat).
  Proof. intros (H1 & H2 & H3 & H4). pose proof (go_metrics P _ _ (st_metrics l) en_metrics H1 H2 H3 H4) as G. unfold goes in G. rewrite (start_S l 1 _ eq_refl). exact G. Qed.
  Lemma t_metrics a s : parse_metrics (at_ 1%nat) = POk a s -> m_glyphs (l_metrics l) <> 0 /\ m_ascent (l_metrics l) <> 0 /\ m_extra_ascent (l_metrics l) <= m_ascent (l_metrics l) /\ (m_vert (l_metrics l) = false -> m_vert_spacing (l_metrics l) = 0).
  Proof. apply only_metrics; [exact (st_metrics l)|exact en_metrics]. Qed.
  Lemma x_glyphs : metrics_NumGlyphs P (st 1%nat) = Ok n /\ metrics_HasVertLayout P (st 1%nat) = Ok (m_vert (l_metrics l)).
  Proof. pose proof (metrics_stored _ _ _ (st_metrics l) en_metrics) as (M1 & M2 & _). destruct (en_glyphs _ EN) as (G1 & _). split; [|exact M2]. rewrite G1 in M1. exact M1. Qed.

  Lemma g_dyes : zlen (l_dyes l) <= total (map snd (l_dyes l)) /\ zlen (l_dyes l) <= total (map fst (l_dyes l)) -> parse_dyes (at_ 2%nat) = POk (st 2%nat, total (map snd (l_dyes l))) (at_ 3%nat).
  Proof. intros (H1 & H2). destruct (en_colors _ EN) as (E1 & E2 & _). pose proof (go_dyes P _ _ (st_dyes l) ltac:(repeat split; lia) ltac:(lia)) as G. unfold goes in G. rewrite (start_S l 2 _ eq_refl). exact G. Qed.
  Lemma t_dyes a s : parse_dyes (at_ 2%nat) = POk a s -> zlen (l_dyes l) <= total (map snd (l_dyes l)) /\ zlen (l_dyes l) <= total (map fst (l_dyes l)).
  Proof. destruct (en_colors _ EN) as (E1 & E2 & _). apply only_dyes; [exact (st_dyes l)|lia|lia]. Qed.
  Let used := total (map snd (l_dyes l)).
  Lemma g_palettes : zlen (l_palettes l) <= total (map snd (l_palettes l)) /\ zlen (l_palettes l) <= total (map fst (l_palettes l)) /\ used + total (map snd (l_palettes l)) <= 255 ->
    parse_palettes used (at_ 3%nat) = POk (st 3%nat) (at_ 4%nat).
  Proof.
    intros (H1 & H2 & H3). destruct (en_colors _ EN) as (_ & _ & E1 & E2). pose proof (go_palettes P _ _ used (st_palettes l) ltac:(repeat split; lia) (total_nonneg _) H3) as G. unfold goes in G. rewrite (start_S l 3 _ eq_refl). exact G.
  Qed.
  Lemma t_palettes a s : parse_palettes used (at_ 3%nat) = POk a s -> zlen (l_palettes l) <= total (map snd (l_palettes l)) /\ zlen (l_palettes l) <= total (map fst (l_palettes l)) /\ used + total (map snd (l_palettes l)) <= 255.
  Proof. destruct (en_colors _ EN) as (E0 & _ & E1 & E2). apply only_palettes; [exact (st_palettes l)|lia|lia|]. pose proof (total_nonneg (map snd (l_dyes l))). unfold used. lia. Qed.
  Lemma g_colors : zlen (l_dyes l) <= used -> zlen (l_palettes l) <= total (map snd (l_palettes l)) -> used + total (map snd (l_palettes l)) <= 255 -> color_Validate P (st 2%nat) (st 3%nat) = Ok tt.
  Proof.
    intros H1 H2 H3. unfold color_Validate. pose proof (st_dyes l) as S2. pose proof (st_palettes l) as S3. apply stored_cons in S2. apply stored_cons in S3.
    destruct S2 as [S2 _]. destruct S3 as [S3 _]. cbn [font_of Data OffsetToDyes OffsetToPalettes] in S2, S3. unfold P. rewrite S2, S3. cbn [bind].
    destruct (Z.gtb_spec (zlen (l_dyes l) + zlen (l_palettes l)) 255); [lia|reflexivity].
  Qed.
  Lemma g_names : zlen (l_names l) <= n /\ total (map fst (l_names l)) <= 32 * zlen (l_names l) ->
    parse_glyph_names (st 1%nat) (at_ 4%nat) = POk (st 4%nat, n, m_vert (l_metrics l)) (at_ 5%nat).
  Proof.
    intros (H1 & H2). destruct x_glyphs as [X1 X2]. destruct (en_names _ EN) as [E1 E2]. destruct (en_glyphs _ EN) as (_ & E3 & _). pose proof (total_nonneg (map fst (l_names l))). pose proof (zlen_nonneg (l_names l)).
    pose proof (go_names P _ _ _ _ _ (st_names l) X1 X2 E3 H1 ltac:(unfold sized; rewrite zlen_map; lia)) as G. unfold goes in G. rewrite (start_S l 4 _ eq_refl). exact G.
  Qed.
  Lemma t_names a s : parse_glyph_names (st 1%nat) (at_ 4%nat) = POk a s -> zlen (l_names l) <= n /\ total (map fst (l_names l)) <= 32 * zlen (l_names l).
  Proof. destruct x_glyphs as [X1 X2]. destruct (en_names _ EN) as [E1 E2]. apply (only_names P _ _ _ _ _ _ _ (st_names l) X1 X2 (zlen_nonneg _) E1 E2). Qed.
  Lemma g_masks : 0 < n -> total (map snd (l_glyphs l)) <= 255 * n -> parse_glyph_masks n (m_vert (l_metrics l)) (at_ 5%nat) = POk (st 5%nat) (at_ 6%nat).
  Proof. intros H0 H. destruct (en_glyphs _ EN) as (_ & E2 & E3). pose proof (go_masks' P _ _ _ (st_masks l) (conj H0 E2) E3 H) as G. unfold goes in G. rewrite (start_S l 5 _ eq_refl). exact G. Qed.
  Lemma t_masks a s : 0 < n -> parse_glyph_masks n (m_vert (l_metrics l)) (at_ 5%nat) = POk a s -> total (map snd (l_glyphs l)) <= 255 * n.
  Proof. intros H0. destruct (en_glyphs _ EN) as (_ & E2 & E3). apply (only_masks P _ _ _ _ _ (st_masks l) (conj H0 E2) E3). Qed.
  Lemma g_validate : zlen (l_names l) <= n -> glyphs_Validate P (st 1%nat) (st 4%nat) = Ok tt.
  Proof.
    intros H. unfold glyphs_Validate. pose proof (st_names l) as S4. unfold glyph_names_bytes in S4. apply stored_app in S4. rewrite <- (bind_assoc (zslice _ _ _) DecodeUint16LE).
    destruct S4 as [S4 _]. destruct (en_names _ EN) as [E1 _]. pose proof (zlen_nonneg (l_names l)). cbn [font_of Data OffsetToGlyphNames] in S4. rewrite (slice16 _ _ _ _ S4) by lia. cbn [bind]. rewrite (proj1 x_glyphs). cbn [bind].
    destruct (Z.gtb_spec (zlen (l_names l)) n); [lia|reflexivity].
  Qed.
  Lemma g_words : zlen (l_words l) <= total (l_words l) <= 32 * zlen (l_words l) -> parse_words (at_ 6%nat) = POk (st 6%nat) (at_ 7%nat).
  Proof. intros H. destruct (en_words _ EN) as [E1 E2]. pose proof (go_words P _ _ (st_words l) ltac:(lia) ltac:(unfold sized; lia)) as G. unfold goes in G. rewrite (start_S l 6 _ eq_refl). exact G. Qed.
  Lemma t_words a s : parse_words (at_ 6%nat) = POk a s -> zlen (l_words l) <= total (l_words l) <= 32 * zlen (l_words l).
  Proof. destruct (en_words _ EN) as [E1 E2]. apply (only_words P _ _ _ _ (st_words l)); lia. Qed.
  Lemma x_settings : stored P (st 7%nat) (setting_names_bytes (l_settings l) ++ setting_defs_bytes (l_settings l)).
  Proof. apply stored_join; [exact (st_setting_names l)|]. rewrite <- (start_S l 7 _ eq_refl). exact (st_setting_defs l). Qed.
  Lemma g_settings : zlen (l_settings l) <= total (map fst (l_settings l)) <= 32 * zlen (l_settings l) /\ zlen (l_settings l) <= total (map snd (l_settings l)) ->
    parse_settings (at_ 7%nat) = POk (st 7%nat, st 8%nat, zlen (l_settings l)) (at_ 9%nat).
  Proof.
    intros (H1 & H2). destruct (en_settings _ EN) as (E1 & E2 & E3). pose proof (zlen_nonneg (l_settings l)). destruct (Z.eq_dec (zlen (l_settings l)) 0) as [Z0|Z0].
    - pose proof (go_settings P _ _ x_settings ltac:(lia) ltac:(unfold sized; rewrite zlen_map; lia)) as G. unfold goes in G. rewrite (start_S l 8 _ eq_refl), (start_S l 7 _ eq_refl), <- Z.add_assoc, <- zlen_app. apply G.
      unfold sized. apply zlen_0_nil in Z0. rewrite Z0. unfold total. cbn [map concat]. rewrite !zlen_nil. lia.
    - pose proof (go_settings P _ _ x_settings ltac:(lia) ltac:(unfold sized; rewrite zlen_map; lia)) as G. unfold goes in G. rewrite (start_S l 8 _ eq_refl), (start_S l 7 _ eq_refl), <- Z.add_assoc, <- zlen_app. apply G.
      unfold sized. rewrite zlen_map. lia.
  Qed.
  Lemma t_settings a s : parse_settings (at_ 7%nat) = POk a s -> zlen (l_settings l) <= total (map fst (l_settings l)) <= 32 * zlen (l_settings l) /\ zlen (l_settings l) <= total (map snd (l_settings l)).
  Proof. destruct (en_settings _ EN) as (E1 & E2 & E3). apply (only_settings P _ _ _ _ x_settings); lia. Qed.
  Let ns := zlen (l_settings l).
  Lemma g_switches : zlen (l_switches l) <= 253 /\ zlen (l_switches l) <= total (l_switches l) <= ns * zlen (l_switches l) -> parse_switches ns (at_ 9%nat) = POk (st 9%nat) (at_ 10%nat).
  Proof. intros (H1 & H2). destruct (en_switches _ EN) as [E1 E2]. pose proof (go_switches P _ _ ns (st_switches l) ltac:(lia) ltac:(unfold sized; lia)) as G. unfold goes in G. rewrite (start_S l 9 _ eq_refl). exact G. Qed.
  Lemma t_switches a s : parse_switches ns (at_ 9%nat) = POk a s -> zlen (l_switches l) <= 253 /\ zlen (l_switches l) <= total (l_switches l) <= ns * zlen (l_switches l).
  Proof. destruct (en_switches _ EN) as [E1 E2]. apply (only_switches P _ _ _ _ _ (st_switches l)); lia. Qed.
  Lemma g_mapping : 3 * zlen (l_mapping l) <= total (map (fun x => entry_bytes (snd x)) (l_mapping l)) -> parse_mapping (at_ 10%nat) = POk (st 10%nat) (at_ 11%nat).
  Proof.
    intros H. destruct (en_mapping _ EN) as [E1 E2]. pose proof (zlen_nonneg (l_mapping l)). 
    assert (X : sized 3 16777216 16777216 (map (fun x => entry_bytes (snd x)) (l_mapping l))).
    { unfold sized. rewrite zlen_map. destruct (Z.eq_dec (zlen (l_mapping l)) 0) as [Z0|Z0]; [|lia]. apply zlen_0_nil in Z0. rewrite Z0. unfold total. cbn [map concat]. rewrite !zlen_nil. lia. }
    pose proof (go_mapping P _ _ (st_mapping l) ltac:(lia) X) as G. unfold goes in G. rewrite (start_S l 10 _ eq_refl). exact G.
  Qed.
  Lemma t_mapping a s : parse_mapping (at_ 10%nat) = POk a s -> 3 * zlen (l_mapping l) <= total (map (fun x => entry_bytes (snd x)) (l_mapping l)).
  Proof. destruct (en_mapping _ EN) as [E1 E2]. apply (only_mapping P _ _ _ _ (st_mapping l)); lia. Qed.
  (* three sections of blocks *)
  Lemma g_u16 k minLen msg (bs : list (list Z)) : stored P (st k) (zlen bs :: indexed 2 bs) -> nth_error (sections l) k = Some (zlen bs :: indexed 2 bs) -> zlen bs < 256 -> total bs < 65536 ->
    zlen bs = 0 \/ minLen (zlen bs) <= total bs -> parse_u16_blocks minLen msg (at_ k) = POk (st k) (at_ (S k)).
  Proof. intros S N H1 H2 H3. pose proof (go_u16 P _ minLen msg bs S ltac:(lia) H2 ltac:(lia)) as G. unfold goes in G. rewrite (start_S l k _ N). exact G. Qed.
  Lemma x_conditions : stored P (st 11%nat) (zlen (map condition_bytes (l_conditions l)) :: indexed 2 (map condition_bytes (l_conditions l))).
  Proof. rewrite zlen_map. exact (st_conditions l). Qed.
  Lemma x_utf8_sets : stored P (st 12%nat) (zlen (map (set_bytes 4) (l_utf8_sets l)) :: indexed 2 (map (set_bytes 4) (l_utf8_sets l))).
  Proof. rewrite zlen_map. exact (st_utf8_sets l). Qed.
  Lemma x_glyph_sets : stored P (st 13%nat) (zlen (map (set_bytes 2) (l_glyph_sets l)) :: indexed 2 (map (set_bytes 2) (l_glyph_sets l))).
  Proof. rewrite zlen_map. exact (st_glyph_sets l). Qed.
  Lemma g_conditions : 2 * zlen (l_conditions l) <= total (map condition_bytes (l_conditions l)) -> parse_conditions (at_ 11%nat) = POk (st 11%nat) (at_ 12%nat).
  Proof. intros H. destruct (en_conditions _ EN). apply (g_u16 11 _ _ _ x_conditions); [cbn; rewrite zlen_map; reflexivity|rewrite zlen_map; lia|lia|rewrite zlen_map; lia]. Qed.
  Lemma t_conditions a s : parse_conditions (at_ 11%nat) = POk a s -> 2 * zlen (l_conditions l) <= total (map condition_bytes (l_conditions l)).
  Proof. destruct (en_conditions _ EN). pose proof (total_nonneg (map condition_bytes (l_conditions l))). intros E. apply (only_u16 P _ _ _ _ _ _ x_conditions) in E; rewrite ?zlen_map in *; lia. Qed.
  Lemma g_utf8_sets : l_utf8_sets l = [] \/ 1 + 5 * zlen (l_utf8_sets l) <= total (map (set_bytes 4) (l_utf8_sets l)) -> parse_utf8_sets (at_ 12%nat) = POk (st 12%nat) (at_ 13%nat).
  Proof.
    intros H. destruct (en_utf8_sets _ EN). apply (g_u16 12 _ _ _ x_utf8_sets); [cbn [nth_error sections]; rewrite zlen_map; reflexivity|rewrite zlen_map; lia|lia|rewrite zlen_map].
    destruct H as [->|H]; [left; reflexivity|right; lia].
  Qed.
  Lemma t_utf8_sets a s : parse_utf8_sets (at_ 12%nat) = POk a s -> l_utf8_sets l = [] \/ 1 + 5 * zlen (l_utf8_sets l) <= total (map (set_bytes 4) (l_utf8_sets l)).
  Proof. destruct (en_utf8_sets _ EN). intros E. apply (only_u16 P _ _ _ _ _ _ x_utf8_sets) in E; rewrite ?zlen_map in *; [|lia..]. destruct E as [E|E]; [left; apply zlen_0_nil; exact E|right; lia]. Qed.
  Lemma g_glyph_sets : l_glyph_sets l = [] \/ 1 + 3 * zlen (l_glyph_sets l) <= total (map (set_bytes 2) (l_glyph_sets l)) -> parse_glyph_sets (at_ 13%nat) = POk (st 13%nat) (at_ 14%nat).
  Proof.
    intros H. destruct (en_glyph_sets _ EN). apply (g_u16 13 _ _ _ x_glyph_sets); [cbn [nth_error sections]; rewrite zlen_map; reflexivity|rewrite zlen_map; lia|lia|rewrite zlen_map].
    destruct H as [->|H]; [left; reflexivity|right; lia].
  Qed.
  Lemma t_glyph_sets a s : parse_glyph_sets (at_ 13%nat) = POk a s -> l_glyph_sets l = [] \/ 1 + 3 * zlen (l_glyph_sets l) <= total (map (set_bytes 2) (l_glyph_sets l)).
  Proof. destruct (en_glyph_sets _ EN). intros E. apply (only_u16 P _ _ _ _ _ _ x_glyph_sets) in E; rewrite ?zlen_map in *; [|lia..]. destruct E as [E|E]; [left; apply zlen_0_nil; exact E|right; lia]. Qed.
  Lemma g_utf8_rules : 8 * zlen (l_utf8_rules l) <= total (map (rule_bytes 4) (l_utf8_rules l)) <= 1026 * zlen (l_utf8_rules l) -> parse_utf8_rules (at_ 14%nat) = POk (st 14%nat) (at_ 15%nat).
  Proof. intros H. destruct (en_utf8_rules _ EN). unfold parse_utf8_rules. pose proof (go_rules P _ 4 1026 "UTF8RuleEndOffsets declares UTF8Rules to end before allowed" "UTF8RuleEndOffsets declares UTF8Rules to end beyond allowed" _ (st_utf8_rules l) ltac:(lia) ltac:(unfold sized; rewrite zlen_map; lia)) as G. unfold goes in G. rewrite (start_S l 14 _ eq_refl). exact G. Qed.
  Lemma t_utf8_rules a s : parse_utf8_rules (at_ 14%nat) = POk a s -> 8 * zlen (l_utf8_rules l) <= total (map (rule_bytes 4) (l_utf8_rules l)) <= 1026 * zlen (l_utf8_rules l).
  Proof. destruct (en_utf8_rules _ EN). apply (only_rules P _ _ _ _ _ _ _ _ (st_utf8_rules l)); lia. Qed.
  Lemma g_glyph_rules : 8 * zlen (l_glyph_rules l) <= total (map (rule_bytes 2) (l_glyph_rules l)) <= 514 * zlen (l_glyph_rules l) -> parse_glyph_rules (at_ 15%nat) = POk (st 15%nat) (at_ 16%nat).
  Proof. intros H. destruct (en_glyph_rules _ EN). unfold parse_glyph_rules. pose proof (go_rules P _ 2 514 "GlyphRuleEndOffsets declares GlyphRules to end before allowed" "GlyphRuleEndOffsets declares GlyphRules to end beyond allowed" _ (st_glyph_rules l) ltac:(lia) ltac:(unfold sized; rewrite zlen_map; lia)) as G. unfold goes in G. rewrite (start_S l 15 _ eq_refl). exact G. Qed.
  Lemma t_glyph_rules a s : parse_glyph_rules (at_ 15%nat) = POk a s -> 8 * zlen (l_glyph_rules l) <= total (map (rule_bytes 2) (l_glyph_rules l)) <= 514 * zlen (l_glyph_rules l).
  Proof. destruct (en_glyph_rules _ EN). apply (only_rules P _ _ _ _ _ _ _ _ (st_glyph_rules l)); lia. Qed.
  Lemma g_horz msg : zlen (l_horz l) <= n * n -> parse_kernings n msg (at_ 16%nat) = POk (st 16%nat) (at_ 17%nat).
  Proof. intros H. destruct (en_kernings _ EN). pose proof (go_kernings P _ n msg _ (st_horz l) ltac:(lia) H) as G. unfold goes in G. rewrite (start_S l 16 _ eq_refl). exact G. Qed.
  Lemma t_horz msg a s : parse_kernings n msg (at_ 16%nat) = POk a s -> zlen (l_horz l) <= n * n.
  Proof. destruct (en_kernings _ EN). apply (only_kernings P _ _ _ _ _ _ (st_horz l)); lia. Qed.
  Lemma g_vert msg : zlen (l_vert l) <= n * n -> parse_kernings n msg (at_ 17%nat) = POk (st 17%nat) (full P (zlen P)).
  Proof. intros H. destruct (en_kernings _ EN). pose proof (go_kernings P _ n msg _ (st_vert l) ltac:(lia) H) as G. unfold goes in G. replace (zlen P) with (st 18%nat) by reflexivity. rewrite (start_S l 17 _ eq_refl). exact G. Qed.
  Lemma t_vert msg a s : parse_kernings n msg (at_ 17%nat) = POk a s -> zlen (l_vert l) <= n * n.
  Proof. destruct (en_kernings _ EN). apply (only_kernings P _ _ _ _ _ _ (st_vert l)); lia. Qed.

  Notation ok := (fun id => entropy_too_low id = false).
  Lemma sections_go : parser_accepts ok l -> exists f, parse_sections (full P 0) = POk f (full P (zlen P)) /\ set_Data f P = font_of l.
  Proof.
    intros [A1 (A2 & A3) A4 A5 A6 A7 A8 A9 A10 A11 A12 A13 A14 A15 A16 (A17 & A18)].
    assert (N : 0 < n) by (unfold n; destruct (l_glyphs l) as [|x r]; [contradiction|rewrite zlen_cons; pose proof (zlen_nonneg r); lia]).
    assert (N0 : m_glyphs (l_metrics l) <> 0) by (destruct (en_glyphs _ EN) as (-> & _); fold n; lia).
    eexists. split.
    - unfold parse_sections. step (g_header A1). step (g_metrics (conj N0 A3)). rewrite (bind_ok _ _ _ _ _ (g_dyes A4)). fold used. step (g_palettes A5).
      step (p_bytes (fun b => color_Validate b (st 2%nat) (st 3%nat)) P (st 4%nat) tt (g_colors (proj1 A4) (proj1 A5) (proj2 (proj2 A5)))).
      step (g_names A6). step (g_masks N A7). step (p_bytes (fun b => glyphs_Validate b (st 1%nat) (st 4%nat)) P (st 6%nat) tt (g_validate (proj1 A6))).
      step (g_words A8). step (g_settings A9). step (g_switches A10). step (g_mapping A11). step (g_conditions A12). step (g_utf8_sets A13). step (g_glyph_sets A14). step (g_utf8_rules A15). step (g_glyph_rules A16).
      step (g_horz "NumHorzKerningPairs can't exceed NumGlyphs^2" A17). step (g_vert "NumVertKerningPairs can't exceed NumGlyphs^2" A18). unfold pret. reflexivity.
    - reflexivity.
  Qed.
  Ltac next E T G := let a := fresh "a" in let s := fresh "s" in let X := fresh "X" in
    apply bind_inv in E; destruct E as (a & s & X & E); pose proof X as G; apply T in G.
  Lemma sections_only f s : parse_sections (full P 0) = POk f s -> parser_accepts ok l.
  Proof.
    intros E. unfold parse_sections in E.
    apply bind_inv in E. destruct E as ([] & s0 & X & E). pose proof (t_header _ X) as A1. rewrite (g_header A1) in X. injection X as <-.
    apply bind_inv in E. destruct E as (om & s1 & X & E). pose proof (t_metrics _ _ X) as A2. rewrite (g_metrics A2) in X. injection X as <- <-.
    apply bind_inv in E. destruct E as (ou & s2 & X & E). pose proof (t_dyes _ _ X) as A3. rewrite (g_dyes A3) in X. injection X as <- <-. fold used in E.
    apply bind_inv in E. destruct E as (op & s3 & X & E). pose proof (t_palettes _ _ X) as A4. rewrite (g_palettes A4) in X. injection X as <- <-.
    rewrite (bind_ok _ _ _ _ _ (p_bytes (fun b => color_Validate b (st 2%nat) (st 3%nat)) P (st 4%nat) tt (g_colors (proj1 A3) (proj1 A4) (proj2 (proj2 A4))))) in E.
    apply bind_inv in E. destruct E as (on & s4 & X & E). pose proof (t_names _ _ X) as A5. rewrite (g_names A5) in X. injection X as <- <-.
    assert (N : 0 < n) by (destruct A2 as (A2 & _); destruct (en_glyphs _ EN) as (G & _); pose proof (zlen_nonneg (l_glyphs l)); unfold n; lia).
    apply bind_inv in E. destruct E as (ok & s5 & X & E). pose proof (t_masks _ _ N X) as A6. rewrite (g_masks N A6) in X. injection X as <- <-.
    rewrite (bind_ok _ _ _ _ _ (p_bytes (fun b => glyphs_Validate b (st 1%nat) (st 4%nat)) P (st 6%nat) tt (g_validate (proj1 A5)))) in E.
    apply bind_inv in E. destruct E as (ow & s6 & X & E). pose proof (t_words _ _ X) as A7. rewrite (g_words A7) in X. injection X as <- <-.
    apply bind_inv in E. destruct E as (os & s7 & X & E). pose proof (t_settings _ _ X) as A8. rewrite (g_settings A8) in X. injection X as <- <-. fold ns in E.
    apply bind_inv in E. destruct E as (osw & s8 & X & E). pose proof (t_switches _ _ X) as A9. rewrite (g_switches A9) in X. injection X as <- <-.
    apply bind_inv in E. destruct E as (omp & s9 & X & E). pose proof (t_mapping _ _ X) as A10. rewrite (g_mapping A10) in X. injection X as <- <-.
    apply bind_inv in E. destruct E as (oc & s10 & X & E). pose proof (t_conditions _ _ X) as A11. rewrite (g_conditions A11) in X. injection X as <- <-.
    apply bind_inv in E. destruct E as (o1 & s11 & X & E). pose proof (t_utf8_sets _ _ X) as A12. rewrite (g_utf8_sets A12) in X. injection X as <- <-.
    apply bind_inv in E. destruct E as (o2 & s12 & X & E). pose proof (t_glyph_sets _ _ X) as A13. rewrite (g_glyph_sets A13) in X. injection X as <- <-.
    apply bind_inv in E. destruct E as (o3 & s13 & X & E). pose proof (t_utf8_rules _ _ X) as A14. rewrite (g_utf8_rules A14) in X. injection X as <- <-.
    apply bind_inv in E. destruct E as (o4 & s14 & X & E). pose proof (t_glyph_rules _ _ X) as A15. rewrite (g_glyph_rules A15) in X. injection X as <- <-.
    apply bind_inv in E. destruct E as (o5 & s15 & X & E). pose proof (t_horz _ _ _ X) as A16. rewrite (g_horz _ A16) in X. injection X as <- <-.
    apply bind_inv in E. destruct E as (o6 & s16 & X & E). pose proof (t_vert _ _ _ X) as A17. clear E X.
    destruct A2 as (A2 & A2'). constructor; try assumption.
    - split; [|exact A2']. intros Z0. unfold n in N. rewrite Z0, zlen_nil in N. lia.
    - split; assumption.
  Qed.
End Layout.

Lemma parser_exact l i : encodable l -> delivers i (font_bytes l) ->
  parse_payload i = Ok (font_of l) /\ parser_accepts (fun id => entropy_too_low id = false) l \/
  (exists m, parse_payload i = Err m) /\ ~ parser_accepts (fun id => entropy_too_low id = false) l.
Proof.
  intros EN D. pose proof (payload_result i _ D (en_bytes _ EN) (en_size _ EN)) as R. destruct (parse_sections (full (font_bytes l) 0)) as [f s|e s| |] eqn:E; try contradiction.
  - left. pose proof (sections_only l EN f s E) as A. split; [|exact A]. destruct (sections_go l EN A) as (f' & E' & <-).
    eapply payload_ok; [split; [exact (en_bytes _ EN)|exact (en_size _ EN)]|exact D|exact E'|]. left. reflexivity.
  - right. split; [exists e; exact R|]. intros A. destruct (sections_go l EN A) as (f' & E' & _). rewrite E in E'. discriminate.
Qed.
