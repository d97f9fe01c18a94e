(** Color accessors. *)
From Verif Require Import Base BaseFacts Spec_Helpers Model_Helpers Proofs_Helpers Model_Font
  Spec_Format Proofs_Format Proofs_Font.

Lemma stored_byte d i v : stored d i (le_digits 1 v) -> 0 <= v < 256 -> zget d i = Ok v.
Proof.
  intros H Hv. cbn [le_digits] in H. apply stored_cons in H. destruct H as [-> _]. f_equal. now apply Z.mod_small.
Qed.

(** ** the name loops *)
Lemma skip_prefix {A} (l1 : list A) x l2 : zget (l1 ++ x :: l2) (zlen l1) = Ok x.
Proof. rewrite zget_app_r by lia. now rewrite Z.sub_diag. Qed.
Lemma start_app {A} (l1 l2 : list (list A)) : start_of (l1 ++ l2) (zlen l1) = zlen (concat l1).
Proof. unfold start_of, zlen at 2. rewrite Nat2Z.id, firstn_app, Nat.sub_diag, firstn_all, firstn_O, app_nil_r. reflexivity. Qed.

Lemma names_loop_spec d off names l2 : forall l1 e s,
  stored d off (offsets 2 (l1 ++ l2)) -> stored d names (concat (l1 ++ l2)) ->
  zlen (concat (l1 ++ l2)) < 65536 -> Forall (fun n => n <> []) l2 ->
  e = off + 2 * zlen l1 -> s = zlen (concat l1) ->
  names_loop (length l2) d e names s (zlen l1) = Ok (numbered (zlen l1) l2).
Proof.
  induction l2 as [|n l2 IH]; intros l1 e s H1 H2 Hl Hne -> ->; cbn [names_loop length]; [reflexivity|].
  pose proof (skip_prefix l1 n l2) as E. rewrite <- (bind_assoc (zfrom _ _) DecodeUint16LE).
  rewrite (end16 _ _ _ _ _ _ H1 E) by lia. cbn [bind]. rewrite start_app.
  inversion Hne as [|? ? Hn Hne2]; subst. pose proof (nonempty_len _ Hn).
  destruct (Z.leb_spec (zlen (concat l1) + zlen n) (zlen (concat l1))); [lia|].
  rewrite (stored_string d (names + zlen (concat l1)) n); [|rewrite <- (start_app l1 (n :: l2)); exact (stored_blob _ _ _ _ _ H2 E)|lia|assumption].
  cbn [bind]. replace (zlen l1 + 1) with (zlen (l1 ++ [n])) by (rewrite zlen_app; reflexivity).
  rewrite IH; [cbn [bind numbered]; rewrite zlen_app; reflexivity|..]; rewrite <- ?app_assoc; auto.
  - rewrite zlen_app, zlen_cons, zlen_nil. lia.
  - rewrite concat_app, zlen_app. cbn [concat]. now rewrite app_nil_r.
Qed.

(** ** one color section *)
Section ColorSection.
  Context {A : Type}.
  Variables (d : list Z) (off : Z) (l : list (list Z * list A)).
  Variable blob : list Z.
  Hypothesis HS : stored d off (zlen l :: offsets 1 (map snd l) ++ blob ++ indexed 2 (map fst l)).
  Hypothesis HN : color_named l.
  Hypothesis HT : zlen (concat (map snd l)) < 256.

  Lemma cs_count : zget d off = Ok (zlen l).
  Proof. now apply stored_cons in HS. Qed.
  Lemma cs_ends : stored d (off + 1) (offsets 1 (map snd l)).
  Proof. apply stored_cons in HS. destruct HS as [_ H]. now apply stored_app in H. Qed.
  Lemma cs_blob : stored d (off + 1 + zlen l) blob.
  Proof.
    apply stored_cons in HS. destruct HS as [_ H]. apply stored_app in H. destruct H as [_ H].
    apply stored_app in H. destruct H as [H _]. rewrite zlen_offsets, zlen_map in H. eapply stored_at; [exact H|lia].
  Qed.
  Lemma cs_names : stored d (off + 1 + zlen l + zlen blob) (indexed 2 (map fst l)).
  Proof.
    apply stored_cons in HS. destruct HS as [_ H]. apply stored_app in H. destruct H as [_ H].
    apply stored_app in H. destruct H as [_ H]. rewrite zlen_offsets, zlen_map in H. eapply stored_at; [exact H|lia].
  Qed.
  Lemma cs_nonempty_colors : Forall (fun x => x <> []) (map snd l).
  Proof. destruct HN as [H _]. apply Forall_map. revert H. apply Forall_impl. tauto. Qed.
  Lemma cs_nonempty_names : Forall (fun x => x <> []) (map fst l).
  Proof. destruct HN as [H _]. apply Forall_map. revert H. apply Forall_impl. tauto. Qed.

  Lemma cs_used : zget d (off + zlen l) = Ok (zlen (concat (map snd l))).
  Proof.
    destruct (Z.eq_dec (zlen l) 0) as [E|Hn].
    - rewrite E, Z.add_0_r, cs_count. apply zlen_0_nil in E. subst l. reflexivity.
    - pose proof (zlen_nonneg l). destruct (zget_in_range (map snd l) (zlen l - 1)) as [b E]; [rewrite zlen_map; lia|].
      pose proof (stored_end 1 _ _ _ _ _ cs_ends E) as H1. pose proof (end_le _ _ _ E). pose proof (zlen_nonneg b).
      pose proof (start_nonneg (map snd l) (zlen l - 1)).
      rewrite <- (start_next _ _ _ E) in H1. replace (zlen l - 1 + 1) with (zlen (map snd l)) in H1 by (rewrite zlen_map; lia).
      rewrite start_all in H1. pose proof (zlen_nonneg (concat (map snd l))). apply stored_byte in H1; [|lia]. rewrite <- H1. f_equal. lia.
  Qed.

  Lemma cs_range key : 0 <= key -> color_range d off (zlen l) key =
    do b <- zget (map snd l) key; Ok (start_of (map snd l) key, start_of (map snd l) key + zlen b).
  Proof.
    intros Hk. unfold color_range. destruct (Z.geb_spec key (zlen l)) as [H|H].
    - rewrite zget_panic; [reflexivity|]. rewrite zlen_map. lia.
    - destruct (zget_in_range (map snd l) key) as [b E]; [rewrite zlen_map; lia|]. rewrite E. cbn [bind].
      pose proof (end_le _ _ _ E). pose proof (zlen_nonneg b). pose proof (start_nonneg (map snd l) key).
      pose proof (stored_end 1 _ _ _ _ _ cs_ends E) as HE1. apply stored_byte in HE1; [|lia].
      replace (off + 1 + Z.of_nat 1 * key) with (off + 1 + key) in HE1 by lia. rewrite HE1. cbn [bind].
      assert (HE2 : (if key >? 0 then zget d (off + key) else Ok 0) = Ok (start_of (map snd l) key)).
      { destruct (Z.gtb_spec key 0) as [Hp|Hp].
        - pose proof (stored_start 1 _ _ _ _ _ cs_ends E ltac:(lia)) as HE3. apply stored_byte in HE3; [|lia].
          rewrite <- HE3. f_equal. lia.
        - replace key with 0 by lia. now rewrite start_0. }
      rewrite HE2. cbn [bind]. pose proof (nonempty_len _ (forall_get _ _ _ _ cs_nonempty_colors E)).
      destruct (Z.geb_spec (start_of (map snd l) key) (start_of (map snd l) key + zlen b)); [lia|]. reflexivity.
  Qed.

  Lemma cs_each_name used : used = zlen blob ->
    names_loop (Z.to_nat (zlen l)) d (off + 1 + zlen l + used) (off + 1 + zlen l + used + Z.shiftl (zlen l) 1) 0 0 = Ok (numbered 0 (map fst l)).
  Proof.
    intros ->. pose proof (stored_indexed _ _ _ _ cs_names) as [H1 H2].
    pose proof (names_loop_spec d _ _ (map fst l) [] (off + 1 + zlen l + zlen blob) 0 H1 H2) as H.
    rewrite zlen_nil, map_length in H. unfold zlen at 1. rewrite Nat2Z.id.
    rewrite shiftl_mul by lia. change (2 ^ 1) with 2. rewrite zlen_map in H.
    replace (Z.of_nat 2 * zlen l) with (zlen l * 2) in H by lia. apply H; auto; [apply HN|apply cs_nonempty_names|lia].
  Qed.
End ColorSection.

Lemma omap_pointwise {A B} (f : A -> outcome B) l r : length l = length r ->
  (forall i, (i < length l)%nat -> exists a b, nth_error l i = Some a /\ nth_error r i = Some b /\ f a = Ok b) ->
  omap f l = Ok r.
Proof.
  revert r. induction l as [|x l IH]; intros [|y r] Hl H; try discriminate; [reflexivity|]. cbn [omap].
  destruct (H O) as (a & b & Ea & Eb & E); [cbn; lia|]. cbn in Ea, Eb. assert (x = a) by congruence. assert (y = b) by congruence. subst.
  rewrite E. cbn [bind]. rewrite (IH r); [reflexivity|cbn in Hl; lia|].
  intros i Hi. destruct (H (S i)) as (a' & b' & ?); [cbn; lia|]. exists a', b'. exact H0.
Qed.
Lemma nth_zseq n i : (i < Z.to_nat n)%nat -> nth_error (zseq n) i = Some (Z.of_nat i).
Proof.
  intros H. unfold zseq. rewrite nth_error_map. 
  rewrite (nth_error_nth' _ O) by (rewrite seq_length; lia). rewrite seq_nth by lia. reflexivity.
Qed.
Lemma omap_range {B} (f : Z -> outcome B) n r : n = zlen r ->
  (forall i b, zget r i = Ok b -> f i = Ok b) -> omap f (zseq n) = Ok r.
Proof.
  intros -> H. assert (Hlen : length (zseq (zlen r)) = length r).
  { pose proof (zlen_zseq (zlen r) (zlen_nonneg r)). unfold zlen in *. lia. }
  apply omap_pointwise; [exact Hlen|]. rewrite Hlen. intros i Hi.
  destruct (nth_error r i) as [b|] eqn:E; [|apply nth_error_None in E; lia].
  exists (Z.of_nat i), b. split; [apply nth_zseq; unfold zlen; lia|]. split; [reflexivity|].
  apply H. apply zget_some. split; [lia|]. now rewrite Nat2Z.id.
Qed.

Section Colors.
  Variables (f : Font) (ds : list dye) (ps : list palette).
  Hypothesis HD : stored (Data f) (OffsetToDyes f) (dyes_bytes ds).
  Hypothesis HP : stored (Data f) (OffsetToPalettes f) (palettes_bytes ps).
  Hypothesis HR : colors_in_range ds ps.

  Let Hd : color_named ds := proj1 HR.
  Let Hp : color_named ps := proj1 (proj2 HR).
  Let Htd : zlen (concat (map snd ds)) < 256.
  Proof. pose proof (proj2 (proj2 HR)) as H. pose proof (zlen_nonneg (concat (map snd ps))). lia. Qed.
  Let Htp : zlen (concat (map snd ps)) < 256.
  Proof. pose proof (proj2 (proj2 HR)) as H. pose proof (zlen_nonneg (concat (map snd ds))). lia. Qed.

  Lemma num_dyes : color_NumDyes f = Ok (zlen ds).
  Proof. exact (cs_count _ _ _ _ HD). Qed.
  Lemma num_palettes : color_NumPalettes f = Ok (zlen ps).
  Proof. exact (cs_count _ _ _ _ HP). Qed.
  Lemma dye_indices : color_NumDyeIndices f = Ok (zlen (concat (map snd ds))).
  Proof. unfold color_NumDyeIndices. rewrite num_dyes. exact (cs_used _ _ _ _ HD Hd Htd). Qed.
  Lemma palette_indices : color_NumPaletteIndices f = Ok (zlen (concat (map snd ps))).
  Proof. unfold color_NumPaletteIndices. rewrite num_palettes. exact (cs_used _ _ _ _ HP Hp Htp). Qed.
  Lemma colors_count : color_Count f = Ok (zlen (concat (map snd ds)) + zlen (concat (map snd ps))).
  Proof.
    unfold color_Count. rewrite dye_indices, palette_indices. cbn [bind]. cbv zeta.
    pose proof (zlen_nonneg (concat (map snd ps))). pose proof (zlen_nonneg (concat (map snd ds))). pose proof (proj2 (proj2 HR)) as HT.
    rewrite u8_small by lia. destruct (Z.ltb_spec (zlen (concat (map snd ds)) + zlen (concat (map snd ps))) (zlen (concat (map snd ds)))); [lia|reflexivity].
  Qed.
  Lemma each_dye : color_EachDye f = Ok (numbered 0 (map fst ds)).
  Proof.
    unfold color_EachDye. rewrite num_dyes, dye_indices. cbn [bind]. cbv zeta.
    exact (cs_each_name _ _ _ _ HD Hd _ eq_refl).
  Qed.
  Lemma each_palette : color_EachPalette f = Ok (numbered 0 (map fst ps)).
  Proof.
    unfold color_EachPalette. rewrite num_palettes, palette_indices. cbn [bind]. cbv zeta.
    apply (cs_each_name _ _ _ _ HP Hp). rewrite (zlen_concat_fixed color_bytes 4) by (intros [[[r0 g0] b0] a0]; reflexivity).
    rewrite shiftl_mul by lia. change (2 ^ 2) with 4. lia.
  Qed.
  Lemma num_dye_alphas key : 0 <= key -> color_NumDyeAlphas f key = do a <- zget (map snd ds) key; Ok (zlen a).
  Proof.
    intros Hk. unfold color_NumDyeAlphas. rewrite num_dyes. cbn [bind].
    rewrite (cs_range _ _ _ _ HD Hd Htd) by assumption. destruct (zget (map snd ds) key) as [a| | |]; cbn [bind]; try reflexivity. f_equal. lia.
  Qed.
  Lemma num_palette_colors key : 0 <= key -> color_NumPaletteColors f key = do a <- zget (map snd ps) key; Ok (zlen a).
  Proof.
    intros Hk. unfold color_NumPaletteColors. rewrite num_palettes. cbn [bind].
    rewrite (cs_range _ _ _ _ HP Hp Htp) by assumption. destruct (zget (map snd ps) key) as [a| | |]; cbn [bind]; try reflexivity. f_equal. lia.
  Qed.
  Lemma each_dye_alpha key : 0 <= key -> color_EachDyeAlpha f key = zget (map snd ds) key.
  Proof.
    intros Hk. unfold color_EachDyeAlpha. rewrite num_dyes. cbn [bind].
    rewrite (cs_range _ _ _ _ HD Hd Htd) by assumption.
    destruct (zget_cases (map snd ds) key) as [[a E]| ->]; [|reflexivity]. rewrite E. cbn [bind].
    apply omap_range; [lia|]. intros i b Eb. pose proof (zget_ok_range _ _ _ Eb).
    pose proof (stored_blob _ _ _ _ _ (cs_blob _ _ _ _ HD) E) as S. rewrite <- Eb.
    rewrite <- (stored_get _ _ _ i S) by lia. f_equal. apply Z.add_assoc.
  Qed.
  Lemma start_flat {B C} (g : B -> list C) w (l : list (list B)) i : (forall x, zlen (g x) = w) ->
    start_of (map (fun c => concat (map g c)) l) i = w * start_of l i.
  Proof.
    intros Hg. unfold start_of. rewrite firstn_map. rewrite <- (zlen_concat_fixed g w _ Hg).
    f_equal. induction (firstn (Z.to_nat i) l) as [|x r IH]; cbn [map concat]; [reflexivity|]. now rewrite IH, map_app, concat_app.
  Qed.
  Lemma concat_flat {B C} (g : B -> list C) (l : list (list B)) :
    concat (map g (concat l)) = concat (map (fun c => concat (map g c)) l).
  Proof. induction l as [|x r IH]; cbn [map concat]; [reflexivity|]. now rewrite map_app, concat_app, IH. Qed.
  Lemma each_palette_color key : 0 <= key -> color_EachPaletteColor f key = zget (map snd ps) key.
  Proof.
    intros Hk. unfold color_EachPaletteColor. rewrite num_palettes. cbn [bind].
    rewrite (cs_range _ _ _ _ HP Hp Htp) by assumption.
    destruct (zget_cases (map snd ps) key) as [[a E]| ->]; [|reflexivity]. rewrite E. cbn [bind].
    apply omap_range; [apply Z.add_simpl_l|]. intros i b Eb. pose proof (zget_ok_range _ _ _ Eb).
    pose proof (cs_blob _ _ _ _ HP) as S. rewrite concat_flat in S.
    assert (L4 : forall c, zlen (color_bytes c) = 4) by (intros [[[r0 g0] b0] a0]; reflexivity).
    assert (E' : zget (map (fun c => concat (map color_bytes c)) (map snd ps)) key = Ok (concat (map color_bytes a))) by (rewrite zget_map, E; reflexivity).
    pose proof (stored_blob _ _ _ _ _ S E') as S2. rewrite (start_flat _ 4 _ _ L4) in S2.
    pose proof (stored_array color_bytes 4 a _ _ _ _ L4 S2 Eb) as S3.
    rewrite shiftl_mul by lia. change (2 ^ 2) with 4.
    unfold rgba_at. destruct b as [[[r g] bb] al]. cbn [color_bytes] in S3.
    apply (stored_at _ _ _ (OffsetToPalettes f + 1 + zlen ps + (start_of (map snd ps) key + i) * 4)) in S3; [|lia].
    apply stored_cons in S3. destruct S3 as [-> S3]. apply stored_cons in S3. destruct S3 as [-> S3]. cbn [bind].
    apply stored_cons in S3. destruct S3 as [G3 S3]. apply stored_cons in S3. destruct S3 as [G4 _].
    replace (OffsetToPalettes f + 1 + zlen ps + (start_of (map snd ps) key + i) * 4 + 2) with (OffsetToPalettes f + 1 + zlen ps + (start_of (map snd ps) key + i) * 4 + 1 + 1) by lia.
    rewrite G3. cbn [bind].
    replace (OffsetToPalettes f + 1 + zlen ps + (start_of (map snd ps) key + i) * 4 + 3) with (OffsetToPalettes f + 1 + zlen ps + (start_of (map snd ps) key + i) * 4 + 1 + 1 + 1) by lia.
    rewrite G4. reflexivity.
  Qed.
  Lemma go_palette : color_GoColorPalette f =
    Ok ((0, 0, 0, 0) :: map (fun a => (a, a, a, a)) (concat (map snd ds)) ++ concat (map snd ps)).
  Proof.
    unfold color_GoColorPalette. rewrite colors_count, num_dyes. cbn [bind].
    rewrite (omap_range _ _ (map snd ds)) by (try (now rewrite zlen_map); intros i b E; rewrite each_dye_alpha by (apply zget_ok_range in E; lia); exact E).
    cbn [bind]. rewrite num_palettes. cbn [bind].
    rewrite (omap_range _ _ (map snd ps)) by (try (now rewrite zlen_map); intros i b E; rewrite each_palette_color by (apply zget_ok_range in E; lia); exact E).
    reflexivity.
  Qed.
End Colors.
