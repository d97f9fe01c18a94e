(** The color accessors, whatever the dyes and palettes are. *)
From Coq Require Import Permutation.
From Verif Require Import Base BaseFacts Spec_Helpers Model_Helpers Proofs_Helpers Model_Date Model_Mask Model_Font
  Spec_Format Proofs_Format Proofs_Font Proofs_Font2 Spec_Layout Spec_LayoutFont Proofs_Layout Model_Builder Spec_Builder Proofs_Builder Proofs_Build8 Spec_Kept Proofs_Kept.

Definition nonempty {A} (l : list A) : bool := match l with [] => false | _ => true end.
Lemma nonempty_pos {A} (l : list A) : nonempty l = (0 <? zlen l).
Proof. destruct l as [|x l]; [reflexivity|]. cbn [nonempty]. rewrite zlen_cons. pose proof (zlen_nonneg l). lia. Qed.

Lemma names_loop_exact d off names l2 : forall l1 e s,
  stored d off (offsets 2 (l1 ++ l2)) -> stored d names (concat (l1 ++ l2)) -> zlen (concat (l1 ++ l2)) < 65536 ->
  e = off + 2 * zlen l1 -> s = zlen (concat l1) ->
  names_loop (length l2) d e names s (zlen l1) = if forallb nonempty l2 then Ok (numbered (zlen l1) l2) else Panic.
Proof.
  induction l2 as [|n l2 IH]; intros l1 e s H1 H2 Hl -> ->; cbn [names_loop length]; [reflexivity|].
  pose proof (skip_prefix l1 n l2) as E. rewrite <- (bind_assoc (zfrom _ _) DecodeUint16LE).
  rewrite (end16 _ _ _ _ _ _ H1 E) by lia. cbn [bind]. rewrite start_app. cbn [forallb]. destruct n as [|x n].
  - cbn [nonempty andb]. rewrite zlen_nil. replace (_ <=? _) with true by lia. reflexivity.
  - cbn [nonempty andb]. pose proof (zlen_nonneg n). destruct (Z.leb_spec (zlen (concat l1) + zlen (x :: n)) (zlen (concat l1))); [rewrite zlen_cons in *; lia|].
    rewrite (stored_string d (names + zlen (concat l1)) (x :: n)); [|rewrite <- (start_app l1 ((x :: n) :: l2)); exact (stored_blob _ _ _ _ _ H2 E)|rewrite zlen_cons; lia|discriminate].
    cbn [bind]. replace (zlen l1 + 1) with (zlen (l1 ++ [x :: n])) by (rewrite zlen_app; reflexivity).
    rewrite IH; [| | | |rewrite zlen_app, zlen_cons, zlen_nil; lia|rewrite concat_app, zlen_app; cbn [concat]; now rewrite app_nil_r]; rewrite <- ?app_assoc; auto.
    rewrite zlen_app. change (zlen [x :: n]) with 1. destruct (forallb nonempty l2); reflexivity.
Qed.

Section Section1.
  Context {A : Type}.
  Variables (d : list Z) (off : Z) (l : list (list Z * list A)).
  Variable blob : list Z.
  Hypothesis HS : stored d off (zlen l :: offsets 1 (map snd l) ++ blob ++ indexed 2 (map fst l)).
  Hypothesis HT : zlen (concat (map snd l)) < 256.
  Lemma any_used : zget d (off + zlen l) = Ok (zlen (concat (map snd l))).
  Proof.
    destruct (Z.eq_dec (zlen l) 0) as [E|Hn].
    - rewrite E, Z.add_0_r, (cs_count _ _ _ _ HS). apply zlen_0_nil in E. subst l. reflexivity.
    - pose proof (zlen_nonneg l). destruct (zget_in_range (map snd l) (zlen l - 1)) as [b E]; [rewrite zlen_map; lia|].
      pose proof (stored_end 1 _ _ _ _ _ (cs_ends _ _ _ _ HS) E) as H1. pose proof (end_le _ _ _ E). pose proof (zlen_nonneg b).
      pose proof (start_nonneg (map snd l) (zlen l - 1)).
      rewrite <- (start_next _ _ _ E) in H1. replace (zlen l - 1 + 1) with (zlen (map snd l)) in H1 by (rewrite zlen_map; lia).
      rewrite start_all in H1. pose proof (zlen_nonneg (concat (map snd l))). apply stored_byte in H1; [|lia]. rewrite <- H1. f_equal. lia.
  Qed.
  Lemma any_range key : 0 <= key -> color_range d off (zlen l) key =
    do b <- zget (map snd l) key; if nonempty b then Ok (start_of (map snd l) key, start_of (map snd l) key + zlen b) else Panic.
  Proof.
    intros Hk. unfold color_range. destruct (Z.geb_spec key (zlen l)) as [H|H].
    - rewrite zget_panic; [reflexivity|]. rewrite zlen_map. lia.
    - destruct (zget_in_range (map snd l) key) as [b E]; [rewrite zlen_map; lia|]. rewrite E. cbn [bind].
      pose proof (end_le _ _ _ E). pose proof (zlen_nonneg b). pose proof (start_nonneg (map snd l) key).
      pose proof (stored_end 1 _ _ _ _ _ (cs_ends _ _ _ _ HS) E) as HE1. apply stored_byte in HE1; [|lia].
      replace (off + 1 + Z.of_nat 1 * key) with (off + 1 + key) in HE1 by lia. rewrite HE1. cbn [bind].
      assert (HE2 : (if key >? 0 then zget d (off + key) else Ok 0) = Ok (start_of (map snd l) key)).
      { destruct (Z.gtb_spec key 0) as [Hp|Hp].
        - pose proof (stored_start 1 _ _ _ _ _ (cs_ends _ _ _ _ HS) E ltac:(lia)) as HE3. apply stored_byte in HE3; [|lia].
          rewrite <- HE3. f_equal. lia.
        - replace key with 0 by lia. now rewrite start_0. }
      rewrite HE2. cbn [bind]. rewrite nonempty_pos.
      destruct (Z.geb_spec (start_of (map snd l) key) (start_of (map snd l) key + zlen b)), (Z.ltb_spec 0 (zlen b)); try lia; reflexivity.
  Qed.
  Lemma any_each_name used : used = zlen blob -> zlen (concat (map fst l)) < 65536 ->
    names_loop (Z.to_nat (zlen l)) d (off + 1 + zlen l + used) (off + 1 + zlen l + used + Z.shiftl (zlen l) 1) 0 0 =
    if forallb nonempty (map fst l) then Ok (numbered 0 (map fst l)) else Panic.
  Proof.
    intros -> HN. pose proof (stored_indexed _ _ _ _ (cs_names _ _ _ _ HS)) as [H1 H2].
    pose proof (names_loop_exact d _ _ (map fst l) [] (off + 1 + zlen l + zlen blob) 0 H1 H2) as H.
    rewrite zlen_nil, map_length in H. unfold zlen at 1. rewrite Nat2Z.id.
    rewrite shiftl_mul by lia. change (2 ^ 1) with 2. rewrite zlen_map in H.
    replace (Z.of_nat 2 * zlen l) with (zlen l * 2) in H by lia. apply H; auto; lia.
  Qed.
End Section1.

Section Colors.
  Variables (f : Font) (ds : list dye) (ps : list palette).
  Hypothesis HD : stored (Data f) (OffsetToDyes f) (dyes_bytes ds).
  Hypothesis HP : stored (Data f) (OffsetToPalettes f) (palettes_bytes ps).
  Hypothesis HR : zlen (concat (map snd ds)) + zlen (concat (map snd ps)) <= 255.
  Lemma total_d : zlen (concat (map snd ds)) < 256.
  Proof. pose proof (zlen_nonneg (concat (map snd ps))). lia. Qed.
  Lemma total_p : zlen (concat (map snd ps)) < 256.
  Proof. pose proof (zlen_nonneg (concat (map snd ds))). lia. Qed.
  Lemma any_num_dyes : color_NumDyes f = Ok (zlen ds).
  Proof. exact (cs_count _ _ _ _ HD). Qed.
  Lemma any_num_palettes : color_NumPalettes f = Ok (zlen ps).
  Proof. exact (cs_count _ _ _ _ HP). Qed.
  Lemma any_dye_indices : color_NumDyeIndices f = Ok (zlen (concat (map snd ds))).
  Proof. unfold color_NumDyeIndices. rewrite any_num_dyes. exact (any_used _ _ _ _ HD total_d). Qed.
  Lemma any_palette_indices : color_NumPaletteIndices f = Ok (zlen (concat (map snd ps))).
  Proof. unfold color_NumPaletteIndices. rewrite any_num_palettes. exact (any_used _ _ _ _ HP total_p). Qed.
  Lemma any_count : color_Count f = Ok (zlen (concat (map snd ds)) + zlen (concat (map snd ps))).
  Proof.
    unfold color_Count. rewrite any_dye_indices, any_palette_indices. cbn [bind]. cbv zeta.
    pose proof (zlen_nonneg (concat (map snd ps))). pose proof (zlen_nonneg (concat (map snd ds))).
    rewrite u8_small by lia. destruct (Z.ltb_spec (zlen (concat (map snd ds)) + zlen (concat (map snd ps))) (zlen (concat (map snd ds)))); [lia|reflexivity].
  Qed.
  Lemma any_each_dye : zlen (concat (map fst ds)) < 65536 -> color_EachDye f = if forallb nonempty (map fst ds) then Ok (numbered 0 (map fst ds)) else Panic.
  Proof.
    intros H. unfold color_EachDye. rewrite any_num_dyes, any_dye_indices. cbn [bind]. cbv zeta.
    exact (any_each_name _ _ _ _ HD _ eq_refl H).
  Qed.
  Lemma any_each_palette : zlen (concat (map fst ps)) < 65536 -> color_EachPalette f = if forallb nonempty (map fst ps) then Ok (numbered 0 (map fst ps)) else Panic.
  Proof.
    intros H. unfold color_EachPalette. rewrite any_num_palettes, any_palette_indices. cbn [bind]. cbv zeta.
    apply (any_each_name _ _ _ _ HP); [|exact H]. rewrite (zlen_concat_fixed color_bytes 4) by (intros [[[r0 g0] b0] a0]; reflexivity).
    rewrite shiftl_mul by lia. change (2 ^ 2) with 4. lia.
  Qed.
  Lemma any_num_alphas key : 0 <= key -> color_NumDyeAlphas f key = do a <- zget (map snd ds) key; if nonempty a then Ok (zlen a) else Panic.
  Proof.
    intros Hk. unfold color_NumDyeAlphas. rewrite any_num_dyes. cbn [bind]. rewrite (any_range _ _ _ _ HD total_d) by assumption.
    destruct (zget (map snd ds) key) as [a| | |]; cbn [bind]; try reflexivity. destruct (nonempty a); cbn [bind]; [f_equal; lia|reflexivity].
  Qed.
  Lemma any_num_colors key : 0 <= key -> color_NumPaletteColors f key = do a <- zget (map snd ps) key; if nonempty a then Ok (zlen a) else Panic.
  Proof.
    intros Hk. unfold color_NumPaletteColors. rewrite any_num_palettes. cbn [bind]. rewrite (any_range _ _ _ _ HP total_p) by assumption.
    destruct (zget (map snd ps) key) as [a| | |]; cbn [bind]; try reflexivity. destruct (nonempty a); cbn [bind]; [f_equal; lia|reflexivity].
  Qed.
  Lemma any_dye_alpha key : 0 <= key -> color_EachDyeAlpha f key = do a <- zget (map snd ds) key; if nonempty a then Ok a else Panic.
  Proof.
    intros Hk. unfold color_EachDyeAlpha. rewrite any_num_dyes. cbn [bind].
    rewrite (any_range _ _ _ _ HD total_d) by assumption.
    destruct (zget_cases (map snd ds) key) as [[a E]| ->]; [|reflexivity]. rewrite E. cbn [bind]. destruct (nonempty a); [|reflexivity]. cbn [bind].
    apply omap_range; [lia|]. intros i b Eb. pose proof (zget_ok_range _ _ _ Eb).
    pose proof (stored_blob _ _ _ _ _ (cs_blob _ _ _ _ HD) E) as S. rewrite <- Eb.
    rewrite <- (stored_get _ _ _ i S) by lia. f_equal. apply Z.add_assoc.
  Qed.
  Lemma any_palette_color key : 0 <= key -> color_EachPaletteColor f key = do a <- zget (map snd ps) key; if nonempty a then Ok a else Panic.
  Proof.
    intros Hk. unfold color_EachPaletteColor. rewrite any_num_palettes. cbn [bind].
    rewrite (any_range _ _ _ _ HP total_p) by assumption.
    destruct (zget_cases (map snd ps) key) as [[a E]| ->]; [|reflexivity]. rewrite E. cbn [bind]. destruct (nonempty a); [|reflexivity]. cbn [bind].
    apply omap_range; [apply Z.add_simpl_l|]. intros i b Eb. pose proof (zget_ok_range _ _ _ Eb).
    pose proof (cs_blob _ _ _ _ HP) as S. rewrite concat_flat in S.
    assert (L4 : forall c, zlen (color_bytes c) = 4) by (intros [[[r0 g0] b0] a0]; reflexivity).
    assert (E' : zget (map (fun c => concat (map color_bytes c)) (map snd ps)) key = Ok (concat (map color_bytes a))) by (rewrite zget_map, E; reflexivity).
    pose proof (stored_blob _ _ _ _ _ S E') as S2. rewrite (start_flat _ 4 _ _ L4) in S2.
    pose proof (stored_array color_bytes 4 a _ _ _ _ L4 S2 Eb) as S3.
    rewrite shiftl_mul by lia. change (2 ^ 2) with 4.
    unfold rgba_at. destruct b as [[[r g] bb] al]. cbn [color_bytes] in S3.
    apply (stored_at _ _ _ (OffsetToPalettes f + 1 + zlen ps + (start_of (map snd ps) key + i) * 4)) in S3; [|lia].
    apply stored_cons in S3. destruct S3 as [-> S3]. apply stored_cons in S3. destruct S3 as [-> S3]. cbn [bind].
    apply stored_cons in S3. destruct S3 as [G3 S3]. apply stored_cons in S3. destruct S3 as [G4 _].
    replace (OffsetToPalettes f + 1 + zlen ps + (start_of (map snd ps) key + i) * 4 + 2) with (OffsetToPalettes f + 1 + zlen ps + (start_of (map snd ps) key + i) * 4 + 1 + 1) by lia.
    rewrite G3. cbn [bind].
    replace (OffsetToPalettes f + 1 + zlen ps + (start_of (map snd ps) key + i) * 4 + 3) with (OffsetToPalettes f + 1 + zlen ps + (start_of (map snd ps) key + i) * 4 + 1 + 1 + 1) by lia.
    rewrite G4. reflexivity.
  Qed.
  Lemma omap_guard {B} (g : Z -> outcome (list B)) (l : list (list B)) : (forall i, 0 <= i -> g i = do a <- zget l i; if nonempty a then Ok a else Panic) ->
    omap g (zseq (zlen l)) = if forallb nonempty l then Ok l else Panic.
  Proof.
    intros H. assert (G : forall r n, (forall i, 0 <= i -> g (n + i) = do a <- zget r i; if nonempty a then Ok a else Panic) ->
      omap g (map (fun i => n + i) (zseq (zlen r))) = if forallb nonempty r then Ok r else Panic).
    { clear H l. induction r as [|x r IH]; intros n H; [reflexivity|]. unfold zlen, zseq. rewrite Nat2Z.id. cbn [length seq map omap forallb].
      change (Z.of_nat 0) with 0. rewrite (H 0) by lia. rewrite zget_cons_0. cbn [bind]. destruct (nonempty x); cbn [andb bind]; [|reflexivity].
      assert (E : map (fun i => n + i) (map Z.of_nat (seq 1 (length r))) = map (fun i => (n + 1) + i) (zseq (zlen r))).
      { unfold zseq, zlen. rewrite Nat2Z.id, <- seq_shift, !map_map. apply map_ext. intros a. lia. }
      rewrite E, IH; [destruct (forallb nonempty r); reflexivity|]. intros i Hi. replace (n + 1 + i) with (n + (i + 1)) by lia. rewrite H by lia. rewrite zget_cons_S by lia. do 2 f_equal. lia. }
    specialize (G l 0). rewrite map_ext with (g := fun i => i), map_id in G by (intros; lia). apply G. intros i Hi. rewrite Z.add_0_l. apply H. exact Hi.
  Qed.
  Lemma any_go_palette : color_GoColorPalette f =
    if forallb nonempty (map snd ds) && forallb nonempty (map snd ps)
    then Ok ((0, 0, 0, 0) :: map (fun a => (a, a, a, a)) (concat (map snd ds)) ++ concat (map snd ps)) else Panic.
  Proof.
    unfold color_GoColorPalette. rewrite any_count, any_num_dyes. cbn [bind]. rewrite <- (zlen_map snd ds), (omap_guard _ (map snd ds)) by (intros; now apply any_dye_alpha).
    destruct (forallb nonempty (map snd ds)); [|reflexivity]. cbn [bind andb]. rewrite any_num_palettes. cbn [bind].
    rewrite <- (zlen_map snd ps), (omap_guard _ (map snd ps)) by (intros; now apply any_palette_color). destruct (forallb nonempty (map snd ps)); reflexivity.
  Qed.
End Colors.

Section Kept.
  Variables (id : Z) (date : Date) (ops : list bop) (o : order) (sort : list Model_Mask.fragment -> list Model_Mask.fragment) (b' : builder) (f : Font).
  Hypothesis HD : date_typed date.
  Hypothesis HT : Forall op_typed ops.
  Hypothesis HO : perm_order o.
  Hypothesis HS : forall l, Permutation l (sort l).
  Hypothesis HB : Build o sort (history id date ops) = (b', Ok f).
  Let b := history id date ops.
  Lemma kept_any_colors :
    (forall key, 0 <= key ->
       color_EachDyeAlpha f key = (do d <- zget (kept_dyes b) key; if nonempty (snd d) then Ok (snd d) else Panic) /\
       color_NumDyeAlphas f key = (do d <- zget (kept_dyes b) key; if nonempty (snd d) then Ok (zlen (snd d)) else Panic) /\
       color_EachPaletteColor f key = (do p <- zget (b_palettes b) key; if nonempty (snd p) then Ok (snd p) else Panic) /\
       color_NumPaletteColors f key = (do p <- zget (b_palettes b) key; if nonempty (snd p) then Ok (zlen (snd p)) else Panic)) /\
    (zlen (concat (map fst (b_dyes b))) < 65536 -> color_EachDye f = if forallb nonempty (map fst (kept_dyes b)) then Ok (numbered 0 (map fst (kept_dyes b))) else Panic) /\
    (zlen (concat (map fst (b_palettes b))) < 65536 -> color_EachPalette f = if forallb nonempty (map fst (b_palettes b)) then Ok (numbered 0 (map fst (b_palettes b))) else Panic) /\
    (color_NumDyes f = Ok (zlen (kept_dyes b)) /\ color_NumPalettes f = Ok (zlen (b_palettes b)) /\
     color_NumDyeIndices f = Ok (zlen (concat (map snd (kept_dyes b)))) /\ color_NumPaletteIndices f = Ok (zlen (concat (map snd (b_palettes b)))) /\
     color_Count f = Ok (zlen (concat (map snd (kept_dyes b))) + zlen (concat (map snd (b_palettes b))))) /\
    color_GoColorPalette f =
      if forallb nonempty (map snd (kept_dyes b)) && forallb nonempty (map snd (b_palettes b))
      then Ok ((0, 0, 0, 0) :: map (fun a => (a, a, a, a)) (concat (map snd (kept_dyes b))) ++ concat (map snd (b_palettes b))) else Panic.
  Proof.
    destruct (kept_colors_stored id date ops o sort b' f HD HT HO HS HB) as (l & E & E1 & E2).
    pose proof (st_dyes l) as S1. pose proof (st_palettes l) as S2. rewrite <- E in S1, S2. rewrite E1 in S1. rewrite E2 in S2.
    assert (R : zlen (concat (map snd (kept_dyes b))) + zlen (concat (map snd (b_palettes b))) <= 255).
    { destruct (limits_history id date ops HT) as ((_ & C) & _). fold b in C. unfold color_count in C. unfold kept_dyes. destruct (b_dyes b) as [|d ds]; [|exact C].
      destruct (b_palettes b); [vm_compute; discriminate|exact C]. }
    fold b in S1, S2.
    split; [intros key Hk; split; [|split; [|split]]|split; [|split; [|split; [|]]]].
    - rewrite (any_dye_alpha f _ _ S1 R key Hk), zget_map. destruct (zget (kept_dyes b) key); reflexivity.
    - rewrite (any_num_alphas f _ _ S1 R key Hk), zget_map. destruct (zget (kept_dyes b) key); reflexivity.
    - rewrite (any_palette_color f _ _ S2 R key Hk), zget_map. unfold rgba. match goal with |- context [@zget ?T (b_palettes b) key] => destruct (@zget T (b_palettes b) key) end; reflexivity.
    - rewrite (any_num_colors f _ _ S2 R key Hk), zget_map. unfold rgba. match goal with |- context [@zget ?T (b_palettes b) key] => destruct (@zget T (b_palettes b) key) end; reflexivity.
    - intros N. apply (any_each_dye f _ _ S1 R). unfold kept_dyes. destruct (b_dyes b); [|exact N]. destruct (b_palettes b); vm_compute; reflexivity.
    - intros N. exact (any_each_palette f _ _ S2 R N).
    - split; [exact (any_num_dyes f _ S1)|]. split; [exact (any_num_palettes f _ S2)|]. split; [exact (any_dye_indices f _ _ S1 R)|]. split; [exact (any_palette_indices f _ _ S2 R)|].
      exact (any_count f _ _ S1 S2 R).
    - exact (any_go_palette f _ _ S1 S2 R).
  Qed.
  Lemma nonempty_list {A} (l : list (list A)) : (forallb nonempty l = true /\ ~ In [] l) \/ (forallb nonempty l = false /\ In [] l).
  Proof.
    induction l as [|x l IH]; [left; split; [reflexivity|intros []]|]. cbn [forallb]. destruct x as [|y x]; [right; split; [reflexivity|left; reflexivity]|]. cbn [nonempty andb].
    destruct IH as [[-> H]|[-> H]]; [left|right]; (split; [reflexivity|]); [intros [X|X]; [discriminate|exact (H X)]|right; exact H].
  Qed.
  Lemma kept_exact_colors :
    (forall key, 0 <= key ->
       color_EachDyeAlpha f key = (do d <- zget (kept_dyes b) key; match snd d with [] => Panic | l => Ok l end) /\
       color_NumDyeAlphas f key = (do d <- zget (kept_dyes b) key; match snd d with [] => Panic | l => Ok (zlen l) end) /\
       color_EachPaletteColor f key = (do p <- zget (b_palettes b) key; match snd p with [] => Panic | l => Ok l end) /\
       color_NumPaletteColors f key = (do p <- zget (b_palettes b) key; match snd p with [] => Panic | l => Ok (zlen l) end)) /\
    (zlen (concat (map fst (b_dyes b))) < 65536 -> (~ In [] (map fst (kept_dyes b)) /\ color_EachDye f = Ok (numbered 0 (map fst (kept_dyes b)))) \/
       (In [] (map fst (kept_dyes b)) /\ color_EachDye f = Panic)) /\
    (zlen (concat (map fst (b_palettes b))) < 65536 -> (~ In [] (map fst (b_palettes b)) /\ color_EachPalette f = Ok (numbered 0 (map fst (b_palettes b)))) \/
       (In [] (map fst (b_palettes b)) /\ color_EachPalette f = Panic)) /\
    (color_NumDyes f = Ok (zlen (kept_dyes b)) /\ color_NumPalettes f = Ok (zlen (b_palettes b)) /\
     color_NumDyeIndices f = Ok (zlen (concat (map snd (kept_dyes b)))) /\ color_NumPaletteIndices f = Ok (zlen (concat (map snd (b_palettes b)))) /\
     color_Count f = Ok (zlen (concat (map snd (kept_dyes b))) + zlen (concat (map snd (b_palettes b))))) /\
    ((~ In [] (map snd (kept_dyes b)) /\ ~ In [] (map snd (b_palettes b)) /\
      color_GoColorPalette f = Ok ((0, 0, 0, 0) :: map (fun a => (a, a, a, a)) (concat (map snd (kept_dyes b))) ++ concat (map snd (b_palettes b)))) \/
     ((In [] (map snd (kept_dyes b)) \/ In [] (map snd (b_palettes b))) /\ color_GoColorPalette f = Panic)).
  Proof.
    destruct kept_any_colors as (A1 & A2 & A3 & A4 & A5).
    assert (M : forall {A B} (x : outcome (A * list B)) (k : list B -> outcome (list B)), (do d <- x; if nonempty (snd d) then k (snd d) else Panic) = do d <- x; match snd d with [] => Panic | l => k l end).
    { intros A B [[n l]| | |] k; try reflexivity. cbn [bind snd]. destruct l; reflexivity. }
    assert (M' : forall {A B} (x : outcome (A * list B)), (do d <- x; if nonempty (snd d) then Ok (zlen (snd d)) else Panic) = do d <- x; match snd d with [] => Panic | l => Ok (zlen l) end).
    { intros A B [[n l]| | |]; try reflexivity. cbn [bind snd]. destruct l; reflexivity. }
    split; [intros key Hk; destruct (A1 key Hk) as (-> & -> & -> & ->); split; [apply (M _ _ _ Ok)|split; [apply M'|split; [apply (M _ _ _ Ok)|apply M']]]|].
    split; [intros N; rewrite (A2 N); destruct (nonempty_list (map fst (kept_dyes b))) as [[-> H]|[-> H]]; [left|right]; split; auto|].
    split; [intros N; rewrite (A3 N); destruct (nonempty_list (map fst (b_palettes b))) as [[-> H]|[-> H]]; [left|right]; split; auto|].
    split; [exact A4|]. rewrite A5. destruct (nonempty_list (map snd (kept_dyes b))) as [[-> H]|[-> H]]; [|right; split; [left; exact H|reflexivity]].
    destruct (nonempty_list (map snd (b_palettes b))) as [[-> H']|[-> H']]; [left; split; [exact H|split; [exact H'|reflexivity]]|right; split; [right; exact H'|reflexivity]].
  Qed.
End Kept.
