(** Theorems C57 (enumerating the colors of a builder). The functions return the calls of the
    callback and the outcome. *)
From Verif Require Import Base BaseFacts Spec_Helpers Model_Helpers Model_Date Spec_Names Spec_Mask Model_Mask Model_Font Model_Words
  Model_Parse Model_Builder Spec_Builder Sample_Builder Proofs_Builder Properties_Builder Proofs_Colors Proofs_Palettes.

(** ** C57

    Full statement: for every section of a builder the callback is called with its values in
    their order, each with its color index (specification.md:153: 0 is transparent, then come
    the dyes and then the palettes), and the call succeeds; for an unknown name it fails without
    calling back. *)
Definition color_values (b : builder) : list rgba :=
  (0, 0, 0, 0) :: map (fun a => (a, a, a, a)) (concat (map snd (b_dyes b))) ++ concat (map snd (b_palettes b)).

(** False: it never succeeds, *)
Theorem C57_success_refuted : forall b name, snd (EachDyeAlpha b name) <> Ok tt /\ snd (EachPaletteColor b name) <> Ok tt.
Proof.
  intros b name. split; [apply dyes_fail|]. unfold EachPaletteColor. destruct (_ <? 0); [discriminate|]. apply palettes_fail.
Qed.
Print Assumptions C57_success_refuted.
(** the indices are counted from the wrong end, *)
Theorem C57_index_refuted : exists b name alpha i, (exists ops, Forall op_typed ops /\ b = history 1 sample_date ops) /\
  b_dyes b = [(name, [alpha])] /\ fst (EachDyeAlpha b name) = [(alpha, i)] /\ is_ok (zget (color_values b) i) = false.
Proof.
  exists (history 1 sample_date [OAddDye [109] [200]]), [109], 200, 255. split; [exists [OAddDye [109] [200]]; split; [|reflexivity]|].
  - constructor; [|constructor]. cbn. unfold bytes, byte. split; constructor; try lia; constructor.
  - split; [vm_compute; reflexivity|]. split; vm_compute; reflexivity.
Qed.
Print Assumptions C57_index_refuted.
(** looking for a palette after the first panics if there are no dyes, *)
Theorem C57_palette_refuted : exists ops name, Forall op_typed ops /\
  let b := history 1 sample_date ops in In name (map fst (b_palettes b)) /\ snd (EachPaletteColor b name) = Panic.
Proof.
  exists [OAddPalette [109] [(1, 2, 3, 4)]; OAddPalette [110] [(5, 6, 7, 8)]], [110]. split.
  - repeat (constructor; [cbn; unfold bytes, byte; split; repeat (constructor; [lia|]); repeat constructor; lia|]). constructor.
  - cbv zeta. split; [right; left; reflexivity|vm_compute; reflexivity].
Qed.
Print Assumptions C57_palette_refuted.
(** and with dyes it skips the size of a dye instead of that of a palette: two colors get the
    same index. *)
Theorem C57_palette_index_refuted : exists ops name1 name2 c1 c2 i, Forall op_typed ops /\
  let b := history 1 sample_date ops in name1 <> name2 /\
  fst (EachPaletteColor b name1) = [(c1, i + 1); (c1, i)] /\ fst (EachPaletteColor b name2) = [(c2, i)].
Proof.
  exists [OAddDye [108] [255]; OAddPalette [109] [(1, 2, 3, 4); (1, 2, 3, 4)]; OAddPalette [110] [(5, 6, 7, 8)]], [109], [110], (1, 2, 3, 4), (5, 6, 7, 8), 253. split.
  - repeat (constructor; [cbn; unfold bytes, byte; split; repeat (constructor; [lia|]); repeat constructor; lia|]). constructor.
  - cbv zeta. split; [discriminate|]. split; vm_compute; reflexivity.
Qed.
Print Assumptions C57_palette_index_refuted.

(** True for every history: the calls for a dye have its values in order, and the numbers are
    256 less the right index. *)
Theorem C57_dyes_partial : forall id date ops pre name alphas post, Forall op_typed ops ->
  let b := history id date ops in b_dyes b = pre ++ (name, alphas) :: post ->
  let calls := fst (EachDyeAlpha b name) in
  map fst calls = alphas /\
  forall i a n, zget calls i = Ok (a, n) -> zget (color_values b) (256 - n) = Ok (a, a, a, a) /\ 256 - n = 1 + zlen (concat (map snd pre)) + i.
Proof.
  intros id date ops pre name alphas post Ht b E calls. unfold calls. rewrite (dye_calls b (proj1 (limits_history id date ops Ht)) pre name alphas post E). split; [apply down_values|].
  intros i a n G. pose proof (zget_ok_range _ _ _ G) as R. rewrite <- (zlen_map fst), down_values in R.
  destruct (zget_in_range alphas i R) as (x & Gx). pose proof (down_numbers _ (255 - zlen (concat (map snd pre))) _ _ Gx) as G2. rewrite G2 in G. injection G as -> <-.
  pose proof (zlen_nonneg (concat (map snd pre))). pose proof (zlen_nonneg (concat (map snd post))).
  split; [|lia]. unfold color_values. rewrite E, map_app, concat_app. cbn [map concat snd]. rewrite zget_cons_S by lia. rewrite !map_app, <- !app_assoc.
  rewrite zget_app_r by (rewrite zlen_map; lia). rewrite zlen_map. rewrite zget_app_l by (rewrite zlen_map; lia). rewrite zget_map. 
  replace (256 - (255 - zlen (concat (map snd pre)) - i) - 1 - zlen (concat (map snd pre))) with i by lia. rewrite Gx. reflexivity.
Qed.
Print Assumptions C57_dyes_partial.
(** So do those for the first palette. *)
Theorem C57_first_palette_partial : forall id date ops name colors post, Forall op_typed ops ->
  let b := history id date ops in b_palettes b = (name, colors) :: post ->
  let calls := fst (EachPaletteColor b name) in
  map fst calls = colors /\ forall i c n, zget calls i = Ok (c, n) -> zget (color_values b) (256 - n) = Ok c.
Proof.
  intros id date ops name colors post Ht b E calls. unfold calls. rewrite (palette_calls b (proj1 (limits_history id date ops Ht)) name colors post E). split; [apply down_values|].
  intros i a n G. pose proof (zget_ok_range _ _ _ G) as R. rewrite <- (zlen_map fst), down_values in R.
  destruct (zget_in_range colors i R) as (x & Gx). pose proof (down_numbers _ (255 - zlen (concat (map snd (b_dyes b)))) _ _ Gx) as G2. rewrite G2 in G. injection G as -> <-.
  pose proof (zlen_nonneg (concat (map snd (b_dyes b)))).
  unfold color_values. rewrite E. cbn [map concat snd]. rewrite zget_cons_S by lia.
  rewrite zget_app_r by (rewrite zlen_map; lia). rewrite zlen_map.
  replace (256 - (255 - zlen (concat (map snd (b_dyes b))) - i) - 1 - zlen (concat (map snd (b_dyes b)))) with i by lia. rewrite zget_app_l by lia. exact Gx.
Qed.
Print Assumptions C57_first_palette_partial.
(** For any palette, exactly: the number of a color is 256 less than it should be, but for the
    palettes before, instead of which as many dyes are counted. There are no calls if there are
    less dyes than that, or if one of the palettes seems not to fit. *)
Definition counted (b : builder) (j : nat) : Z := zlen (concat (map snd (b_dyes b))) + zlen (concat (map snd (firstn j (b_dyes b)))).
Theorem C57_palettes_partial : forall id date ops pre name colors post, Forall op_typed ops ->
  let b := history id date ops in b_palettes b = pre ++ (name, colors) :: post ->
  let calls := fst (EachPaletteColor b name) in
  let fit := forall j p, nth_error (pre ++ [(name, colors)]) j = Some p -> counted b j + zlen (snd p) <= 255 in
  ((length pre <= length (b_dyes b))%nat -> fit -> map fst calls = colors /\
     forall i c n, zget calls i = Ok (c, n) -> zget colors i = Ok c /\ 256 - n = 1 + counted b (length pre) + i) /\
  ((length (b_dyes b) < length pre)%nat -> calls = [] /\
     ((forall j p, (j <= length (b_dyes b))%nat -> nth_error pre j = Some p -> counted b j + zlen (snd p) <= 255) -> snd (EachPaletteColor b name) = Panic)) /\
  (forall j p, nth_error (pre ++ [(name, colors)]) j = Some p -> 255 < counted b j + zlen (snd p) -> calls = []).
Proof.
  intros id date ops pre name colors post Ht b E calls fit. unfold calls, fit. clear calls fit. pose proof (proj1 (limits_history id date ops Ht)) as CO. fold b in CO.
  destruct (palette_names b pre name colors post CO E) as [N1 N2]. rewrite (palette_start b CO name), E. unfold counted.
  set (c := 255 - zlen (concat (map snd (b_dyes b)))). pose proof (zlen_nonneg (concat (map snd (b_dyes b)))) as NN.
  assert (R : forall j, room_at (b_dyes b) c 0 j = 255 - zlen (concat (map snd (b_dyes b))) - zlen (concat (map snd (firstn j (b_dyes b))))) by (intros j; unfold room_at, c; reflexivity).
  split; [|split].
  - intros Hl Hf. rewrite (palette_found name (b_dyes b) colors post N2 pre 0 c [] N1 ltac:(unfold c; lia) ltac:(lia)); [|intros j p Hj; specialize (Hf j p Hj); rewrite R; lia].
    cbn [app]. split; [apply down_values|]. intros i x n G. pose proof (zget_ok_range _ _ _ G) as RG. rewrite <- (zlen_map fst), down_values in RG.
    destruct (zget_in_range colors i RG) as (y & Gy). pose proof (down_numbers _ (room_at (b_dyes b) c 0 (length pre)) _ _ Gy) as G2. rewrite G2 in G. injection G as -> <-. split; [exact Gy|]. rewrite R. lia.
  - intros Hl. split; [apply palette_beyond; [exact N1|lia]|]. intros Hf. rewrite palette_panics; [reflexivity|exact N1|lia|]. intros j p Hj Hp. specialize (Hf j p ltac:(lia) Hp). rewrite R. lia.
  - intros j p Hj Hp. apply (palette_crowded name (b_dyes b) colors post pre 0 c [] j p N1 Hj). rewrite R. lia.
Qed.
Print Assumptions C57_palettes_partial.
(** The second palette gets the numbers behind a dye of two colors instead of a palette of one. *)
Definition palettes_ops : list bop := [OAddDye [108] [255; 100]; OAddDye [110] [50]; OAddPalette [111] [(1, 2, 3, 4)]; OAddPalette [112] [(5, 6, 7, 8); (9, 10, 11, 12)]].
Example C57_palettes_example : Forall op_typed palettes_ops /\
  let b := history 1 sample_date palettes_ops in b_palettes b = [([111], [(1, 2, 3, 4)])] ++ ([112], [(5, 6, 7, 8); (9, 10, 11, 12)]) :: [] /\
  zlen (b_dyes b) = 2 /\ map (counted b) [0%nat; 1%nat] = [3; 5] /\ fst (EachPaletteColor b [112]) = [((5, 6, 7, 8), 250); ((9, 10, 11, 12), 249)].
Proof.
  split; [repeat (constructor; [cbn; unfold bytes, byte; split; repeat (constructor; [lia|]); repeat constructor; lia|]); constructor|]. cbv zeta. repeat (split; [vm_compute; reflexivity|]). vm_compute. reflexivity.
Qed.
(** Unknown names give no calls; for dyes that is an error. *)
Theorem C57_unknown : forall id date ops name, Forall op_typed ops -> let b := history id date ops in
  (~ In name (map fst (b_dyes b)) -> exists m, EachDyeAlpha b name = ([], Err m)) /\
  (~ In name (map fst (b_palettes b)) -> fst (EachPaletteColor b name) = []).
Proof.
  intros id date ops name Ht b. split; [apply dye_unknown; exact (proj1 (limits_history id date ops Ht))|apply palette_unknown].
Qed.
Print Assumptions C57_unknown.
Example C57_example : Forall op_typed sample_ops /\ map fst (b_dyes sample_builder) = [str_bytes "main"] /\
  fst (EachDyeAlpha sample_builder (str_bytes "main")) = [(255, 255); (128, 254)] /\
  fst (EachPaletteColor sample_builder (str_bytes "extra")) = [((1, 2, 3, 255), 253)].
Proof. split; [exact sample_typed|]. split; [vm_compute; reflexivity|]. split; vm_compute; reflexivity. Qed.
