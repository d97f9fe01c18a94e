(** What each part of Build appends: glyph names and masks. *)
From Coq Require Import Permutation.
From Verif Require Import Base BaseFacts Spec_Helpers Model_Helpers Proofs_Helpers Spec_Names Model_Names Proofs_Names Model_Date
  Model_Mask Spec_Mask Proofs_Raster Proofs_Encoder3 Model_Font Model_Words Model_Parse Spec_Format Proofs_Format Spec_Layout Spec_LayoutFont
  Model_Builder Spec_Builder Proofs_Builder Proofs_Build.

(** ** Order of names *)
Lemma str_less_lex a : forall b, str_less a b = true <-> lex_lt a b.
Proof.
  induction a as [|x a IH]; intros [|y b]; cbn; try (split; [discriminate|tauto]); [tauto|].
  destruct (Z.ltb_spec x y); [split; [intros _; left; assumption|reflexivity]|].
  destruct (Z.ltb_spec y x); [split; [discriminate|intros [?|[? _]]; lia]|].
  rewrite IH. split; [right; split; [lia|assumption]|]. intros [?|[_ H']]; [lia|exact H'].
Qed.
Lemma lex_trans a : forall b c, lex_lt a b -> lex_lt b c -> lex_lt a c.
Proof.
  induction a as [|x a IH]; intros [|y b] [|z c]; cbn; try tauto. intros [H1|[H1 H1']] [H2|[H2 H2']]; [left; lia..|].
  right. split; [lia|]. eapply IH; eassumption.
Qed.
Lemma lex_total a : forall b, lex_lt a b \/ a = b \/ lex_lt b a.
Proof.
  induction a as [|x a IH]; intros [|y b]; cbn; try tauto.
  destruct (Z.lt_trichotomy x y) as [H|[->|H]]; [tauto| |tauto].
  destruct (IH b) as [H|[->|H]]; tauto.
Qed.
Definition lex_le (a b : list Z) : Prop := lex_lt a b \/ a = b.
Lemma lex_le_trans a b c : lex_le a b -> lex_le b c -> lex_le a c.
Proof. intros [H|<-] [H'|<-]; unfold lex_le; eauto using lex_trans. Qed.
Lemma str_leb_le a b : negb (str_less b a) = true -> lex_le a b.
Proof.
  intros H. destruct (lex_total a b) as [L|[->|L]]; [left; exact L|right; reflexivity|]. apply str_less_lex in L. rewrite L in H. discriminate.
Qed.
Lemma str_leb_ge a b : negb (str_less b a) = false -> lex_le b a.
Proof. destruct (str_less b a) eqn:E; [|discriminate]. intros _. left. apply str_less_lex. exact E. Qed.

Lemma append_names_ok names : forall prev data data', append_names names prev data = Ok data' ->
  data' = data ++ concat names /\ (forall x r, names = x :: r -> x <> prev) /\ (ordered lex_le names -> ordered lex_lt names).
Proof.
  induction names as [|x r IH]; intros prev data data'; cbn [append_names].
  { intros H. inversion H. cbn. rewrite app_nil_r. repeat split; auto. discriminate. }
  destruct (list_eqb x prev) eqn:E; [discriminate|]. intros H. apply IH in H. destruct H as (-> & H1 & H2).
  split; [cbn; rewrite <- app_assoc; reflexivity|]. split.
  { intros y r' Hy. inversion Hy. subst. intros ->. rewrite list_eqb_refl in E. discriminate. }
  intros [O1 O2]. split; [|auto]. intros y Hy. destruct r as [|z r]; [easy|]. specialize (H1 z r eq_refl).
  destruct (O1 z (or_introl eq_refl)) as [L| ->]; [|congruence]. destruct Hy as [<-|Hy]; [exact L|].
  destruct O2 as [O2 _]. destruct (O2 y Hy) as [L'| <-]; [|exact L]. eapply lex_trans; eassumption.
Qed.

(** ** Glyph names *)
Lemma named_glyphs_ok b order : forall acc named,
  ofold (fun named uid => do name <- glyph_name b uid; Ok (if zlen name =? 0 then named else named ++ [(name, uid)])) order acc = Ok named ->
  (forall name uid, In (name, uid) named <-> In (name, uid) acc \/ (name <> [] /\ In uid order /\
     exists gd, m_get Z.eqb (b_glyphs b) uid = Some gd /\ gd_Name gd = name)) /\
  zlen named <= zlen acc + zlen order.
Proof.
  induction order as [|u r IH]; intros acc named; cbn [ofold].
  { intros H. inversion H. subst. rewrite zlen_nil. split; [|lia]. intros. cbn. tauto. }
  intros H. apply bind_ok_inv in H. destruct H as (acc' & E & H). apply bind_ok_inv in E. destruct E as (nm & E1 & E2).
  unfold glyph_name in E1. destruct (m_get Z.eqb (b_glyphs b) u) as [gd|] eqn:G; [|discriminate]. injection E1 as <-. injection E2 as <-.
  apply IH in H. destruct H as [H HL]. rewrite zlen_cons. destruct (Z.eqb_spec (zlen (gd_Name gd)) 0) as [E|E].
  - apply zlen_0_nil in E. split; [|lia]. intros name uid. rewrite H. split.
    + intros [?|(N & HI & X)]; [tauto|]. right. split; [exact N|]. split; [right; exact HI|exact X].
    + intros [?|(N & [<-|HI] & X)]; [tauto| |tauto]. destruct X as (gd' & X1 & X2). congruence.
  - rewrite zlen_app, zlen_cons, zlen_nil in HL. split; [|lia]. intros name uid. rewrite H, in_app_iff. cbn [In]. split.
    + intros [[?|[X|[]]]|(N & HI & X)]; [tauto| |tauto]. inversion X. subst. right. split; [intros Z; rewrite Z in E; apply E; reflexivity|].
      split; [left; reflexivity|]. eauto.
    + intros [?|(N & [<-|HI] & X)]; [tauto| |tauto]. destruct X as (gd' & X1 & X2). left. right. left. congruence.
Qed.
Lemma append16_map {A} (f : A -> Z) l : forall data,
  fold_left (fun data x => AppendUint16LE data (f x)) l data = data ++ concat (map (fun x => le_digits 2 (f x)) l).
Proof.
  induction l as [|x r IH]; intros data; cbn; [rewrite app_nil_r; reflexivity|]. rewrite IH, append16_spec, <- app_assoc. reflexivity.
Qed.
Lemma append32_map {A} (f : A -> Z) l : forall data,
  fold_left (fun data x => AppendUint32LE data (f x)) l data = data ++ concat (map (fun x => le_digits 4 (f x)) l).
Proof.
  induction l as [|x r IH]; intros data; cbn; [rewrite app_nil_r; reflexivity|]. rewrite IH, append32_spec, <- app_assoc. reflexivity.
Qed.
Lemma build_glyph_names_ok b data data' :
  NoDup (b_order b) -> zlen (b_order b) <= 65535 -> NoDup (map fst (b_glyphs b)) -> (forall u, In u (map fst (b_glyphs b)) <-> In u (b_order b)) ->
  build_glyph_names b (index_lookup 0 (b_order b) []) data = Ok data' ->
  exists l, names_described b l /\ zlen l <= zlen (b_order b) /\ data' = data ++ glyph_names_bytes l.
Proof.
  intros ND L NG HO H. unfold build_glyph_names in H. apply bind_ok_inv in H. destruct H as (named & E & H).
  unfold named_glyphs in E. apply named_glyphs_ok in E. destruct E as [HN HL]. rewrite zlen_nil in HL.
  pose proof (zlen_nonneg named). cbv zeta in H.
  assert (U : u16 (zlen named) = zlen named) by (unfold u16; lia). rewrite U in H.
  set (sorted := go_sort (fun x y => negb (str_less (fst y) (fst x))) named) in *.
  set (idx := fun x : list Z * Z => match m_get Z.eqb (index_lookup 0 (b_order b) []) (snd x) with Some i => i | None => 0 end) in *.
  assert (P : Permutation sorted named) by apply go_sort_perm.
  assert (PI : forall x, In x sorted <-> In x named) by (intros x; split; apply Permutation_in; [exact P|symmetry; exact P]).
  assert (D : forall l, map fst l = map fst sorted -> ordered lex_lt (map fst l) ->
     l = map (fun x => (fst x, idx x)) sorted -> names_described b l).
  { intros l _ O EL. split; [exact O|]. intros name i. rewrite EL, in_map_iff. split.
    - intros ([nm uid] & E & HI). cbn in E. inversion E. subst nm. clear E. apply PI, HN in HI. destruct HI as [[]|(N & HI & gd & G & GN)].
      split; [exact N|]. exists uid, gd. split; [|split; [apply (m_get_in _ Z.eqb_eq); exact G|exact GN]].
      apply In_nth_error in HI. destruct HI as (n & HI).
      assert (X : indexed_as b uid (Z.of_nat n)) by (apply zget_some; split; [lia|rewrite Nat2Z.id; exact HI]).
      assert (Y := X). apply lookup_index in X; [|exact ND|lia]. unfold idx in *. cbn in *. rewrite X in *. subst i. exact Y.
    - intros (N & uid & gd & X & G & GN). exists (name, uid). split.
      + cbn. f_equal. unfold idx. cbn. apply lookup_index in X; [|exact ND|lia]. rewrite X. reflexivity.
      + apply PI, HN. right. split; [exact N|]. split; [apply zget_in in X; exact X|]. exists gd. split; [|exact GN].
        apply (m_get_unique _ Z.eqb_eq); assumption. }
  destruct (zlen named >? 0) eqn:G.
  - exists (map (fun x => (fst x, idx x)) sorted).
    assert (M : map fst (map (fun x : list Z * Z => (fst x, idx x)) sorted) = map fst sorted) by (rewrite map_map; apply map_ext; reflexivity).
    apply append_names_ok in H. destruct H as (-> & _ & H).
    split; [|split; [rewrite zlen_map; unfold zlen in *; rewrite (Permutation_length P); lia|]].
    + apply D; [exact M| |reflexivity]. rewrite M. apply H. apply ordered_map.
      apply go_sort_ordered; [intros a0 b0 c0; apply lex_le_trans|intros a0 b0; apply str_leb_le|intros a0 b0; apply str_leb_ge].
    + rewrite (ends24_0 (fun x : list Z * Z => fst x)). rewrite append16_map. unfold glyph_names_bytes, indexed.
      rewrite append16_spec, M, zlen_map. assert (Z1 : zlen sorted = zlen named) by (unfold zlen; rewrite (Permutation_length P); reflexivity).
      rewrite Z1, map_map, <- !app_assoc. cbn. reflexivity.
  - inversion H. subst data'. assert (N0 : named = []) by (apply zlen_0_nil; lia). exists []. split; [|split].
    + apply D; [unfold sorted; rewrite N0; reflexivity|exact I|unfold sorted; rewrite N0; reflexivity].
    + unfold zlen. cbn. lia.
    + rewrite append16_spec, N0. unfold glyph_names_bytes, indexed, offsets. cbn. reflexivity.
Qed.

(** ** Masks *)
Lemma build_mask_ok sort b uid pre done n data' e :
  (forall l, Permutation l (sort l)) ->
  (forall gd, In (uid, gd) (b_glyphs b) -> alpha_readable (gd_Mask gd) /\ bytes (Pix (gd_Mask gd)) /\ int_rect (Rect (gd_Mask gd))) ->
  build_mask sort b (zlen pre + 3 * (zlen done + Z.of_nat (S n))) (reserved pre (map (glyph_bytes (bm_vert (b_metrics b))) done) (S n), zlen pre + 3 * zlen done) uid = Ok (data', e) ->
  exists g, glyph_described b uid g /\
    data' = reserved pre (map (glyph_bytes (bm_vert (b_metrics b))) (done ++ [g])) n /\ e = zlen pre + 3 * zlen (done ++ [g]).
Proof.
  intros HS HM. unfold build_mask. destruct (m_get Z.eqb (b_glyphs b) uid) as [gd|] eqn:G; [|discriminate].
  apply (m_get_in _ Z.eqb_eq) in G. destruct (HM gd G) as (M1 & M2 & M3). cbv zeta. intros H.
  apply bind_ok_inv in H. destruct H as (d1 & E1 & H). apply bind_ok_inv in H. destruct H as (d2 & E2 & H). inversion H. subst d2 e. clear H.
  set (vert := bm_vert (b_metrics b)) in *. set (gp := gd_Placement gd) in *.
  set (pl := mkPl (gp_Advance gp) (gp_TopAdvance gp) (gp_BottomAdvance gp) (gp_HorzCenter gp)).
  set (D := reserved pre (map (glyph_bytes vert) done) (S n)) in *.
  assert (E0 : (if vert then D ++ [gp_Advance gp; gp_TopAdvance gp; gp_BottomAdvance gp; gp_HorzCenter gp] else D ++ [gp_Advance gp])
    = D ++ placement_bytes vert pl) by (destruct vert; reflexivity).
  rewrite E0 in E1. apply encode_roundtrip_wf in E1; try assumption. destruct E1 as (ops & W & -> & DR).
  exists (pl, enc_ops ops). assert (GB : glyph_bytes vert (pl, enc_ops ops) = placement_bytes vert pl ++ enc_ops ops) by reflexivity.
  split; [exists gd; split; [exact G|split; [reflexivity|exact (conj (enc_ops_bytes _ W) DR)]]|].
  rewrite <- app_assoc, <- GB in E2.
  replace (zlen pre + 3 * zlen done) with (zlen pre + 3 * zlen (map (glyph_bytes vert) done)) in E2 by (rewrite zlen_map; reflexivity).
  unfold D in E2. rewrite patch_next in E2.
  - inversion E2. split; [rewrite map_app; reflexivity|]. rewrite zlen_app, zlen_cons, zlen_nil. lia.
  - rewrite digits3_u32. f_equal. unfold reserved. rewrite concat_app. cbn [concat]. rewrite app_nil_r, !zlen_app, zlen_offsets, zlen_repeat, zlen_map.
    lia.
Qed.
Lemma build_masks_loop sort b pre base : forall uids done prev data e,
  (forall l, Permutation l (sort l)) ->
  (forall uid gd, In (uid, gd) (b_glyphs b) -> alpha_readable (gd_Mask gd) /\ bytes (Pix (gd_Mask gd)) /\ int_rect (Rect (gd_Mask gd))) ->
  base = zlen pre + 3 * (zlen done + zlen uids) -> Forall2 (glyph_described b) prev done ->
  ofold (build_mask sort b base) uids (reserved pre (map (glyph_bytes (bm_vert (b_metrics b))) done) (length uids), zlen pre + 3 * zlen done) = Ok (data, e) ->
  exists gs, Forall2 (glyph_described b) (prev ++ uids) gs /\
    data = reserved pre (map (glyph_bytes (bm_vert (b_metrics b))) gs) 0.
Proof.
  induction uids as [|u r IH]; intros done prev data e HS HM HB HD; cbn [ofold length].
  { intros H. inversion H. exists done. rewrite app_nil_r. auto. }
  intros H. apply bind_ok_inv in H. destruct H as ([d1 e1] & E & H).
  assert (HB' : base = zlen pre + 3 * (zlen done + Z.of_nat (S (length r)))) by (rewrite zlen_cons in HB; unfold zlen in *; lia).
  rewrite HB' in E. apply build_mask_ok in E; [|exact HS|intros gd; apply HM].
  destruct E as (g & Hg & -> & ->).
  eapply (IH (done ++ [g]) (prev ++ [u])) in H; try assumption.
  - rewrite <- app_assoc in H. exact H.
  - rewrite HB', zlen_app, zlen_cons, zlen_nil. unfold zlen. lia.
  - apply Forall2_app; [exact HD|]. constructor; [exact Hg|constructor].
Qed.
Lemma build_masks_ok sort b data data' :
  (forall l, Permutation l (sort l)) ->
  (forall uid gd, In (uid, gd) (b_glyphs b) -> alpha_readable (gd_Mask gd) /\ bytes (Pix (gd_Mask gd)) /\ int_rect (Rect (gd_Mask gd))) ->
  zlen (b_glyphs b) = zlen (b_order b) -> zlen (b_order b) <= 65535 ->
  build_masks sort b data = Ok data' ->
  exists gs, Forall2 (glyph_described b) (b_order b) gs /\ data' = data ++ glyph_masks_bytes (bm_vert (b_metrics b)) gs.
Proof.
  intros HS HM HG HL H. unfold build_masks in H. cbv zeta in H. apply bind_ok_inv in H. destruct H as ([d e] & E & H).
  inversion H. subst d. clear H. rewrite HG in E. pose proof (zlen_nonneg (b_order b)).
  replace (Z.to_nat (u16 (zlen (b_order b)) * 3)) with (3 * length (b_order b))%nat in E by (unfold u16, zlen in *; lia).
  assert (R : data ++ repeat 0 (3 * length (b_order b)) = reserved data (map (glyph_bytes (bm_vert (b_metrics b))) []) (length (b_order b))).
  { unfold reserved. cbn [map concat offsets end_offsets app]. rewrite app_nil_r. reflexivity. }
  rewrite R in E. replace (zlen data) with (zlen data + 3 * zlen (@nil (placement * list Z))) in E by (rewrite zlen_nil; lia).
  apply (build_masks_loop sort b data _ (b_order b) [] [] data' e HS HM) in E; [|rewrite <- R, zlen_app, zlen_repeat, zlen_nil; unfold zlen; lia|constructor].
  destruct E as (gs & HF & ->). exists gs. split; [exact HF|]. reflexivity.
Qed.
