(** What each part of Build appends: the mapping. *)
From Coq Require Import Permutation.
From Verif Require Import Base BaseFacts Spec_Helpers Model_Helpers Proofs_Helpers Spec_Names Model_Names Proofs_Names Model_Date
  Model_Mask Spec_Mask Model_Font Model_Words Model_Parse Spec_Format Proofs_Format Spec_Layout Spec_LayoutFont
  Model_Builder Spec_Builder Proofs_Builder Proofs_Build Proofs_Build2 Proofs_Build3.

Lemma omap_ok {A B} (f : A -> outcome B) l : forall r, omap f l = Ok r -> Forall2 (fun x y => f x = Ok y) l r.
Proof.
  induction l as [|x t IH]; intros r; cbn [omap]; [intros H; inversion H; constructor|].
  intros H. apply bind_ok_inv in H. destruct H as (y & E & H). apply bind_ok_inv in H. destruct H as (ys & E' & H). inversion H.
  constructor; [exact E|]. apply IH. exact E'.
Qed.
Lemma Forall2_impl {A B} (R R' : A -> B -> Prop) l l' : (forall x y, R x y -> R' x y) -> Forall2 R l l' -> Forall2 R' l l'.
Proof. intros H. induction 1; constructor; auto. Qed.
Lemma Forall2_in_r {A B} (R : A -> B -> Prop) l l' y : Forall2 R l l' -> In y l' -> exists x, In x l /\ R x y.
Proof.
  induction 1 as [|x z l l' H _ IH]; [intros []|]. intros [->|I1]; [exists x; cbn; auto|].
  destruct (IH I1) as (x' & I2 & R2). exists x'. cbn. auto.
Qed.
Lemma append_digits2 l data : fold_left AppendUint16LE l data = data ++ concat (map (le_digits 2) l).
Proof. exact (append16_map (fun x => x) l data). Qed.
Lemma append_digits4 l data : fold_left AppendUint32LE l data = data ++ concat (map (le_digits 4) l).
Proof. exact (append32_map (fun x => x) l data). Qed.
Lemma continuous_range l : forall x, Forall (fun i => 0 <= i < 65535) (x :: l) -> isContinuous x l = true ->
  x :: l = map (fun i => x + i) (zseq (1 + zlen l)).
Proof.
  assert (G : forall k x l, Forall (fun i => 0 <= i < 65535) (x :: l) -> isContinuous x l = true ->
    x :: l = map (fun i => x - Z.of_nat k + Z.of_nat i) (seq k (S (length l)))).
  { intros k x0 l0. revert k x0. induction l0 as [|y r IH]; intros k x0 F H; cbn [seq map length]; [f_equal; lia|].
    f_equal; [lia|]. cbn [isContinuous] in H. pose proof (Forall_inv F) as F1. cbn in F1. apply Forall_inv_tail in F. pose proof (Forall_inv F) as F2. cbn in F2.
    destruct (Z.eqb_spec y (u16 (x0 + 1))) as [E|]; [|discriminate]. assert (E' : y = x0 + 1) by (unfold u16 in E; lia).
    rewrite (IH (S k) y F H). cbn [length seq map]. f_equal; [lia|]. apply map_ext. intros i. lia. }
  intros x F H. rewrite (G 0%nat x l F H). unfold zseq. rewrite map_map. replace (Z.to_nat (1 + zlen l)) with (S (length l)) by (unfold zlen; lia).
  apply map_ext. intros i. lia.
Qed.

Lemma range_continuous x n : Forall (fun i => 0 <= i < 65535) (map (fun i => x + i) (zseq n)) ->
  isContinuousSlice (map (fun i => x + i) (zseq n)) = true.
Proof.
  unfold zseq. rewrite map_map. generalize (Z.to_nat n) as k. intros k. destruct k as [|k]; [reflexivity|].
  cbn [seq map isContinuousSlice]. generalize 0%nat as a. revert x. induction k as [|k IH]; intros x a F; [reflexivity|].
  cbn [seq map isContinuous]. pose proof (Forall_inv F) as F1. cbn in F1. apply Forall_inv_tail in F. pose proof (Forall_inv F) as F2. cbn [seq map] in F2. cbn beta in F2.
  replace (u16 (x + Z.of_nat a + 1)) with (x + Z.of_nat (S a)) by (unfold u16; lia). rewrite Z.eqb_refl. apply IH. exact F.
Qed.
Section Mapping.
  Variable b : builder.
  Let lookup := index_lookup 0 (b_order b) [].
  Hypothesis ND : NoDup (b_order b).
  Hypothesis HL : zlen (b_order b) <= 65535.
  Lemma look_ok uid i : look lookup uid = Ok i <-> indexed_as b uid i.
  Proof.
    unfold look, lookup. rewrite <- lookup_index by (assumption || lia).
    destruct (m_get Z.eqb _ uid); split; intros H; inversion H; reflexivity.
  Qed.
  Lemma indexed_range uid i : indexed_as b uid i -> 0 <= i < zlen (b_order b).
  Proof. intros H. apply zget_ok_range in H. exact H. Qed.

  Lemma group_ok g data data' : group_AppendTo lookup g data = Ok data' ->
    exists gr, group_described b g gr /\ data' = data ++ group_bytes gr.
  Proof.
    unfold group_AppendTo. cbv zeta. pose proof (zlen_nonneg (mg_Glyphs g)) as HN.
    destruct ((zlen (mg_Glyphs g) =? 0) || (zlen (mg_Glyphs g) >? 128)) eqn:G; [discriminate|].
    apply orb_false_iff in G. destruct G as [G1 G2]. destruct (Z.eqb_spec (zlen (mg_Glyphs g)) 1) as [E1|N1].
    - intros H. apply bind_ok_inv in H. destruct H as (uid & E & H). apply bind_ok_inv in H. destruct H as (i & Ei & H). inversion H.
      apply look_ok in Ei. destruct (mg_Glyphs g) as [|u [|u2 r]] eqn:M; [discriminate| |rewrite !zlen_cons in E1; pose proof (zlen_nonneg r); lia].
      cbn in E. inversion E. subst u. exists (GList 0 [i]). split.
      + unfold group_described. rewrite M. split; [lia|]. cbn. split; [split; [easy|exact I]|]. split; [exists [i]; split; [constructor; [exact Ei|constructor]|reflexivity]|].
        split; [intros X; exfalso; apply X; reflexivity|]. intros x X. rewrite zlen_cons, zlen_nil in X. lia.
      + rewrite append16_spec. unfold group_bytes. cbn. rewrite <- app_assoc. reflexivity.
    - intros H. apply bind_ok_inv in H. destruct H as (idxs & E & H). apply omap_ok in E.
      apply (Forall2_impl _ (indexed_as b)) in E; [|intros x y X; apply look_ok; exact X].
      set (sorted := go_sort Z.leb idxs) in *. assert (P : Permutation sorted idxs) by apply go_sort_perm.
      assert (LS : zlen sorted = zlen (mg_Glyphs g)).
      { unfold zlen. rewrite (Permutation_length P), (Forall2_len _ _ _ E). reflexivity. }
      assert (O : ordered Z.le sorted) by (apply go_sort_ordered; [intros; lia|intros a c X; apply Z.leb_le; exact X|intros a c X; apply Z.leb_gt in X; lia]).
      assert (F : Forall (fun i => 0 <= i < 65535) sorted).
      { apply Forall_forall. intros i Hi. apply (Permutation_in _ P) in Hi. apply (Forall2_in_r _ _ _ _ E) in Hi. destruct Hi as (u & _ & Hu).
        apply indexed_range in Hu. lia. }
      destruct (isContinuousSlice sorted) eqn:CS.
      + apply bind_ok_inv in H. destruct H as (first & Ef & H). inversion H. clear H. destruct sorted as [|x r] eqn:S1; [discriminate|].
        cbn in Ef. inversion Ef. subst x. cbn [isContinuousSlice] in CS. apply continuous_range in CS; [|exact F].
        rewrite zlen_cons in LS. rewrite LS in CS.
        exists (GRange (mg_Flags g) first (zlen (mg_Glyphs g))). assert (GG : group_glyphs (GRange (mg_Flags g) first (zlen (mg_Glyphs g))) = first :: r) by (rewrite CS; reflexivity).
        assert (GL : zlen (group_glyphs (GRange (mg_Flags g) first (zlen (mg_Glyphs g)))) = zlen (mg_Glyphs g)) by (rewrite GG, zlen_cons; exact LS).
        split.
        * unfold group_described. rewrite GG. split; [lia|]. split; [exact O|]. split; [exists idxs; split; [exact E|exact P]|].
          split; [intros _; unfold group_flags; rewrite GL; destruct (Z.eqb_spec (zlen (mg_Glyphs g)) 1); [contradiction|reflexivity]|].
          intros x X Y. rewrite CS in Y. f_equal. unfold zseq in Y. destruct (Z.to_nat (zlen (mg_Glyphs g))) eqn:TN; [lia|]. cbn in Y. inversion Y. lia.
        * rewrite append16_spec. unfold group_bytes. unfold group_flags. rewrite GL. destruct (Z.eqb_spec (zlen (mg_Glyphs g)) 1); [contradiction|].
          assert (LO : Z.lor 128 (u8 (zlen (mg_Glyphs g) - 1)) = 128 + (zlen (mg_Glyphs g) - 1)).
          { rewrite u8_id by (unfold byte; lia). rewrite Z.lor_comm. change 128 with (1 * 2 ^ 7) at 1. rewrite lor_add_mul; [lia|lia|]. change (2 ^ 7) with 128. lia. }
          rewrite LO, <- !app_assoc. reflexivity.
      + inversion H. clear H. exists (GList (mg_Flags g) sorted). split.
        * unfold group_described. cbn [group_glyphs]. split; [lia|]. split; [exact O|]. split; [exists idxs; split; [exact E|exact P]|].
          split; [intros _; unfold group_flags; cbn [group_glyphs]; rewrite LS; destruct (Z.eqb_spec (zlen (mg_Glyphs g)) 1); [contradiction|reflexivity]|].
          intros x X Y. exfalso. rewrite Y in CS, F. rewrite range_continuous in CS; [discriminate|exact F].
        * rewrite append_digits2. unfold group_bytes, group_flags. cbn [group_glyphs]. rewrite LS. destruct (Z.eqb_spec (zlen (mg_Glyphs g)) 1); [contradiction|].
          rewrite u8_id by (unfold byte; lia). rewrite Z.add_0_l, <- !app_assoc. reflexivity.
  Qed.
  Lemma one_element {A} (l : list A) : zlen l = 1 -> exists x, l = [x].
  Proof. destruct l as [|x [|y r]]; [discriminate|eauto|]. rewrite !zlen_cons. pose proof (zlen_nonneg r). lia. Qed.
  Lemma entry_ok e data data' : entry_AppendTo lookup e data = Ok data' ->
    exists en, entry_described b e en /\ data' = data ++ entry_bytes en.
  Proof.
    unfold entry_AppendTo. cbv zeta. destruct (Z.eqb_spec (me_Switch e) 255) as [E5|N5].
    - destruct (Z.eqb_spec (zlen (me_Cases e)) 1) as [C1|]; [|discriminate]. apply one_element in C1. destruct C1 as (g & Cg). rewrite Cg. cbn [negb].
      intros H. apply bind_ok_inv in H. destruct H as (g' & Eg & H). cbn in Eg. inversion Eg. subst g'. clear Eg.
      destruct (Z.eqb_spec (zlen (mg_Glyphs g)) 1) as [G1|]; [|discriminate]. apply one_element in G1. destruct G1 as (uid & Gu). rewrite Gu in H. cbn [negb] in H.
      apply bind_ok_inv in H. destruct H as (u & Eu & H). cbn in Eu. inversion Eu. subst u. clear Eu.
      apply bind_ok_inv in H. destruct H as (i & Ei & H). inversion H. apply look_ok in Ei. exists (EGlyph i). split.
      + split; [exact E5|]. exists uid, (mg_Flags g). split; [|exact Ei]. rewrite Cg. f_equal. destruct g; cbn in *; congruence.
      + rewrite append16_spec, E5, <- app_assoc. reflexivity.
    - destruct (Z.eqb_spec (me_Switch e) 254) as [E4|N4].
      + destruct (Z.eqb_spec (zlen (me_Cases e)) 1) as [C1|]; [|discriminate]. apply one_element in C1. destruct C1 as (g & Cg). rewrite Cg. cbn [negb].
        intros H. apply bind_ok_inv in H. destruct H as (g' & Eg & H). cbn in Eg. inversion Eg. subst g'. clear Eg.
        destruct (Z.leb_spec (zlen (mg_Glyphs g)) 1); [discriminate|]. apply group_ok in H. destruct H as (gr & G1 & ->).
        exists (EGroup gr). split.
        * split; [exact E4|]. exists g. auto.
        * rewrite E4, <- app_assoc. reflexivity.
      + intros H.
        assert (G : forall cases data data', ofold (fun data g => do data <- group_AppendTo lookup g data;
            if zlen data >? MaxFontDataSize then Err "font data exceeds maximum size" else Ok data) cases data = Ok data' ->
          exists grs, Forall2 (group_described b) cases grs /\ data' = data ++ concat (map group_bytes grs)).
        { clear H. intros cases. induction cases as [|c r IH]; intros da da'; cbn [ofold].
          { intros H. inversion H. exists []. cbn. rewrite app_nil_r. auto. }
          intros H. apply bind_ok_inv in H. destruct H as (d1 & E & H). apply bind_ok_inv in E. destruct E as (d2 & E & E').
          destruct (zlen d2 >? MaxFontDataSize); [discriminate|]. inversion E'. subst d2.
          apply group_ok in E. destruct E as (gr & G1 & ->). apply IH in H. destruct H as (grs & G2 & ->).
          exists (gr :: grs). split; [constructor; assumption|]. cbn. rewrite <- app_assoc. reflexivity. }
        apply G in H. destruct H as (grs & H1 & ->). exists (ESwitch (me_Switch e) grs). split; [repeat split; assumption|].
        rewrite <- app_assoc. reflexivity.
  Qed.

  Hypothesis MK : NoDup (map fst (b_mapping b)).
  Hypothesis MR : forall cp e, In (cp, e) (b_mapping b) -> 0 <= cp < 2 ^ 31.
  (* an entry of the builder, and that its number of groups fits its switch *)
  Definition mapped (x : Z * mappingEntry) (y : Z * entry) : Prop :=
    In x (b_mapping b) /\ fst x = fst y /\ entry_described b (snd x) (snd y) /\
    computeNumSwitchCases b (me_Switch (snd x)) = Ok (zlen (me_Cases (snd x))).
  Lemma mapping_entry_ok pre (done : list (Z * entry)) n cp data' o' e' :
    In cp (map fst (b_mapping b)) ->
    build_mapping_entry b lookup (reserved pre (map (fun x => entry_bytes (snd x)) done) (S n), zlen (concat (map (fun x => entry_bytes (snd x)) done)),
      zlen pre + 3 * zlen done) cp = Ok (data', o', e') ->
    exists x y, fst x = cp /\ mapped x y /\
      data' = reserved pre (map (fun x => entry_bytes (snd x)) (done ++ [y])) n /\
      o' = zlen (concat (map (fun x => entry_bytes (snd x)) (done ++ [y]))) /\ e' = zlen pre + 3 * zlen (done ++ [y]).
  Proof.
    intros HI. apply in_map_iff in HI. destruct HI as ([cp' e] & <- & HI). cbn [fst].
    pose proof (MR _ _ HI) as R. unfold build_mapping_entry.
    assert (I32 : i32 cp' = cp'). { unfold i32, u32. rewrite Z.mod_small by lia. destruct (Z.ltb_spec cp' 2147483648); lia. }
    rewrite I32.
    rewrite (m_get_unique _ Z.eqb_eq (b_mapping b) cp' e MK HI).
    intros H. apply bind_ok_inv in H. destruct H as (k & Ek & H). destruct (Z.eqb_spec k (zlen (me_Cases e))) as [->|]; [|discriminate]. cbn [negb] in H. cbv zeta in H.
    apply bind_ok_inv in H. destruct H as (d1 & E1 & H). apply entry_ok in E1. destruct E1 as (en & D & ->).
    apply bind_ok_inv in H. destruct H as (d2 & E2 & H). inversion H. clear H. subst data' o' e'.
    exists (cp', e), (cp', en). split; [reflexivity|]. split; [repeat split; assumption|].
    rewrite map_app. cbn [map snd]. rewrite concat_app. cbn [concat]. rewrite app_nil_r, !zlen_app.
    rewrite <- (zlen_map (fun x : Z * entry => entry_bytes (snd x)) done) in E2.
    rewrite patch_next in E2; [|rewrite digits3_u32, concat_app, !zlen_app; cbn [concat]; rewrite app_nil_r; f_equal; lia].
    inversion E2. split; [reflexivity|]. rewrite zlen_cons, zlen_nil. split; lia.
  Qed.
  Lemma mapping_loop pre : forall cps done prev data o' e', Forall2 mapped prev done -> incl cps (map fst (b_mapping b)) ->
    ofold (build_mapping_entry b lookup) cps (reserved pre (map (fun x => entry_bytes (snd x)) done) (length cps),
      zlen (concat (map (fun x => entry_bytes (snd x)) done)), zlen pre + 3 * zlen done) = Ok (data, o', e') ->
    exists m l, map fst m = map fst prev ++ cps /\ Forall2 mapped m l /\ data = reserved pre (map (fun x => entry_bytes (snd x)) l) 0.
  Proof.
    induction cps as [|cp r IH]; intros done prev data o' e' HD HI; cbn [ofold length].
    { intros H. inversion H. exists prev, done. rewrite app_nil_r. auto. }
    intros H. apply bind_ok_inv in H. destruct H as ([[d1 o1] e1] & E & H).
    apply mapping_entry_ok in E; [|apply HI; left; reflexivity]. destruct E as (x & y & X & M & -> & -> & ->).
    apply (IH _ (prev ++ [x])) in H; [|apply Forall2_app; [exact HD|constructor; [exact M|constructor]]|intros z Hz; apply HI; right; exact Hz].
    destruct H as (m & l & E & F & ->). exists m, l. split; [|auto]. rewrite E, map_app, <- app_assoc. cbn. rewrite X. reflexivity.
  Qed.
  Lemma build_mapping_ok o data data' : perm_order o -> build_mapping o b lookup data = Ok data' ->
    exists m l, Forall2 mapped m l /\ Permutation m (b_mapping b) /\ ordered Z.lt (map fst l) /\ zlen l <= MaxGlyphs /\
      data' = data ++ mapping_bytes l.
  Proof.
    intros HO. unfold build_mapping. cbv zeta. pose proof (zlen_nonneg (b_mapping b)) as NN.
    destruct (Z.gtb_spec (zlen (b_mapping b)) MaxGlyphs) as [|LM]; [discriminate|]. unfold MaxGlyphs in *.
    assert (U : u16 (zlen (b_mapping b)) = zlen (b_mapping b)) by (unfold u16; lia). rewrite U, append16_spec.
    destruct (Z.gtb_spec (zlen (b_mapping b)) 0) as [P|Z0].
    2:{ intros H. inversion H. exists [], []. assert (E : b_mapping b = []) by (destruct (b_mapping b); [reflexivity|rewrite zlen_cons in *; pose proof (zlen_nonneg l); lia]).
        rewrite E. split; [constructor|]. split; [constructor|]. split; [exact I|]. split; [rewrite zlen_nil; lia|]. reflexivity. }
    intros H. apply bind_ok_inv in H. destruct H as (cps & E & H). apply bind_ok_inv in H. destruct H as ([[d o'] e'] & E1 & H). inversion H. subst d. clear H.
    pose proof (HO 4%nat _ (b_mapping b)) as PO.
    assert (CP : cps = map fst (o 4%nat _ (b_mapping b))).
    { apply omap_ok in E. assert (G : forall l r, incl l (b_mapping b) -> Forall2 (fun (x : Z * mappingEntry) y => (if fst x <? 0 then Panic else Ok (u32 (fst x))) = Ok y) l r -> r = map fst l).
      { intros l r I1. induction 1 as [|[cp e] y l0 r0 X _ IH]; [reflexivity|]. cbn [map fst] in *. pose proof (MR cp e (I1 _ (or_introl eq_refl))).
        destruct (Z.ltb_spec cp 0); [lia|]. inversion X. unfold u32. rewrite Z.mod_small by lia. f_equal. apply IH. intros z Hz. apply I1. right. exact Hz. }
      apply G; [|exact E]. intros z Hz. apply (Permutation_in _ PO). exact Hz. }
    set (S0 := go_sort Z.leb cps) in *. assert (PS : Permutation S0 (map fst (b_mapping b))).
    { apply (Permutation_trans (go_sort_perm _ _)). rewrite CP. apply Permutation_map. exact PO. }
    assert (LS : length S0 = length (b_mapping b)) by (rewrite (Permutation_length PS), map_length; reflexivity).
    assert (OS : ordered Z.lt S0).
    { apply (ordered_strict Z.le Z.lt); [intros x y X1 X2; lia|apply (Permutation_NoDup (Permutation_sym PS) MK)|].
      apply go_sort_ordered; [intros; lia|intros a c X; apply Z.leb_le; exact X|intros a c X; apply Z.leb_gt in X; lia]. }
    rewrite append_digits4 in E1.
    set (pre := (data ++ le_digits 2 (zlen (b_mapping b))) ++ concat (map (le_digits 4) S0)) in *.
    replace (Z.to_nat (zlen (b_mapping b) * 3)) with (3 * length S0)%nat in E1 by (rewrite LS; unfold zlen; lia).
    assert (R : pre ++ repeat 0 (3 * length S0) = reserved pre (map (fun x : Z * entry => entry_bytes (snd x)) []) (length S0)).
    { unfold reserved. cbn [map concat offsets end_offsets app]. rewrite app_nil_r. reflexivity. }
    rewrite R in E1. replace (zlen pre) with (zlen pre + 3 * zlen (@nil (Z * entry))) in E1 by (rewrite zlen_nil; lia).
    change 0 with (zlen (concat (map (fun x : Z * entry => entry_bytes (snd x)) []))) in E1 at 1.
    apply (mapping_loop pre S0 [] []) in E1; [|constructor|intros z Hz; apply (Permutation_in _ PS); exact Hz].
    destruct E1 as (m & l & EM & FM & ->). cbn [map app] in EM. exists m, l. split; [exact FM|].
    assert (ML : map fst l = S0).
    { rewrite <- EM. clear - FM. induction FM as [|x y m l M _ IH]; [reflexivity|]. cbn. destruct M as (_ & M & _). rewrite M, IH. reflexivity. }
    assert (PM : Permutation m (b_mapping b)).
    { apply NoDup_Permutation_bis.
      - apply (NoDup_map_inv fst). rewrite EM. apply (Permutation_NoDup (Permutation_sym PS) MK).
      - rewrite <- LS, <- EM, map_length. lia.
      - intros z Hz. clear - FM Hz. induction FM as [|x y m l M _ IH]; [destruct Hz|]. destruct Hz as [<-|Hz]; [exact (proj1 M)|auto]. }
    assert (LL : zlen l = zlen (b_mapping b)) by (rewrite <- (zlen_map fst l), ML; unfold zlen; rewrite LS; reflexivity).
    split; [exact PM|]. split; [rewrite ML; exact OS|]. split; [lia|].
    unfold reserved, mapping_bytes, pre, indexed. cbn [repeat Nat.mul app]. rewrite LL, <- ML, !map_map, <- !app_assoc. reflexivity.
  Qed.
End Mapping.
