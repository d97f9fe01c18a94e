(** The words that are stored do not depend on the order in which maps are iterated. *)
From Coq Require Import Permutation.
From Verif Require Import Base BaseFacts Spec_Helpers Model_Helpers Proofs_Helpers Spec_Names Model_Names Proofs_Names Model_Date Model_Mask Model_Font Model_Words
  Model_Parse Spec_Mask Model_Rewrites Spec_Format Proofs_Format Spec_Layout Spec_LayoutFont Proofs_Layout Proofs_Font Proofs_Font2 Proofs_Font3 Proofs_Font4
  Model_Builder Spec_Builder Spec_Survive Proofs_Builder Proofs_Build Proofs_Build2 Proofs_Build3 Proofs_Build4 Proofs_Build5 Proofs_Build6
  Proofs_Build7 Proofs_Build8 Spec_Accept Proofs_Accept Proofs_Build9 Proofs_Order Proofs_Survive Spec_Props Spec_Kept Proofs_Kept Proofs_Options.

Lemma move_words_within o T : perm_order o ->  forall fuel n words C B custom minb words',
  assigned words C B custom minb -> covered words C B -> zlen words <= 255 -> incl C T -> (forall w i, In w (map fst words) -> builtin_get w i -> i < zlen T -> In w T) ->
  move_words fuel o n (words, custom, minb) = Ok words' ->
  exists C' B' minb', assigned words' C' B' (zlen C') minb' /\ covered words' C' B' /\ incl C' T.
Proof.
  intros HO. induction fuel as [|fuel IH]; intros n words C B custom minb words' HA HC HL HF HG; cbn [move_words];
    (destruct (Z.ltb_spec minb custom) as [L|L]; [|intros H; inversion H; subst words';
      exists C, B, minb; rewrite <- (as_custom _ _ _ _ _ HA); split; [exact HA|]; split; [exact HC|exact HF]]).
  { discriminate. }
  intros H.
  assert (CL : custom <= zlen words).
  { rewrite (as_custom _ _ _ _ _ HA). unfold zlen. rewrite <- (map_length fst words). apply inj_le. apply NoDup_incl_length; [exact (as_C _ _ _ _ _ HA)|].
    intros w Hw. apply HC. left. exact Hw. }
  destruct (as_min _ _ _ _ _ HA) as [->|(w0 & W1 & W2)]; [lia|].
  destruct (fold_left (move_word (- minb)) (o n _ words) (words, custom, 65535)) as [[w1 c1] m1] eqn:F.
  pose proof (HO n _ words) as P.
  assert (IN : forall e, In e (o n _ words) <-> In e words) by (intros e; split; apply Permutation_in; [exact P|symmetry; exact P]).
  assert (I0 : In (w0, - minb) words).
  { destruct (as_built _ _ _ _ _ HA w0 W1) as (i & I1 & I2 & I3). unfold builtin_get in *. rewrite W2 in I1. inversion I1. exact I2. }
  pose proof (builtin_get_facts _ _ W2) as R0.
  apply (move_loop w0 minb) in F.
  - destruct F as (F1 & _ & _ & F4 & F5). destruct (F1 (proj2 (IN _) I0)) as [-> ->]. clear F1.
    assert (K0 : In w0 (map fst words)) by (apply HC; right; exact W1).
    assert (NC : ~ In w0 C) by (intros X; exact (as_disj _ _ _ _ _ HA w0 X W1)).
    eapply (IH _ _ (C ++ [w0]) (filter (not_word w0) B)) in H.
    + exact H.
    + destruct HA as [A1 A2 A3 A4 A5 A6 A7].
      constructor.
      * rewrite zlen_app, zlen_cons, zlen_nil. lia.
      * apply (m_set_nodup _ list_eqb_true). exact A2.
      * apply NoDup_snoc; assumption.
      * intros x Hx Hx'. apply in_remove in Hx'. destruct Hx' as [X1 X2]. apply in_app_or in Hx.
        destruct Hx as [Hx|[<-|[]]]; [eapply A4; eassumption|congruence].
      * intros i x Hx. apply zget_snoc in Hx. destruct Hx as [Hx|[-> ->]].
        -- apply (m_set_in_other _ list_eqb_true); [|apply A5; exact Hx]. intros ->. apply zget_in in Hx. contradiction.
        -- rewrite <- A1. apply (m_set_in_same _ list_eqb_true).
      * intros x Hx. apply in_remove in Hx. destruct Hx as [X1 X2]. destruct (A6 x X1) as (i & I1 & I2 & I3). exists i. split; [exact I1|].
        split; [apply (m_set_in_other _ list_eqb_true); assumption|]. pose proof (builtin_get_facts _ _ I1) as [G1 G2].
        assert (i <> minb) by (intros ->; destruct R0 as [_ G3]; congruence).
        apply IN in I2. specialize (F4 x (- i) I2 ltac:(lia) ltac:(lia)). lia.
      * destruct F5 as [->|(x & X1 & X2 & X3)]; [left; reflexivity|]. right. exists x. apply IN in X1.
        assert (HA : assigned words C B custom minb) by (constructor; assumption).
        destruct (covered_value _ _ _ _ _ _ _ HA HC X1) as [[X _]|(Y1 & Y2 & Y3)]; [lia|]. rewrite Z.opp_involutive in Y3.
        split; [|exact Y3]. apply in_remove. split; [exact Y1|]. intros ->. unfold builtin_get in *. rewrite W2 in Y3. inversion Y3. lia.
    + intros w. rewrite m_set_keys_in by exact K0. rewrite (HC w), in_app_iff, in_remove. cbn. split.
      * intros [X|X]; [tauto|]. destruct (list_eq_dec Z.eq_dec w0 w) as [->|N]; [tauto|]. right. split; [exact X|congruence].
      * intros [[X|[<-|[]]]|[X _]]; tauto.
    + rewrite (m_set_len _ list_eqb_true). apply (m_has_true _ list_eqb_true) in K0. rewrite K0. lia.
    + intros w Hw. apply in_app_or in Hw. destruct Hw as [Hw|[<-|[]]]; [exact (HF w Hw)|]. apply (HG w0 minb K0 W2).
      assert (CS : custom <= zlen T) by (rewrite (as_custom _ _ _ _ _ HA); unfold zlen; apply inj_le, NoDup_incl_length; [exact (as_C _ _ _ _ _ HA)|exact HF]). lia.
    + intros w i Hw. rewrite m_set_keys_in in Hw by exact K0. exact (HG w i Hw).
  - eapply NoDup_perm_map; [exact P|exact (as_nodup _ _ _ _ _ HA)].
  - intros w Hw. apply IN in Hw. destruct (covered_value _ _ _ _ _ _ _ HA HC Hw) as [[X _]|(X1 & X2 & X3)]; [lia|].
    rewrite Z.opp_involutive in X3. destruct (builtin_get_facts _ _ X3) as [_ G1]. destruct R0 as [_ G2]. congruence.
Qed.


Lemma organize_within o words final T : perm_order o -> NoDup (map fst words) -> organizeWords o builtin_words words = Ok final ->
  (forall w i, In w (map fst words) -> builtin_get w i -> i < zlen T -> In w T) -> (forall w, In w (map fst words) -> own_word w -> In w T) ->
  incl (map fst final) T.
Proof.
  intros HO ND H G1 G2. unfold organizeWords in H. destruct (zlen words >? 255) eqn:L; [discriminate|]. cbv zeta in H.
  destruct (fold_left (assign_word builtin_words) (o 0%nat _ words) (words, 0, 65535)) as [[w1 c1] m1] eqn:F.
  pose proof (HO 0%nat _ words) as P.
  assert (INK : forall w, In w (map fst (o 0%nat _ words)) <-> In w (map fst words)).
  { intros w. split; apply Permutation_in; apply Permutation_map; [exact P|symmetry; exact P]. }
  assert (A0 : assigned words [] [] 0 65535).
  { constructor; try easy; [constructor|intros i w Hw; apply zget_ok_range in Hw; rewrite zlen_nil in Hw; lia|left; reflexivity]. }
  assert (F' := F). apply assign_neg in F'; [|eapply NoDup_perm_map; eassumption|exact ND]. destruct F' as [_ NG].
  apply (assign_loop _ _ _ _ _ _ _ _ _ A0) in F; [|eapply NoDup_perm_map; eassumption|intros w Hw; split; [apply INK; exact Hw|split; intros []]].
  destruct F as (C1 & B1 & HA & HK & HC).
  assert (CV : covered w1 C1 B1) by (intros w; rewrite HK, HC, INK; cbn; tauto).
  apply bind_ok_inv in H. destruct H as (w2 & E & H). inversion H. subst final. clear H.
  assert (ZL : zlen w1 = zlen words) by (unfold zlen; rewrite <- (map_length fst w1), HK, map_length; reflexivity).
  assert (FC : incl C1 T).
  { intros w Hw. assert (K : In w (map fst words)) by (rewrite <- HK; apply CV; left; exact Hw).
    destruct (m_get list_eqb builtin_words w) as [i|] eqn:Hi; [|apply G2; [exact K|apply not_builtin; exact Hi]]. exfalso.
    apply in_zget in Hw. destruct Hw as (k & Hk). pose proof (zget_ok_range _ _ _ Hk) as R.
    pose proof (as_own _ _ _ _ _ HA _ _ Hk) as X. pose proof (builtin_get_facts _ _ Hi) as [J _].
    destruct (NG w k i X Hi) as [Y|[Y1 Y2]]; [lia|]. apply Y1, INK. exact K. }
  apply (move_words_within o T HO _ _ _ _ _ _ _ _ HA CV) in E; [|lia|exact FC|intros w i K; rewrite HK in K; exact (G1 w i K)].
  destruct E as (C & B & m & HA2 & CV2 & HB).
  intros w Hw. apply in_map_iff in Hw. destruct Hw as ([x k] & X & Hw). cbn [fst] in X. subst x. apply filter_In in Hw. destruct Hw as [Hw Hk].
  cbn [snd] in Hk. destruct (covered_value _ _ _ _ _ _ _ HA2 CV2 Hw) as [[_ X]|(_ & X & _)]; [|lia].
  apply HB. apply zget_in in X. exact X.
Qed.

Lemma organize_same o1 o2 words f1 f2 : perm_order o1 -> perm_order o2 -> NoDup (map fst words) ->
  organizeWords o1 builtin_words words = Ok f1 -> organizeWords o2 builtin_words words = Ok f2 -> incl (map fst f1) (map fst f2).
Proof.
  intros H1 H2 ND E1 E2. apply (organize_within o1 words f1 (map fst f2) H1 ND E1);
    destruct (organize_ok o2 words f2 H2 ND E2) as (_ & _ & _ & _ & C).
  - intros w i K Hi L. destruct (C w K) as [X|(_ & j & J1 & J2)]; [exact X|]. unfold builtin_get in *. rewrite Hi in J1. inversion J1.
    rewrite (zlen_map fst) in L. lia.
  - intros w K OW. destruct (C w K) as [X|(_ & j & J1 & J2)]; [exact X|]. destruct (builtin_get_facts _ _ J1) as [_ J]. destruct (OW j J).
Qed.

Section Same.
  Variables (id : Z) (date : Date) (ops : list bop) (o1 o2 : order) (s1 s2 : list Model_Mask.fragment -> list Model_Mask.fragment) (b1 b2 : builder) (f g : Font).
  Hypothesis HD : date_typed date.
  Hypothesis HT : Forall op_typed ops.
  Hypothesis HO1 : perm_order o1.
  Hypothesis HO2 : perm_order o2.
  Hypothesis HS1 : forall l, Permutation l (s1 l).
  Hypothesis HS2 : forall l, Permutation l (s2 l).
  Hypothesis HB1 : Build o1 s1 (history id date ops) = (b1, Ok f).
  Hypothesis HB2 : Build o2 s2 (history id date ops) = (b2, Ok g).

  Lemma same_words : exists l1 l2 (W1 W2 : list (list Z)), f = font_of l1 /\ g = font_of l2 /\ Permutation W1 W2 /\
    Permutation (map zlen (l_words l1)) (map zlen W1) /\ Permutation (map zlen (l_words l2)) (map zlen W2).
  Proof.
    destruct (built_history _ _ _ _ _ _ _ HD HT HO1 HS1 HB1) as (l1 & E1 & _ & BT1 & _).
    destruct (built_history _ _ _ _ _ _ _ HD HT HO2 HS2 HB2) as (l2 & E2 & _ & BT2 & _).
    destruct (bt_word_names _ _ _ BT1) as (w1 & D1 & F1 & _). destruct (bt_word_names _ _ _ BT2) as (w2 & D2 & F2 & _).
    destruct (kept_builder id date ops o1 s1 b1 f HD HT HO1 HS1 HB1) as (_ & _ & _ & _ & _ & _ & S1 & _).
    destruct (kept_builder id date ops o2 s2 b2 g HD HT HO2 HS2 HB2) as (_ & _ & _ & _ & _ & _ & S2 & _).
    assert (CC : collect_words b1 = collect_words b2) by (unfold collect_words; rewrite S1, S2; reflexivity).
    destruct F1 as (F1 & L1 & _). destruct F2 as (F2 & L2 & _). rewrite CC in F1.
    exists l1, l2, (map fst w1), (map fst w2). split; [exact E1|]. split; [exact E2|]. split.
    - destruct (collect_words_ok b2) as [ND _]. destruct F1 as [[Z1 ->]|F1]; destruct F2 as [[Z2 ->]|F2].
      + reflexivity.
      + rewrite Z1 in F2. destruct (organize_ok o2 [] _ HO2 (NoDup_nil _) F2) as (_ & _ & _ & X & _).
        destruct w2 as [|e r]; [reflexivity|]. destruct (X (fst e) (or_introl eq_refl)).
      + rewrite Z2 in F1. destruct (organize_ok o1 [] _ HO1 (NoDup_nil _) F1) as (_ & _ & _ & X & _).
        destruct w1 as [|e r]; [reflexivity|]. destruct (X (fst e) (or_introl eq_refl)).
      + apply NoDup_Permutation; [exact (proj1 D1)|exact (proj1 D2)|]. intros w. split; intros I1;
          [exact (organize_same o1 o2 _ _ _ HO1 HO2 ND F1 F2 w I1)|exact (organize_same o2 o1 _ _ _ HO2 HO1 ND F2 F1 w I1)].
    - rewrite L1, L2. split; rewrite map_map; apply Permutation_map; [apply HO1|apply HO2].
  Qed.
  Lemma same_section : settings_NumWords f = settings_NumWords g /\ is_ok (settings_NumWords f) = true /\
    OffsetToSettingNames f - OffsetToWords f = OffsetToSettingNames g - OffsetToWords g.
  Proof.
    destruct same_words as (l1 & l2 & W1 & W2 & -> & -> & P & P1 & P2).
    assert (Q : Permutation (map zlen (l_words l1)) (map zlen (l_words l2))).
    { rewrite P1, P2. apply Permutation_map. exact P. }
    assert (N : zlen (l_words l1) = zlen (l_words l2)).
    { apply Permutation_length in Q. rewrite !map_length in Q. unfold zlen. rewrite Q. reflexivity. }
    assert (T : total (l_words l1) = total (l_words l2)).
    { unfold total. rewrite <- !sum_lens. apply sum_perm. exact Q. }
    pose proof (st_words l1) as S1. pose proof (st_words l2) as S2. unfold words_bytes in S1, S2.
    apply stored_cons in S1. apply stored_cons in S2. destruct S1 as [S1 _]. destruct S2 as [S2 _].
    unfold settings_NumWords. rewrite S1, S2, N. split; [reflexivity|]. split; [reflexivity|].
    pose proof (start_S l1 6 _ eq_refl) as A1. pose proof (start_S l2 6 _ eq_refl) as A2. unfold words_bytes in A1, A2.
    rewrite zlen_cons, zlen_indexed, N, T in A1. rewrite zlen_cons, zlen_indexed in A2.
    change (OffsetToSettingNames (font_of l1)) with (section_start l1 7). change (OffsetToSettingNames (font_of l2)) with (section_start l2 7).
    change (OffsetToWords (font_of l1)) with (section_start l1 6). change (OffsetToWords (font_of l2)) with (section_start l2 6). lia.
  Qed.
End Same.
