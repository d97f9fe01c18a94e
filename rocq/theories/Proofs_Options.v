(** Options of built fonts whatever the order in which the maps are iterated. *)
From Coq Require Import Permutation.
From Verif Require Import Base BaseFacts Spec_Helpers Model_Helpers Proofs_Helpers Spec_Names Model_Names Proofs_Names Model_Date Model_Mask Model_Font Model_Words
  Model_Parse Spec_Mask Model_Rewrites Spec_Format Proofs_Format Spec_Layout Spec_LayoutFont Proofs_Layout Proofs_Font Proofs_Font2 Proofs_Font3 Proofs_Font4
  Model_Builder Spec_Builder Spec_Survive Proofs_Builder Proofs_Build Proofs_Build2 Proofs_Build3 Proofs_Build4 Proofs_Build5 Proofs_Build6
  Proofs_Build7 Proofs_Build8 Spec_Accept Proofs_Accept Proofs_Build9 Proofs_Order Proofs_Survive.

(** predefined words among [C] have indices below [K] *)
Definition far (K : Z) (C : list (list Z)) : Prop := forall w i, In w C -> builtin_get w i -> i < K.
(** after the first loop predefined words have negative indices *)
Lemma assign_neg : forall entries words custom minb words' custom' minb',
  NoDup (map fst entries) -> NoDup (map fst words) ->
  fold_left (assign_word builtin_words) entries (words, custom, minb) = (words', custom', minb') ->
  NoDup (map fst words') /\
  forall w i j, In (w, i) words' -> builtin_get w j -> i = - j \/ (~ In w (map fst entries) /\ In (w, i) words).
Proof.
  induction entries as [|[w v] r IH]; intros words custom minb words' custom' minb' N1 N2; cbn [fold_left map].
  { intros H. inversion H. subst. split; [exact N2|]. intros w i j Hw _. right. cbn. auto. }
  cbn [map fst] in N1. apply NoDup_cons_iff in N1. destruct N1 as [N0 N1]. unfold assign_word at 2. cbn [fst].
  destruct (m_get list_eqb builtin_words w) as [k|] eqn:G; intros H; (apply IH in H; [|exact N1|apply (m_set_nodup _ list_eqb_true); exact N2]);
    destruct H as [H0 H]; (split; [exact H0|]); intros x i j X Hj; (destruct (H x i j X Hj) as [Y|[Y1 Y2]]; [left; exact Y|]);
    (apply m_set_in_inv in Y2; [|exact N2]); destruct Y2 as [[-> ->]|[Y2 Y3]].
  - left. unfold builtin_get in Hj. rewrite G in Hj. inversion Hj. reflexivity.
  - right. split; [|exact Y3]. intros [Y|Y]; cbn [fst] in *; congruence.
  - unfold builtin_get in Hj. rewrite G in Hj. discriminate.
  - right. split; [|exact Y3]. intros [Y|Y]; cbn [fst] in *; congruence.
Qed.
Lemma move_words_far o K : perm_order o -> forall fuel n words C B custom minb words',
  assigned words C B custom minb -> covered words C B -> zlen words <= 255 -> zlen words <= K -> far K C ->
  move_words fuel o n (words, custom, minb) = Ok words' ->
  exists C' B' minb', assigned words' C' B' (zlen C') minb' /\ covered words' C' B' /\ far K C'.
Proof.
  intros HO. induction fuel as [|fuel IH]; intros n words C B custom minb words' HA HC HL HK HF; cbn [move_words];
    (destruct (Z.ltb_spec minb custom) as [L|L]; [|intros H; inversion H; subst words';
      exists C, B, minb; rewrite <- (as_custom _ _ _ _ _ HA); split; [exact HA|]; split; [exact HC|exact HF]]).
  { discriminate. }
  intros H.
  assert (CL : custom <= zlen words).
  { rewrite (as_custom _ _ _ _ _ HA). unfold zlen. rewrite <- (map_length fst words). apply inj_le. apply NoDup_incl_length; [exact (as_C _ _ _ _ _ HA)|].
    intros w Hw. apply HC. left. exact Hw. }
  destruct (as_min _ _ _ _ _ HA) as [->|(w0 & W1 & W2)]; [lia|].
  destruct (fold_left (move_word (- minb)) (o n _ words) (words, custom, 65535)) as [[w1 c1] m1] eqn:F.
  pose proof (HO n _ words) as P.
  assert (IN : forall e, In e (o n _ words) <-> In e words) by (intros e; split; apply Permutation_in; [exact P|symmetry; exact P]).
  assert (I0 : In (w0, - minb) words).
  { destruct (as_built _ _ _ _ _ HA w0 W1) as (i & I1 & I2 & I3). unfold builtin_get in *. rewrite W2 in I1. inversion I1. exact I2. }
  pose proof (builtin_get_facts _ _ W2) as R0.
  apply (move_loop w0 minb) in F.
  - destruct F as (F1 & _ & _ & F4 & F5). destruct (F1 (proj2 (IN _) I0)) as [-> ->]. clear F1.
    assert (K0 : In w0 (map fst words)) by (apply HC; right; exact W1).
    assert (NC : ~ In w0 C) by (intros X; exact (as_disj _ _ _ _ _ HA w0 X W1)).
    eapply (IH _ _ (C ++ [w0]) (filter (not_word w0) B)) in H.
    + exact H.
    + destruct HA as [A1 A2 A3 A4 A5 A6 A7].
      constructor.
      * rewrite zlen_app, zlen_cons, zlen_nil. lia.
      * apply (m_set_nodup _ list_eqb_true). exact A2.
      * apply NoDup_snoc; assumption.
      * intros x Hx Hx'. apply in_remove in Hx'. destruct Hx' as [X1 X2]. apply in_app_or in Hx.
        destruct Hx as [Hx|[<-|[]]]; [eapply A4; eassumption|congruence].
      * intros i x Hx. apply zget_snoc in Hx. destruct Hx as [Hx|[-> ->]].
        -- apply (m_set_in_other _ list_eqb_true); [|apply A5; exact Hx]. intros ->. apply zget_in in Hx. contradiction.
        -- rewrite <- A1. apply (m_set_in_same _ list_eqb_true).
      * intros x Hx. apply in_remove in Hx. destruct Hx as [X1 X2]. destruct (A6 x X1) as (i & I1 & I2 & I3). exists i. split; [exact I1|].
        split; [apply (m_set_in_other _ list_eqb_true); assumption|]. pose proof (builtin_get_facts _ _ I1) as [G1 G2].
        assert (i <> minb) by (intros ->; destruct R0 as [_ G3]; congruence).
        apply IN in I2. specialize (F4 x (- i) I2 ltac:(lia) ltac:(lia)). lia.
      * destruct F5 as [->|(x & X1 & X2 & X3)]; [left; reflexivity|]. right. exists x. apply IN in X1.
        assert (HA : assigned words C B custom minb) by (constructor; assumption).
        destruct (covered_value _ _ _ _ _ _ _ HA HC X1) as [[X _]|(Y1 & Y2 & Y3)]; [lia|]. rewrite Z.opp_involutive in Y3.
        split; [|exact Y3]. apply in_remove. split; [exact Y1|]. intros ->. unfold builtin_get in *. rewrite W2 in Y3. inversion Y3. lia.
    + intros w. rewrite m_set_keys_in by exact K0. rewrite (HC w), in_app_iff, in_remove. cbn. split.
      * intros [X|X]; [tauto|]. destruct (list_eq_dec Z.eq_dec w0 w) as [->|N]; [tauto|]. right. split; [exact X|congruence].
      * intros [[X|[<-|[]]]|[X _]]; tauto.
    + rewrite (m_set_len _ list_eqb_true). apply (m_has_true _ list_eqb_true) in K0. rewrite K0. lia.
    + rewrite (m_set_len _ list_eqb_true). apply (m_has_true _ list_eqb_true) in K0. rewrite K0. lia.
    + intros w i Hw Hi. apply in_app_or in Hw. destruct Hw as [Hw|[<-|[]]]; [exact (HF w i Hw Hi)|]. unfold builtin_get in *. rewrite W2 in Hi. inversion Hi. lia.
  - eapply NoDup_perm_map; [exact P|exact (as_nodup _ _ _ _ _ HA)].
  - intros w Hw. apply IN in Hw. destruct (covered_value _ _ _ _ _ _ _ HA HC Hw) as [[X _]|(X1 & X2 & X3)]; [lia|].
    rewrite Z.opp_involutive in X3. destruct (builtin_get_facts _ _ X3) as [_ G1]. destruct R0 as [_ G2]. congruence.
Qed.


Lemma organize_far o words final : perm_order o -> NoDup (map fst words) -> organizeWords o builtin_words words = Ok final ->
  forall w i, In w (map fst final) -> builtin_get w i -> i < zlen words.
Proof.
  intros HO ND H. unfold organizeWords in H. destruct (zlen words >? 255) eqn:L; [discriminate|]. cbv zeta in H.
  destruct (fold_left (assign_word builtin_words) (o 0%nat _ words) (words, 0, 65535)) as [[w1 c1] m1] eqn:F.
  pose proof (HO 0%nat _ words) as P.
  assert (INK : forall w, In w (map fst (o 0%nat _ words)) <-> In w (map fst words)).
  { intros w. split; apply Permutation_in; apply Permutation_map; [exact P|symmetry; exact P]. }
  assert (A0 : assigned words [] [] 0 65535).
  { constructor; try easy; [constructor|intros i w Hw; apply zget_ok_range in Hw; rewrite zlen_nil in Hw; lia|left; reflexivity]. }
  assert (F' := F). apply assign_neg in F'; [|eapply NoDup_perm_map; eassumption|exact ND]. destruct F' as [_ NG].
  apply (assign_loop _ _ _ _ _ _ _ _ _ A0) in F; [|eapply NoDup_perm_map; eassumption|intros w Hw; split; [apply INK; exact Hw|split; intros []]].
  destruct F as (C1 & B1 & HA & HK & HC).
  assert (CV : covered w1 C1 B1) by (intros w; rewrite HK, HC, INK; cbn; tauto).
  apply bind_ok_inv in H. destruct H as (w2 & E & H). inversion H. subst final. clear H.
  assert (ZL : zlen w1 = zlen words) by (unfold zlen; rewrite <- (map_length fst w1), HK, map_length; reflexivity).
  assert (FC : far (zlen words) C1).
  { intros w i Hw Hi. exfalso. apply in_zget in Hw. destruct Hw as (k & Hk). pose proof (zget_ok_range _ _ _ Hk) as R.
    pose proof (as_own _ _ _ _ _ HA _ _ Hk) as X. pose proof (builtin_get_facts _ _ Hi) as [J _].
    destruct (NG w k i X Hi) as [Y|[Y1 Y2]]; [lia|]. apply Y1, INK. apply in_map_iff. exists (w, k). auto. }
  apply (move_words_far o (zlen words) HO _ _ _ _ _ _ _ _ HA CV) in E; [|lia|lia|exact FC]. destruct E as (C & B & m & HA2 & CV2 & HB).
  intros w i Hw Hi. apply in_map_iff in Hw. destruct Hw as ([x k] & X & Hw). cbn [fst] in X. subst x. apply filter_In in Hw. destruct Hw as [Hw Hk].
  cbn [snd] in Hk. destruct (covered_value _ _ _ _ _ _ _ HA2 CV2 Hw) as [[_ X]|(_ & X & _)]; [|lia].
  apply (HB w i); [|exact Hi]. apply zget_in in X. exact X.
Qed.

(** the stored words have the lengths of the words *)
Lemma words_lengths o b words l : perm_order o -> words_from o b words l -> (forall w, In w (map fst words) -> loose_name w) ->
  Forall (fun w => w <> []) l /\ forall w, In w l -> exists v, In v (map fst words) /\ zlen w = zlen v.
Proof.
  intros HO (_ & F2 & _) LW.
  assert (X : forall w, In w l -> exists v, In v (map fst words) /\ zlen w = zlen v).
  { intros w I1. apply (in_map zlen) in I1. rewrite F2 in I1. apply in_map_iff in I1. destruct I1 as (e & E & I1).
    exists (fst e). split; [|symmetry; exact E]. apply in_map. apply (Permutation_in _ (HO 2%nat _ words) I1). }
  split; [|exact X]. apply Forall_forall. intros w I1 ->. destruct (X _ I1) as (v & V1 & V2). rewrite zlen_nil in V2.
  pose proof (loose_len v (LW v V1)). lia.
Qed.

Section Any.
  Variables (id : Z) (date : Date) (ops : list bop) (o : order) (sort : list Model_Mask.fragment -> list Model_Mask.fragment) (b' : builder) (f : Font).
  Hypothesis HD : date_typed date.
  Hypothesis HT : Forall op_typed ops.
  Hypothesis HO : perm_order o.
  Hypothesis HS : forall l, Permutation l (sort l).
  Hypothesis HB : Build o sort (history id date ops) = (b', Ok f).

  (** every name is a stored word or a predefined one *)
  Lemma options_any : exists words ws, words_from o b' words ws /\ zlen ws = zlen words /\ NoDup (map fst words) /\
      (forall w, In w ws -> exists v, In v (map fst words) /\ zlen w = zlen v) /\ (forall w, In w (map fst words) -> In w (options b')) /\
      Permutation (map snd words) (zseq (zlen words)) /\
      forall key option, 0 <= key -> 0 <= option -> match (do s <- zget (b_settings b') key; zget (snd s) option) with
      | Ok name => exists i, option_described words name i /\
          settings_GetOptionName f key option = if i <? zlen ws then zget ws i else GetPredefinedWord i
      | _ => settings_GetOptionName f key option = Panic
      end.
  Proof.
    destruct (built_history _ _ _ _ _ _ _ HD HT HO HS HB) as (l & E & DS & BT & FN & SO & _).
    destruct (bt_word_names _ _ _ BT) as (words & W1 & W2 & W3 & W4 & W5).
    destruct SO as (_ & S1 & S2). rewrite Forall_forall in S2.
    assert (LW : forall w, In w (map fst words) -> loose_name w).
    { intros w I1. apply W5 in I1. unfold options in I1. apply in_concat in I1. destruct I1 as (os & I1 & I2). apply in_map_iff in I1. destruct I1 as (s & <- & I1).
      destruct (S2 s I1) as (_ & X & _). rewrite Forall_forall in X. exact (X w I2). }
    destruct (words_lengths o b' words (l_words l) HO W2 LW) as [N1 N2].
    exists words, (l_words l). split; [exact W2|]. split; [exact W4|]. split; [exact (proj1 W1)|]. split; [exact N2|]. split; [exact W5|]. split; [exact (proj1 (proj2 W1))|]. intros key option Hk Hp.
    assert (TW : 1 * zlen (l_words l) <= total (l_words l) <= 32 * zlen (l_words l)).
    { apply bytes_total_le. apply Forall_forall. intros w I1. destruct (N2 w I1) as (v & V1 & ->). apply loose_len, LW, V1. }
    pose proof (F2_zlen _ _ _ W3) as LS. pose proof (bt_words _ _ _ BT) as BW. unfold total in TW.
    assert (TO : 0 * zlen (l_settings l) <= total (map snd (l_settings l)) <= 255 * zlen (l_settings l)).
    { apply total_map. intros t I1. destruct (Forall2_in_r _ _ _ _ W3 I1) as (s & I2 & _ & X). rewrite <- (F2_zlen _ _ _ X). pose proof (zlen_nonneg (snd s)). destruct (S2 s I2) as (_ & _ & Y). lia. }
    unfold total in TO. rewrite E.
    rewrite (option_name (font_of l) (l_words l) (l_settings l)); try assumption.
    - destruct (Forall2_zget _ _ _ key W3) as [(s & t & -> & -> & X)|[-> ->]]; [|reflexivity]. cbn [bind]. destruct X as [_ X].
      destruct (Forall2_zget _ _ _ option X) as [(w & i & -> & -> & Y)|[-> ->]]; [|reflexivity]. cbn [bind]. exists i. split; [exact Y|reflexivity].
    - apply st_setting_names.
    - apply st_setting_defs.
    - lia.
    - apply Forall_forall. intros t I1. destruct (Forall2_in_r _ _ _ _ W3 I1) as (s & I2 & _ & X). rewrite <- (F2_zlen _ _ _ X). apply S2, I2.
    - apply st_words.
    - lia.
    - pose proof (bt_options _ _ _ BT) as B. clear - B. unfold bytes in *. apply Forall_forall. intros s I1. apply Forall_forall. intros x I2.
      rewrite Forall_forall in B. apply B. apply in_concat. exists (snd s). split; [apply in_map; exact I1|exact I2].
  Qed.

  (** which text: the stored words one after the other, cut at the lengths of the stored words in some order *)
  Lemma options_text : exists W lens txts ws, NoDup W /\ incl W (all_options b') /\ (forall w, In w (all_options b') -> own_word w -> In w W) /\
    Permutation lens W /\ Permutation txts W /\ map zlen ws = map zlen lens /\ concat ws = concat txts /\
    forall key option, 0 <= key -> 0 <= option ->
      match (do s <- zget (b_settings b') key; zget (snd s) option) with
      | Ok name => (forall i, zget W i = Ok name -> settings_GetOptionName f key option = zget ws i) /\
                   (~ In name W -> settings_GetOptionName f key option = Ok name)
      | _ => settings_GetOptionName f key option = Panic
      end.
  Proof.
    destruct options_any as (words & ws & W2 & W4 & ND & N2 & W5 & PW & X).
    destruct (Permutation_map_inv snd words (Permutation_sym PW)) as (V & EV & PV). symmetry in EV.
    assert (PF : Permutation (map fst V) (map fst words)) by (apply Permutation_map; symmetry; exact PV).
    assert (G : forall w i, In (w, i) words -> zget (map fst V) i = Ok w).
    { intros w i I1. apply (laid_out_get V (zlen words)); [apply zlen_nonneg|exact EV|]. apply (Permutation_in _ PV I1). }
    assert (NV : NoDup (map fst V)) by (apply (Permutation_NoDup (Permutation_sym PF) ND)).
    destruct W2 as (W2 & W3 & W6).
    exists (map fst V), (map fst (o 2%nat _ words)), (map fst (o 3%nat _ words)), ws. split; [exact NV|].
    split; [intros w I1; apply W5, (Permutation_in _ PF I1)|]. split.
    { intros w I1 OW. unfold all_options in I1. apply in_concat in I1. destruct I1 as (os & I1 & I2). apply in_map_iff in I1. destruct I1 as (s & <- & I1).
      apply in_zget in I1. destruct I1 as (key & K1). apply in_zget in I2. destruct I2 as (option & K2).
      pose proof (zget_ok_range _ _ _ K1). pose proof (zget_ok_range _ _ _ K2). specialize (X key option ltac:(lia) ltac:(lia)).
      rewrite K1 in X. cbn [bind] in X. rewrite K2 in X. destruct X as (i & [Y|(_ & _ & Y)] & _); [|destruct (OW i Y)].
      apply (Permutation_in _ (Permutation_sym PF)). apply (in_map fst) in Y. exact Y. }
    split; [rewrite PF; apply Permutation_map, HO|]. split; [rewrite PF; apply Permutation_map, HO|].
    split; [rewrite W3, map_map; reflexivity|]. split; [exact W6|].
    intros key option Hk Hp. specialize (X key option Hk Hp).
    destruct (do s <- zget (b_settings b') key; zget (snd s) option) as [name| | |]; try exact X.
    destruct X as (i & Y & ->). destruct Y as [Y|(Y1 & Y2 & Y3)].
    - pose proof (G _ _ Y) as GI. pose proof (zget_ok_range _ _ _ GI) as R. rewrite (zlen_map fst) in R.
      assert (L : zlen V = zlen words) by (unfold zlen; rewrite (Permutation_length PV); reflexivity).
      destruct (Z.ltb_spec i (zlen ws)); [|lia]. split.
      + intros j Hj. f_equal. assert (RJ := zget_ok_range _ _ _ Hj). apply zget_some in GI. apply zget_some in Hj. destruct GI as [GI1 GI2]. destruct Hj as [HJ1 HJ2].
        rewrite NoDup_nth_error in NV. enough (Z.to_nat i = Z.to_nat j) by lia. apply NV; [|congruence]. apply nth_error_Some. congruence.
      + intros NI. destruct NI. apply (Permutation_in _ (Permutation_sym PF)). apply (in_map fst) in Y. exact Y.
    - assert (NI : ~ In name (map fst V)) by (intros I1; apply Y1, (Permutation_in _ PF I1)).
      destruct (Z.ltb_spec i (zlen ws)); [lia|]. split; [|intros _; exact Y3]. intros j Hj. apply zget_in in Hj. contradiction.
  Qed.

  (** whatever the order: existing options have a name, as long as some option; the others panic *)
  Lemma options_lengths key option : 0 <= key -> 0 <= option ->
    match (do s <- zget (b_settings b') key; zget (snd s) option) with
    | Ok _ => exists other v, settings_GetOptionName f key option = Ok other /\ In v (all_options b') /\ zlen other = zlen v
    | _ => settings_GetOptionName f key option = Panic
    end.
  Proof.
    intros Hk Hp. destruct options_any as (words & ws & W2 & W4 & ND & N2 & W5 & PW & X). specialize (X key option Hk Hp).
    destruct (do s <- zget (b_settings b') key; zget (snd s) option) as [name| | |] eqn:G; try exact X.
    destruct X as (i & Y & ->). destruct Y as [Y|(Y1 & Y2 & Y3)].
    - assert (R : 0 <= i < zlen words).
      { apply (in_map snd) in Y. cbn [snd] in Y. apply (Permutation_in _ PW) in Y. apply in_zseq in Y. exact Y. }
      destruct (Z.ltb_spec i (zlen ws)); [|lia]. destruct (zget_in_range ws i ltac:(lia)) as [w Hw]. rewrite Hw. pose proof (zget_in _ _ _ Hw) as I1.
      destruct (N2 w I1) as (v & V1 & V2). exists w, v. split; [reflexivity|]. split; [|exact V2]. apply W5 in V1. exact V1.
    - destruct (Z.ltb_spec i (zlen ws)); [lia|]. exists name, name. split; [exact Y3|]. split; [|reflexivity].
      apply bind_ok_inv in G. destruct G as (s & G1 & G2). apply zget_in in G1. apply zget_in in G2. unfold all_options. apply in_concat.
      exists (snd s). split; [apply in_map; exact G1|exact G2].
  Qed.

  (** predefined words with large indices *)
  Lemma options_predefined key option s name cover : zget (b_settings b') key = Ok s -> zget (snd s) option = Ok name ->
    ~ own_word name -> incl (all_options b') cover -> (forall i, GetPredefinedWord i = Ok name -> zlen cover <= i) ->
    settings_GetOptionName f key option = Ok name.
  Proof.
    intros G1 G2 NO IC HI. pose proof (zget_ok_range _ _ _ G1) as R1. pose proof (zget_ok_range _ _ _ G2) as R2.
    destruct options_any as (words & ws & W2 & W4 & ND & N2 & W5 & PW & X). specialize (X key option ltac:(lia) ltac:(lia)).
    rewrite G1 in X. cbn [bind] in X. rewrite G2 in X. destruct X as (i & Y & ->).
    assert (BG : exists j, builtin_get name j).
    { unfold builtin_get. destruct (m_get list_eqb builtin_words name) as [j|] eqn:Q; [exists j; reflexivity|]. destruct (NO (not_builtin _ Q)). }
    destruct BG as (j & BG). pose proof (builtin_get_facts _ _ BG) as [_ PJ]. apply HI in PJ.
    assert (CL : zlen (collect_words b') <= zlen cover).
    { unfold zlen. rewrite <- (map_length fst (collect_words b')). apply inj_le. destruct (collect_words_ok b') as [C1 C2].
      apply NoDup_incl_length; [exact C1|]. intros w Hw. apply IC. apply C2 in Hw. exact Hw. }
    destruct Y as [Y|(Y1 & Y2 & Y3)].
    - exfalso. apply (in_map fst) in Y. cbn [fst] in Y. destruct W2 as ([[_ E]|E] & _); [rewrite E in Y; destruct Y|].
      pose proof (organize_far o _ _ HO (proj1 (collect_words_ok b')) E name j Y BG). lia.
    - destruct (Z.ltb_spec i (zlen ws)); [lia|exact Y3].
  Qed.
End Any.
