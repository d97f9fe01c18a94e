(** What survives building: option names, mapped code points and kernings. *)
From Coq Require Import Permutation.
From Verif Require Import Base BaseFacts Spec_Helpers Model_Helpers Proofs_Helpers Spec_Names Model_Names Proofs_Names Model_Date
  Model_Mask Spec_Mask Model_Font Model_Words Model_Parse Spec_Format Proofs_Format Spec_Layout Spec_LayoutFont Proofs_Layout
  Proofs_Font Proofs_Font2 Proofs_Font3 Proofs_Font4
  Model_Builder Spec_Builder Spec_Survive Proofs_Builder Proofs_Build Proofs_Build2 Proofs_Build3 Proofs_Build4 Proofs_Build5 Proofs_Build6
  Proofs_Build7 Proofs_Build8 Spec_Accept Proofs_Accept Proofs_Build9 Proofs_Order.

Lemma built_history id date ops o sort b' f :
  date_typed date -> Forall op_typed ops -> perm_order o -> (forall l, Permutation l (sort l)) ->
  Build o sort (history id date ops) = (b', Ok f) ->
  exists l, f = font_of l /\ describes b' l /\ built o b' l /\ fine b' /\ settings_ok b' /\ switches_ok b' /\
    b' = history id date (ops ++ [OBuild o sort]) /\ Forall op_typed (ops ++ [OBuild o sort]).
Proof.
  intros HD HT HO HS HB.
  pose proof (limits_history id date ops HT) as (_ & (_ & L & _) & _).
  destruct (build_ok o sort _ b' f HO HS (fine_history id date ops HD HT) L HB) as (_ & l & D1 & D0 & D2).
  assert (E : b' = history id date (ops ++ [OBuild o sort])).
  { unfold history. rewrite fold_left_app. cbn [fold_left bstep]. fold (history id date ops). rewrite HB. reflexivity. }
  assert (HT' : Forall op_typed (ops ++ [OBuild o sort])) by (apply Forall_app; split; [exact HT|]; constructor; [exact HO|constructor]).
  pose proof (limits_history id date _ HT') as (L1 & L2 & L3).
  pose proof (fine_history id date _ HD HT') as FN. rewrite <- E in FN, L2, L3.
  exists l. repeat (split; [assumption|]). assumption.
Qed.

(** ** C42 *)
Lemma recut_unique {A} (l : list (list A)) : forall l', map zlen l = map zlen l' -> concat l = concat l' -> l = l'.
Proof.
  induction l as [|x r IH]; intros [|y r'] H1 H2; try discriminate; [reflexivity|]. cbn [map concat] in *.
  inversion H1 as [[E1 E2]]. assert (X : x = y).
  { apply (f_equal (firstn (length x))) in H2. rewrite firstn_app, Nat.sub_diag, firstn_all, firstn_O, app_nil_r in H2.
    assert (LX : length x = length y) by (unfold zlen in E1; lia).
    rewrite LX, firstn_app, Nat.sub_diag, firstn_all, firstn_O, app_nil_r in H2. exact H2. }
  subst y. f_equal. apply IH; [exact E2|]. apply app_inv_head in H2. exact H2.
Qed.
Lemma snd_determines (l : list (list Z * Z)) : forall l', NoDup (map snd l) -> Permutation l l' -> map snd l = map snd l' -> l = l'.
Proof.
  intros l' ND P H.
  assert (Q : forall k k' : list (list Z * Z), incl k l -> incl k' l -> map snd k = map snd k' -> k = k').
  { induction k as [|[w i] r IH]; intros [|[w' i'] r'] I1 I2 E; try discriminate; [reflexivity|]. cbn [map snd] in E. inversion E as [[E1 E2]]. subst i'.
    f_equal; [|apply IH; [intros z Z0; apply I1; right; exact Z0|intros z Z0; apply I2; right; exact Z0|exact E2]].
    f_equal. assert (X : In (w, i) l) by (apply I1; left; reflexivity). assert (Y : In (w', i) l) by (apply I2; left; reflexivity).
    clear - ND X Y. induction l as [|[v j] t IH]; [destruct X|]. cbn [map snd] in ND. apply NoDup_cons_iff in ND. destruct ND as [N1 N2].
    destruct X as [X|X]; destruct Y as [Y|Y]; [congruence| | |apply IH; assumption].
    - inversion X. subst. exfalso. apply N1. apply in_map_iff. exists (w', i). auto.
    - inversion Y. subst. exfalso. apply N1. apply in_map_iff. exists (w, i). auto. }
  apply Q; [intros z Z0; exact Z0|intros z Z0; apply (Permutation_in _ (Permutation_sym P)); exact Z0|exact H].
Qed.
Lemma NoDup_zseq n : NoDup (zseq n).
Proof. unfold zseq. apply FinFun.Injective_map_NoDup; [intros x y; lia|apply seq_NoDup]. Qed.
Lemma words_laid_out o b words l : perm_order o -> words_described words l -> words_from o b words l ->
  at_most_one_own_word b \/ words_in_index_order o b ->
  exists W, Permutation W words /\ map snd W = zseq (zlen words) /\ l = map fst W.
Proof.
  intros HO (D1 & D2 & _) (F1 & F2 & F3) H.
  destruct F1 as [[E ->]|F1].
  { exists []. split; [constructor|]. split; [reflexivity|]. rewrite (Permutation_nil (Permutation_sym (HO 2%nat _ []))) in F2. destruct l; [reflexivity|discriminate]. }
  destruct H as [H|H].
  - apply own_collected in H. rewrite organize_one in F1; [|exact HO|apply collect_words_ok|exact H].
    destruct (zlen (collect_words b) >? 255); [discriminate|]. inversion F1 as [E]. rewrite E in *.
    pose proof (one_words_short _ H) as S. rewrite E in S. rewrite (short_order o 2) in F2 by assumption. rewrite (short_order o 3) in F3 by assumption.
    exists words. split; [reflexivity|]. split.
    + destruct words as [|[w i] [|e r]]; [reflexivity| |rewrite !zlen_cons in S; pose proof (zlen_nonneg r); lia].
      cbn [map snd] in *. change (zlen [(w, i)]) with 1 in *. apply Permutation_length_1_inv in D2. rewrite D2. reflexivity.
    + apply recut_unique; [rewrite F2, map_map; reflexivity|exact F3].
  - destruct (H _ _ builtin_ok F1) as [H2 H3]. pose proof (HO 2%nat _ words) as P2. pose proof (HO 3%nat _ words) as P3.
    assert (E : o 2%nat _ words = o 3%nat _ words).
    { apply snd_determines; [rewrite H2; apply NoDup_zseq|rewrite P2, P3; reflexivity|congruence]. }
    exists (o 2%nat _ words). split; [exact P2|]. split; [exact H2|].
    apply recut_unique; [rewrite F2, map_map; reflexivity|rewrite E; exact F3].
Qed.
Lemma zget_zseq_eq n i : 0 <= i < n -> zget (zseq n) i = Ok i.
Proof. intros H. rewrite zget_zseq by lia. reflexivity. Qed.
Lemma laid_out_get (W : list (list Z * Z)) n w i : 0 <= n -> map snd W = zseq n -> In (w, i) W -> zget (map fst W) i = Ok w.
Proof.
  intros Hn E I1. apply in_zget in I1. destruct I1 as (k & X).
  assert (Y : zget (map snd W) k = Ok i) by (rewrite zget_map, X; reflexivity).
  rewrite E in Y. pose proof (zget_ok_range _ _ _ Y) as R. rewrite zlen_zseq in R by exact Hn. rewrite zget_zseq_eq in Y by exact R.
  assert (k = i) by congruence. subst k. rewrite zget_map, X. reflexivity.
Qed.
Lemma Forall2_zget {A B} (R : A -> B -> Prop) l m i : Forall2 R l m ->
  (exists x y, zget l i = Ok x /\ zget m i = Ok y /\ R x y) \/ (zget l i = Panic /\ zget m i = Panic).
Proof.
  intros F. pose proof (F2_zlen _ _ _ F) as L. destruct (Z_lt_dec i 0) as [N|N]; [right; split; apply zget_panic; lia|].
  destruct (Z_lt_dec i (zlen l)) as [N2|N2]; [|right; split; apply zget_panic; lia]. left.
  assert (Hi : 0 <= i) by lia. clear N. revert m F i Hi N2 L. induction l as [|x l IH]; intros m F i Hi N2 L; [rewrite zlen_nil in N2; lia|].
  inversion F as [|? y ? m' X F']; subst. destruct (Z.eq_dec i 0) as [->|N]; [exists x, y; auto|].
  rewrite !zlen_cons in *. destruct (IH m' F' (i - 1)) as (x' & y' & E1 & E2 & E3); [lia..|]. exists x', y'.
  change (x :: l) with ([x] ++ l). change (y :: m') with ([y] ++ m'). rewrite !zget_app_r by (change (zlen [x]) with 1; change (zlen [y]) with 1; lia). auto.
Qed.
Lemma options_survive id date ops o sort b' f key option :
  date_typed date -> Forall op_typed ops -> perm_order o -> (forall l, Permutation l (sort l)) ->
  Build o sort (history id date ops) = (b', Ok f) ->
  at_most_one_own_word b' \/ words_in_index_order o b' -> 0 <= key -> 0 <= option ->
  settings_GetOptionName f key option = do s <- zget (b_settings b') key; zget (snd s) option.
Proof.
  intros HD HT HO HS HB HW Hk Hp. destruct (built_history _ _ _ _ _ _ _ HD HT HO HS HB) as (l & -> & DS & BT & FN & SO & _).
  destruct (bt_word_names _ _ _ BT) as (words & W1 & W2 & W3 & W4 & W5).
  destruct (words_laid_out o b' words (l_words l) HO W1 W2 HW) as (W & P & X1 & X2).
  destruct SO as (_ & S1 & S2). rewrite Forall_forall in S2.
  assert (LW : forall w, In w (map fst words) -> loose_name w).
  { intros w I1. apply W5 in I1. unfold options in I1. apply in_concat in I1. destruct I1 as (os & I1 & I2). apply in_map_iff in I1. destruct I1 as (s & <- & I1).
    destruct (S2 s I1) as (_ & X & _). rewrite Forall_forall in X. exact (X w I2). }
  assert (TW : 1 * zlen (l_words l) <= total (l_words l) <= 32 * zlen (l_words l)).
  { apply bytes_total_le. apply Forall_forall. intros w I1. apply loose_len, LW. rewrite X2 in I1. apply in_map_iff in I1. destruct I1 as (e & <- & I1).
    apply in_map. apply (Permutation_in _ P I1). }
  pose proof (F2_zlen _ _ _ W3) as LS. pose proof (bt_words _ _ _ BT) as BW. unfold total in TW.
  assert (TO : 0 * zlen (l_settings l) <= total (map snd (l_settings l)) <= 255 * zlen (l_settings l)).
  { apply total_map. intros t I1. destruct (Forall2_in_r _ _ _ _ W3 I1) as (s & I2 & _ & X). rewrite <- (F2_zlen _ _ _ X). pose proof (zlen_nonneg (snd s)). destruct (S2 s I2) as (_ & _ & Y). lia. }
  unfold total in TO.
  rewrite (option_name (font_of l) (l_words l) (l_settings l)); try assumption.
  - destruct (Forall2_zget _ _ _ key W3) as [(s & t & -> & -> & X)|[-> ->]]; [|reflexivity]. cbn [bind]. destruct X as [_ X].
    destruct (Forall2_zget _ _ _ option X) as [(w & i & -> & -> & Y)|[-> ->]]; [|reflexivity]. cbn [bind].
    destruct Y as [Y|(Y1 & Y2 & Y3)].
    + apply (Permutation_in _ (Permutation_sym P)) in Y. pose proof (laid_out_get W (zlen words) w i (zlen_nonneg _) X1 Y) as G. rewrite <- X2 in G.
      pose proof (zget_ok_range _ _ _ G). destruct (Z.ltb_spec i (zlen (l_words l))); [exact G|lia].
    + destruct (Z.ltb_spec i (zlen (l_words l))); [lia|exact Y3].
  - apply st_setting_names.
  - apply st_setting_defs.
  - lia.
  - apply Forall_forall. intros t I1. destruct (Forall2_in_r _ _ _ _ W3 I1) as (s & I2 & _ & X). rewrite <- (F2_zlen _ _ _ X). apply S2, I2.
  - apply st_words.
  - apply Forall_forall. intros w I1. rewrite X2 in I1. apply in_map_iff in I1. destruct I1 as (e & <- & I1).
    intros E0. pose proof (loose_len (fst e)) as LL. rewrite E0 in LL. rewrite zlen_nil in LL. enough (1 <= 0) by lia. apply LL.
    rewrite <- E0. apply LW, in_map, (Permutation_in _ P I1).
  - lia.
  - pose proof (bt_options _ _ _ BT) as B. clear - B. unfold bytes in *. apply Forall_forall. intros s I1. apply Forall_forall. intros x I2.
    rewrite Forall_forall in B. apply B. apply in_concat. exists (snd s). split; [apply in_map; exact I1|exact I2].
Qed.

(** ** C44 *)
Lemma nodup_zget (l : list Z) i j x : NoDup l -> zget l i = Ok x -> zget l j = Ok x -> i = j.
Proof.
  intros ND H1 H2. apply zget_some in H1, H2. destruct H1 as [P1 H1], H2 as [P2 H2].
  assert (Z.to_nat i = Z.to_nat j); [|lia]. rewrite NoDup_nth_error in ND. apply ND; [apply nth_error_Some; congruence|congruence].
Qed.
Lemma Forall2_in_l {A B} (R : A -> B -> Prop) l m x : Forall2 R l m -> In x l -> exists y, In y m /\ R x y.
Proof. intros F I1. induction F as [|a b l m X F IH]; [destruct I1|]. destruct I1 as [->|I1]; [exists b; split; [left; reflexivity|exact X]|]. destruct (IH I1) as (y & Y1 & Y2). exists y. split; [right; exact Y1|exact Y2]. Qed.
Lemma kerning_step_get b op : op_typed op -> kerning_fine b -> forall p n,
  match m_get pair_eqb (b_horz (bstep b op)) (p, n) with Some k => kp_Value k | None => 0 end =
  match op with OSetKerningPair p' n' k => if (p' =? p) && (n' =? n) then k else match m_get pair_eqb (b_horz b) (p, n) with Some k => kp_Value k | None => 0 end
    | _ => match m_get pair_eqb (b_horz b) (p, n) with Some k => kp_Value k | None => 0 end end.
Proof.
  intros HT HF p n. pose proof (frame_kerning b op) as F. destruct op; try (rewrite F; reflexivity). clear F.
  cbn [bstep]. unfold SetKerningPair.
  assert (E : pair_eqb (p, n) (prev, next) = (prev =? p) && (next =? n)) by (unfold pair_eqb; cbn [fst snd]; rewrite (Z.eqb_sym p), (Z.eqb_sym n); reflexivity).
  destruct (Z.eqb_spec kerning 0) as [->|N]; cbn [with_kerning b_horz].
  - rewrite (m_get_del _ pair_eqb_true), E. destruct ((prev =? p) && (next =? n)); reflexivity.
  - rewrite (m_get_set _ pair_eqb_true), E. destruct ((prev =? p) && (next =? n)); reflexivity.
Qed.
Lemma last_kerning_get id date ops p n : date_typed date -> Forall op_typed ops ->
  match m_get pair_eqb (b_horz (history id date ops)) (p, n) with Some k => kp_Value k | None => 0 end = last_kerning ops p n.
Proof.
  intros HD HT. induction ops as [|op ops IH] using rev_ind; [reflexivity|]. apply Forall_app in HT. destruct HT as [HT H1]. apply Forall_inv in H1.
  unfold last_kerning, history. rewrite !fold_left_app. cbn [fold_left]. fold (history id date ops). fold (last_kerning ops p n).
  rewrite kerning_step_get; [|exact H1|exact (fn_kerning _ (fine_history id date ops HD HT))]. rewrite IH by exact HT. reflexivity.
Qed.
Lemma kernings_survive id date ops o sort b' f i j u v :
  date_typed date -> Forall op_typed ops -> perm_order o -> (forall l, Permutation l (sort l)) ->
  Build o sort (history id date ops) = (b', Ok f) ->
  zget (b_order b') i = Ok u -> zget (b_order b') j = Ok v ->
  kerning_Get f i j = Ok (last_kerning ops u v).
Proof.
  intros HD HT HO HS HB Hi Hj. destruct (built_history _ _ _ _ _ _ _ HD HT HO HS HB) as (l & -> & DS & BT & FN & _ & _ & E & HT').
  assert (EK : last_kerning ops u v = last_kerning (ops ++ [OBuild o sort]) u v) by (unfold last_kerning; rewrite fold_left_app; reflexivity).
  rewrite EK, <- (last_kerning_get id date _ u v HD HT'), <- E.
  destruct (ds_horz _ _ DS) as (O1 & p & P1 & P2). destruct (bt_horz _ _ _ BT) as [K1 K2].
  pose proof (bt_glyphs _ _ _ BT) as LG. unfold MaxGlyphs in LG. destruct (fn_kerning _ FN) as [N1 N2]. destruct (fn_glyphs _ FN) as (G1 & G2 & _).
  assert (ND : NoDup (b_order b')) by (rewrite G2; exact G1).
  assert (RNG : Forall pair_in_range (l_horz l)).
  { apply Forall_forall. intros [[a c] w] I1. destruct (Forall2_in_r _ _ _ _ P2 I1) as (x & I2 & X1 & X2 & k & X3 & X4). apply zget_ok_range in X1, X2. destruct (N2 _ _ X3) as [C1 C2].
    destruct X4 as [[_ ->]|[X4 _]]; [|congruence]. unfold pair_in_range. cbn. lia. }
  assert (OO : ordered (fun p q => pair_key p < pair_key q) (l_horz l)).
  { clear - O1. induction (l_horz l) as [|x r IH]; [exact I|]. destruct O1 as [O1 O2]. split; [|exact (IH O2)]. intros y Y. apply O1, in_map, Y. }
  pose proof (zget_ok_range _ _ _ Hi) as Ri. pose proof (zget_ok_range _ _ _ Hj) as Rj.
  destruct (kerning_found (Data (font_of l)) (OffsetToHorzKernings (font_of l)) (l_horz l) i j (st_horz l) OO RNG) as [F1 F2]; [lia..|].
  change (kerning_Get (font_of l) i j = Ok match m_get pair_eqb (b_horz b') (u, v) with Some k => kp_Value k | None => 0 end).
  assert (AT : forall a c w, In (a, c, w) (l_horz l) -> exists x y k, indexed_as b' x a /\ indexed_as b' y c /\ In (x, y, k) (b_horz b') /\ w = kp_Value k).
  { intros a c w I1. destruct (Forall2_in_r _ _ _ _ P2 I1) as ([[x y] k0] & I2 & X1 & X2 & k & X3 & X4). cbn [fst snd] in *. exists x, y, k.
    repeat (split; [assumption|]). destruct X4 as [[_ X4]|[X4 _]]; [exact X4|]. destruct (N2 _ _ X3) as [X5 _]. congruence. }
  destruct (m_get pair_eqb (b_horz b') (u, v)) as [k|] eqn:M.
  - apply F1. apply (m_get_in _ pair_eqb_true) in M. pose proof (Permutation_in _ (Permutation_sym P1) M) as M2.
    destruct (Forall2_in_l _ _ _ _ P2 M2) as ([[a c] w] & I2 & X1 & X2 & k' & X3 & X4). cbn [fst snd] in *.
    assert (a = i) by (eapply nodup_zget; eassumption). assert (c = j) by (eapply nodup_zget; eassumption). subst a c.
    apply (m_get_unique _ pair_eqb_true _ _ _ N1) in M. apply (m_get_unique _ pair_eqb_true _ _ _ N1) in X3. rewrite M in X3. inversion X3. subst k'.
    destruct X4 as [[_ X4]|[X4 _]]; [rewrite <- X4; exact I2|]. apply (m_get_in _ pair_eqb_true) in M. destruct (N2 _ _ M) as [X5 _]. congruence.
  - apply F2. intros w I1. destruct (AT _ _ _ I1) as (x & y & k & X1 & X2 & X3 & _). unfold indexed_as in *.
    assert (x = u) by congruence. assert (y = v) by congruence. subst x y. apply (m_get_unique _ pair_eqb_true _ _ _ N1) in X3. congruence.
Qed.

(** ** C43 *)
Definition target_of (e : mappingEntry) : Z * list (list Z) := (me_Switch e, map mg_Glyphs (me_Cases e)).
Lemma cases_glyphs fl groups : forall acc i cs n,
  ofold (fun '(cases, i) group => do x <- zget fl i; Ok (cases ++ [mkMapGroup group x], i + 1)) groups (acc, i) = Ok (cs, n) ->
  map mg_Glyphs cs = map mg_Glyphs acc ++ groups.
Proof.
  induction groups as [|g r IH]; intros acc i cs n H; cbn [ofold] in H.
  { inversion H. rewrite app_nil_r. reflexivity. }
  apply bind_ok in H as ([a k] & H1 & H). apply bind_ok in H1 as (x & _ & H1). inversion H1. subst.
  rewrite (IH _ _ _ _ H), map_app, <- app_assoc. reflexivity.
Qed.
Lemma mapping_step_get b op cp :
  option_map target_of (m_get Z.eqb (b_mapping (bstep b op)) cp) =
  match mapping_call b op with
  | Some (c, m) => if c =? cp then Some m else option_map target_of (m_get Z.eqb (b_mapping b) cp)
  | None => option_map target_of (m_get Z.eqb (b_mapping b) cp) end.
Proof.
  pose proof (frame_mapping b op) as F. destruct op; try (rewrite F; reflexivity); clear F; cbn [bstep mapping_call].
  - unfold succeeds, Map. destruct (_ <? 32); [reflexivity|]. destruct (negb _); [reflexivity|]. cbn [fst snd with_mapping b_mapping].
    rewrite (m_get_set _ Z.eqb_eq), (Z.eqb_sym cp). destruct (_ =? cp); reflexivity.
  - unfold succeeds, MapGroup. destruct (_ <? 32); [reflexivity|]. destruct (_ <? 2); [reflexivity|]. destruct (_ >? 127); [reflexivity|].
    destruct (negb _); [reflexivity|]. cbn [fst snd with_mapping b_mapping]. rewrite (m_get_set _ Z.eqb_eq), (Z.eqb_sym cp). destruct (_ =? cp); reflexivity.
  - unfold succeeds, MapWithSwitchSingles. destruct (_ <? 32); [reflexivity|]. destruct (_ >=? 254); [reflexivity|]. destruct (_ >=? _); [reflexivity|].
    destruct (computeNumSwitchCases b switch); try reflexivity. destruct (negb _); [reflexivity|]. cbn [fst snd with_mapping b_mapping].
    rewrite (m_get_set _ Z.eqb_eq), (Z.eqb_sym cp). destruct (_ =? cp); [|reflexivity]. cbn [option_map]. unfold target_of. cbn [me_Switch me_Cases]. rewrite map_map. reflexivity.
  - unfold succeeds, MapWithSwitch. destruct (_ <? 32); [reflexivity|]. destruct (_ >=? 254); [reflexivity|]. destruct (_ >=? _); [reflexivity|]. cbv zeta.
    match goal with |- context [match ?c with Ok cs => (with_mapping _ _, _) | _ => _ end] => destruct c as [cs| | |] eqn:E end; try reflexivity.
    cbn [fst snd with_mapping b_mapping]. rewrite (m_get_set _ Z.eqb_eq), (Z.eqb_sym cp). destruct (_ =? cp); [|reflexivity].
    cbn [option_map]. unfold target_of. cbn [me_Switch me_Cases].
    apply bind_ok in E as (n & _ & E). destruct (negb _); [discriminate|]. apply bind_ok in E as (fl & _ & E). apply bind_ok in E as ([cs' k] & E1 & E).
    inversion E. subst cs'. rewrite (cases_glyphs _ _ _ _ _ _ E1). reflexivity.
Qed.
Lemma last_mapping_get id date ops cp :
  last_mapping id date ops cp = option_map target_of (m_get Z.eqb (b_mapping (history id date ops)) cp).
Proof.
  unfold last_mapping, history.
  enough (H : forall b last, last = option_map target_of (m_get Z.eqb (b_mapping b) cp) ->
    snd (fold_left (fun '(b, last) op =>
         (bstep b op, match mapping_call b op with Some (c, m) => if c =? cp then Some m else last | None => last end))
       ops (b, last)) = option_map target_of (m_get Z.eqb (b_mapping (fold_left bstep ops b)) cp)) by (apply H; reflexivity).
  induction ops as [|op ops IH]; intros b last E; [exact E|]. cbn [fold_left]. apply IH. rewrite mapping_step_get, E. reflexivity.
Qed.
Lemma last_mapping_built id date ops o sort cp : last_mapping id date (ops ++ [OBuild o sort]) cp = last_mapping id date ops cp.
Proof. unfold last_mapping. rewrite fold_left_app. destruct (fold_left _ ops _) as [b last]. reflexivity. Qed.

Lemma ordered_map_zseq first n : ordered Z.le (map (fun i => first + i) (zseq n)).
Proof.
  unfold zseq. generalize (Z.to_nat n). intros m. enough (H : forall a, ordered Z.le (map (fun i => first + i) (map Z.of_nat (seq a m)))) by apply H.
  induction m as [|m IH]; intros a; [exact I|]. cbn [seq map ordered]. split; [|apply IH]. intros y I1. apply in_map_iff in I1. destruct I1 as (z & <- & I1).
  apply in_map_iff in I1. destruct I1 as (k & <- & I1). apply in_seq in I1. lia.
Qed.
Lemma byte_flags_one g : zlen (group_glyphs g) = 1 -> byte (group_flags g).
Proof. intros H. unfold group_flags. rewrite H. change (1 =? 1) with true. cbv iota. unfold byte. lia. Qed.
Definition choices_shown (b : builder) (f : Font) (gg : GlyphMappingGroup) (uids : list Z) : Prop :=
  group_Size f gg = Ok (zlen uids) /\
  (forall i, zlen uids <= i -> group_Select f gg i = Panic) /\
  (consecutive b uids -> forall i uid, zget uids i = Ok uid ->
     exists idx, zget (b_order b) idx = Ok uid /\ group_Select f gg i = Ok idx).
Lemma group_shown b f gg c g : NoDup (b_order b) -> zlen (b_order b) <= MaxGlyphs -> byte (mg_Flags c) ->
  group_found f gg g -> group_described b c g -> group_in_range g /\ choices_shown b f gg (mg_Glyphs c).
Proof.
  intros ND LB FL GF (D1 & D2 & (idxs & D3 & D4) & D5 & D6).
  assert (L : zlen (group_glyphs g) = zlen (mg_Glyphs c)) by (unfold zlen; rewrite (Permutation_length D4), <- (Forall2_len _ _ _ D3); reflexivity).
  assert (GR : group_in_range g).
  { split; [lia|]. split.
    - destruct (Z.eq_dec (zlen (mg_Glyphs c)) 1) as [E|E]; [|rewrite (D5 E); exact FL]. apply byte_flags_one; lia.
    - apply Forall_forall. intros i I1. apply (Permutation_in _ D4) in I1. destruct (Forall2_in_r _ _ _ _ D3 I1) as (u & _ & X). apply zget_ok_range in X. unfold MaxGlyphs in LB. lia. }
  split; [exact GR|]. split; [rewrite (group_size f gg g GF GR), L; reflexivity|]. split; [intros i Hi; apply (select_out f gg g GF GR); lia|].
  intros (first & C) i uid Hi. exists (first + i). split; [apply C; exact Hi|].
  assert (EI : idxs = map (fun k => first + k) (zseq (zlen (mg_Glyphs c)))).
  { clear - D3 C ND. revert first C. induction D3 as [|u x us xs X D3 IH]; intros first C; [reflexivity|].
    assert (x = first + 0) by (eapply nodup_zget; [exact ND|exact X|apply C; reflexivity]). subst x.
    replace (zlen (u :: us)) with (zlen us + 1) by (rewrite zlen_cons; lia). rewrite (IH (first + 1)).
    - clear. unfold zseq. rewrite Z2Nat.inj_add by (pose proof (zlen_nonneg us); lia). change (Z.to_nat 1) with 1%nat. rewrite Nat.add_1_r. cbn [seq map]. f_equal.
      rewrite <- seq_shift, !map_map. apply map_ext. intros k. lia.
    - intros k u' K. replace (first + 1 + k) with (first + (k + 1)) by lia. apply C. pose proof (zget_ok_range _ _ _ K). change (u :: us) with ([u] ++ us).
      rewrite zget_app_r by (change (zlen [u]) with 1; lia). change (zlen [u]) with 1. replace (k + 1 - 1) with k by lia. exact K. }
  assert (EG : group_glyphs g = map (fun k => first + k) (zseq (zlen (mg_Glyphs c)))).
  { apply ordered_unique; [exact D2|apply ordered_map_zseq|]. rewrite D4, EI. reflexivity. }
  pose proof (zget_ok_range _ _ _ Hi) as RI.
  assert (GI : zget (group_glyphs g) i = Ok (first + i)) by (rewrite EG, zget_map, zget_zseq_eq by exact RI; reflexivity).
  apply (select_in f gg g GF GR); [|lia].
  destruct (Z.eq_dec (zlen (mg_Glyphs c)) 1) as [E|E]; [assert (i = 0) by lia; subst i; destruct g; exact GI|].
  assert (E1 : g = GRange (mg_Flags c) first (zlen (mg_Glyphs c))) by (apply D6; [lia|exact EG]). rewrite E1 in *. exact GI.
Qed.

Definition in_int32 (cp : Z) : Prop := -2147483648 <= cp < 2147483648.
Lemma mapping_survives id date ops o sort b' f cp settings :
  date_typed date -> Forall op_typed ops -> perm_order o -> (forall l, Permutation l (sort l)) ->
  Build o sort (history id date ops) = (b', Ok f) -> mapping_fits b' f -> in_int32 cp ->
  match last_mapping id date ops cp with
  | None => mapping_Utf8 f cp settings = Ok None
  | Some (k, groups) => forall case uids,
      (k < 254 -> mapping_EvaluateSwitch f k settings = Ok case /\ Forall (fun g => zlen g = 1) (firstn (Z.to_nat case) groups)) ->
      (254 <= k -> case = 0) -> zget groups case = Ok uids ->
      exists gg, mapping_Utf8 f cp settings = Ok (Some gg) /\ choices_shown b' f gg uids
  end.
Proof.
  intros HD HT HO HS HB PL Hcp. destruct (built_history _ _ _ _ _ _ _ HD HT HO HS HB) as (l & -> & DS & BT & FN & _ & _ & E & HT').
  rewrite <- (last_mapping_built id date ops o sort), last_mapping_get, <- E.
  destruct (ds_mapping _ _ DS) as (M1 & m & M2 & M3). destruct (fn_mapping _ FN) as [N1 N2]. destruct (fn_glyphs _ FN) as (G1 & G2 & _).
  assert (ND : NoDup (b_order b')) by (rewrite G2; exact G1). pose proof (bt_mapping _ _ _ BT) as LM. unfold MaxGlyphs in LM.
  assert (K : Forall (fun x => 0 <= fst x < 2147483648) (l_mapping l)).
  { apply Forall_forall. intros y I1. destruct (Forall2_in_r _ _ _ _ M3 I1) as ([c e] & I2 & E1 & _). cbn [fst] in E1. rewrite <- E1. apply (Permutation_in _ M2) in I2. destruct (N2 _ _ I2) as [X _]. lia. }
  assert (SZ : zlen (concat (map (fun x => entry_bytes (snd x)) (l_mapping l))) < 16777216).
  { unfold mapping_fits in PL. cbn [font_of OffsetToRewriteConditions OffsetToMapping] in PL. rewrite (section_size l 10 _ eq_refl) in PL. unfold mapping_bytes in PL.
    rewrite !zlen_app, zlen_indexed, zlen_map, zlen_le_digits in PL. rewrite (zlen_concat_fixed _ 4) in PL by reflexivity.
    assert (E1 : zlen (b_mapping b') = zlen (l_mapping l)) by (rewrite <- (F2_zlen _ _ _ M3); unfold zlen; rewrite (Permutation_length M2); reflexivity).
    rewrite E1 in PL. unfold total in PL. change (Z.of_nat 2) with 2 in PL. change (Z.of_nat 3) with 3 in PL. lia. }
  pose proof (st_mapping l) as ST. assert (LM2 : zlen (l_mapping l) < 65536) by lia.
  destruct (m_get Z.eqb (b_mapping b') cp) as [e|] eqn:ME; cbn [option_map].
  - unfold target_of. intros case uids H1 H2 H3. apply (m_get_in _ Z.eqb_eq) in ME. destruct (N2 _ _ ME) as (_ & NS & NF).
    pose proof (Permutation_in _ (Permutation_sym M2) ME) as I1. destruct (Forall2_in_l _ _ _ _ M3 I1) as ([cp' y] & I2 & E1 & X). cbn [fst snd] in *. subst cp'.
    pose proof (proj2 (bt_glyphs _ _ _ BT)) as LG. destruct y as [i|g|k gs]; cbn [entry_described] in X.
    + destruct X as (X1 & uid & fl & X2 & X3). rewrite X1, X2 in *. cbn [map mg_Glyphs] in H3. rewrite H2 in H3 by lia. inversion H3. subst uids.
      destruct (lookup_glyph _ _ ST M1 K LM2 SZ cp i settings I2) as (gg & A & B & C & _). exists gg. split; [exact A|].
      assert (RI : 0 <= i < 65536) by (apply zget_ok_range in X3; unfold MaxGlyphs in LG; lia).
      split; [apply direct_size; exact B|]. split; [intros j Hj; change (zlen [uid]) with 1 in Hj; rewrite (direct_select _ _ i) by assumption; destruct (Z.eqb_spec j 0); [lia|reflexivity]|].
      intros _ j u Hu. pose proof (zget_ok_range _ _ _ Hu) as RJ. change (zlen [uid]) with 1 in RJ. assert (j = 0) by lia. subst j. inversion Hu. subst u.
      exists i. split; [exact X3|]. rewrite (direct_select _ _ i) by assumption. reflexivity.
    + destruct X as (X1 & c & X2 & X3 & X4). rewrite X1, X2 in *. cbn [map] in H3. rewrite H2 in H3 by lia. inversion H3. subst uids.
      destruct (lookup_group _ _ ST M1 K LM2 SZ cp g settings I2) as (gg & A & B & _). exists gg. split; [exact A|].
      apply (group_shown b' _ gg c g ND LG (Forall_inv NF) B X4).
    + destruct X as (X1 & X2 & X3 & X4). rewrite X1 in *. unfold byte in NS. destruct H1 as [H1 H4]; [lia|].
      rewrite zget_map in H3. apply bind_ok in H3 as (c & H3 & H5). inversion H5. subst uids.
      destruct (Forall2_zget _ _ _ case X4) as [(c' & g & Y1 & Y2 & Y3)|[Y1 _]]; [|congruence]. assert (c' = c) by congruence. subst c'.
      assert (GR : Forall group_in_range gs).
      { apply Forall_forall. intros g' I3. destruct (Forall2_in_r _ _ _ _ X4 I3) as (c' & I4 & X5). rewrite Forall_forall in NF. specialize (NF _ I4).
        destruct X5 as (D1 & D2 & (idxs & D3 & D4) & D5 & D6).
        assert (L : zlen (group_glyphs g') = zlen (mg_Glyphs c')) by (unfold zlen; rewrite (Permutation_length D4), <- (Forall2_len _ _ _ D3); reflexivity).
        split; [lia|]. split.
        - destruct (Z.eq_dec (zlen (mg_Glyphs c')) 1) as [E3|E3]; [|rewrite (D5 E3); exact NF]. apply byte_flags_one; lia.
        - apply Forall_forall. intros i I5. apply (Permutation_in _ D4) in I5. destruct (Forall2_in_r _ _ _ _ D3 I5) as (u & _ & Y). apply zget_ok_range in Y. unfold MaxGlyphs in LG. lia. }
      destruct (lookup_switch _ _ ST M1 K LM2 SZ cp k gs settings case g I2 ltac:(lia) H1 Y2 GR) as (gg & A & B & _).
      { rewrite <- map_firstn in H4 || rewrite firstn_map in H4. revert H4. clear - X4. generalize (Z.to_nat case). intros n. revert n. induction X4 as [|c g cs gs X X4 IH]; intros n H4; [destruct n; constructor|].
        destruct n; [constructor|]. cbn [firstn map] in *. pose proof (Forall_inv H4) as Q. apply Forall_inv_tail in H4. constructor; [|apply IH; exact H4].
        destruct X as (D1 & D2 & (idxs & D3 & D4) & _).
        assert (L : zlen (group_glyphs g) = zlen (mg_Glyphs c)) by (unfold zlen; rewrite (Permutation_length D4), <- (Forall2_len _ _ _ D3); reflexivity).
        rewrite Q in L. destruct g as [fl gl|fl fi si]; cbn [group_glyphs skippable] in *; [lia|]. left. rewrite zlen_map in L.
        destruct (Z_le_dec 0 si); [rewrite zlen_zseq in L by lia; exact L|]. unfold zseq in L. replace (Z.to_nat si) with 0%nat in L by lia. discriminate. }
      exists gg. split; [exact A|]. rewrite Forall_forall in NF. apply (group_shown b' _ gg c g ND LG (NF _ (zget_in _ _ _ Y1)) B Y3).
  - apply (lookup_missing _ _ ST M1 K LM2); [exact Hcp|]. intros e I1. apply (proj1 (m_get_none _ Z.eqb_eq _ _) ME).
    destruct (Forall2_in_r _ _ _ _ M3 I1) as ([c e'] & I2 & E1 & _). cbn [fst] in E1. subst c. apply (Permutation_in _ M2) in I2. apply in_map_iff. exists (cp, e'). auto.
Qed.
Lemma no_vertical id date ops o sort b' f i j :
  date_typed date -> Forall op_typed ops -> perm_order o -> (forall l, Permutation l (sort l)) ->
  Build o sort (history id date ops) = (b', Ok f) -> 0 <= i < 65536 -> 0 <= j < 65536 -> kerning_GetVert f i j = Ok 0.
Proof.
  intros HD HT HO HS HB Hi Hj. destruct (built_history _ _ _ _ _ _ _ HD HT HO HS HB) as (l & -> & DS & BT & _).
  pose proof (st_vert l) as ST. rewrite (bt_vert _ _ _ BT) in ST.
  apply (kerning_found (Data (font_of l)) (OffsetToVertKernings (font_of l)) [] i j ST); try assumption; try (cbn; exact I); [constructor|reflexivity|intros v []].
Qed.
