(** Build and the order in which the maps are visited. *)
From Coq Require Import Permutation.
From Verif Require Import Base BaseFacts Spec_Helpers Model_Helpers Proofs_Helpers Spec_Names Model_Names Proofs_Names Model_Date
  Model_Mask Spec_Mask Model_Font Model_Words Model_Parse Spec_Format Proofs_Format Spec_Layout Spec_LayoutFont
  Model_Builder Spec_Builder Spec_Survive Proofs_Builder Proofs_Build Proofs_Build2 Proofs_Build3 Proofs_Build4 Proofs_Font.

(** ** Sorted lists do not depend on the order *)
Lemma ordered_unique l : forall l', ordered Z.le l -> ordered Z.le l' -> Permutation l l' -> l = l'.
Proof.
  induction l as [|x r IH]; intros l' O O' P.
  { apply Permutation_nil in P. symmetry. exact P. }
  destruct l' as [|y r']; [apply Permutation_sym, Permutation_nil in P; discriminate|].
  destruct O as [O1 O2]. destruct O' as [O1' O2'].
  assert (E : x = y).
  { assert (I1 : In x (y :: r')) by (apply (Permutation_in _ P); left; reflexivity).
    assert (I2 : In y (x :: r)) by (apply (Permutation_in _ (Permutation_sym P)); left; reflexivity).
    destruct I1 as [I1|I1]; [auto|]. destruct I2 as [I2|I2]; [auto|]. apply O1' in I1. apply O1 in I2. lia. }
  subst y. f_equal. apply IH; [assumption..|]. apply Permutation_cons_inv in P. exact P.
Qed.
Lemma sort_unique l l' : Permutation l l' -> go_sort Z.leb l = go_sort Z.leb l'.
Proof.
  intros P.
  assert (O : forall k, ordered Z.le (go_sort Z.leb k)) by (intros k; apply go_sort_ordered; [intros; lia|intros a c X; apply Z.leb_le; exact X|intros a c X; apply Z.leb_gt in X; lia]).
  apply ordered_unique; [apply O..|]. rewrite !go_sort_perm. exact P.
Qed.
Definition total_or_panic {A B} (f : A -> outcome B) : Prop := forall x, (exists y, f x = Ok y) \/ f x = Panic.
Lemma omap_perm {A B} (f : A -> outcome B) l l' : total_or_panic f -> Permutation l l' ->
  (omap f l = Panic /\ omap f l' = Panic) \/ exists r r', omap f l = Ok r /\ omap f l' = Ok r' /\ Permutation r r'.
Proof.
  intros T. induction 1 as [|x l l' P IH|x y l|l1 l2 l3 P1 IH1 P2 IH2]; cbn [omap].
  - right. exists [], []. auto.
  - destruct (T x) as [(v & ->)| ->]; [|left; auto]. cbn [bind].
    destruct IH as [[-> ->]|(r & r' & -> & -> & Q)]; [left; auto|]. right. exists (v :: r), (v :: r'). cbn [bind]. auto.
  - assert (TL : omap f l = Panic \/ exists r, omap f l = Ok r).
    { clear - T. induction l as [|z l IH]; cbn [omap]; [right; eauto|]. destruct (T z) as [(v & ->)| ->]; [|left; auto]. cbn [bind].
      destruct IH as [->|(r & ->)]; cbn [bind]; [left; auto|right; eauto]. }
    destruct (T x) as [(v & ->)| ->]; destruct (T y) as [(w & ->)| ->]; cbn [bind]; try (left; auto; fail).
    destruct TL as [->|(r & ->)]; cbn [bind]; [left; auto|]. right. exists (w :: v :: r), (v :: w :: r). repeat split. apply perm_swap.
  - destruct IH1 as [[E1 E2]|(r1 & r2 & E1 & E2 & Q1)]; destruct IH2 as [[F1 F2]|(r2' & r3 & F1 & F2 & Q2)]; try congruence; [left; auto|].
    right. exists r1, r3. split; [exact E1|]. split; [exact F2|]. rewrite F1 in E2. inversion E2. subst. rewrite Q1. exact Q2.
Qed.
Lemma orders_perm o1 o2 n A (l : list A) : perm_order o1 -> perm_order o2 -> Permutation (o1 n _ l) (o2 n _ l).
Proof. intros H1 H2. rewrite (H1 n A l), (H2 n A l). reflexivity. Qed.
Ltac reorder o1 o2 H1 H2 := match goal with |- context [omap ?f (o1 ?n ?A ?l)] =>
  let T := fresh in assert (T : total_or_panic f);
    [|let r := fresh in let r' := fresh in let E := fresh in let Q := fresh in
      destruct (omap_perm f (o1 n A l) (o2 n A l) T (orders_perm o1 o2 n A l H1 H2)) as [[-> ->]|(r & r' & -> & -> & Q)];
      [reflexivity|cbn [bind]; rewrite (sort_unique _ _ Q); reflexivity]] end.

Lemma build_mapping_order o1 o2 b lookup data : perm_order o1 -> perm_order o2 ->
  build_mapping o1 b lookup data = build_mapping o2 b lookup data.
Proof.
  intros H1 H2. unfold build_mapping. cbv zeta. destruct (zlen (b_mapping b) >? MaxGlyphs); [reflexivity|].
  destruct (u16 (zlen (b_mapping b)) >? 0); [|reflexivity].
  reorder o1 o2 H1 H2.
  intros x. destruct (fst x <? 0); [right; reflexivity|left; eauto].
Qed.
Lemma build_kernings_order o1 o2 n b lookup pairs data : perm_order o1 -> perm_order o2 ->
  build_kernings o1 n b lookup pairs data = build_kernings o2 n b lookup pairs data.
Proof.
  intros H1 H2. unfold build_kernings. cbv zeta.
  reorder o1 o2 H1 H2.
  intros x. unfold pair_code, look. destruct (m_get Z.eqb lookup (fst (fst x))); [|right; reflexivity]. cbn [bind].
  destruct (m_get Z.eqb lookup (snd (fst x))); [left; cbn [bind]; eauto|right; reflexivity].
Qed.

(** ** Words: at most one of the builder's own *)
Lemma list_of_keys {K V} (g : K -> V) (l : list (K * V)) : (forall k v, In (k, v) l -> v = g k) ->
  l = map (fun k => (k, g k)) (map fst l).
Proof.
  induction l as [|[k v] r IH]; intros H; [reflexivity|]. cbn [map fst]. rewrite (H k v (or_introl eq_refl)) at 1.
  f_equal. apply IH. intros k' v' I1. apply H. right. exact I1.
Qed.
Lemma not_builtin w : m_get list_eqb builtin_words w = None -> own_word w.
Proof.
  intros H i E. assert (R : byte i).
  { unfold byte. destruct (Z_lt_dec i 0); [|destruct (Z_lt_dec 255 i)]; [| |lia];
      (rewrite predefined_panic in E; [discriminate|unfold byte; lia]). }
  apply (m_get_none _ list_eqb_true) in H. apply H.
  assert (C : forallb (fun i => match GetPredefinedWord i with Ok w => m_has list_eqb builtin_words w | _ => true end) (zseq 256) = true) by (vm_compute; reflexivity).
  rewrite forallb_forall in C. specialize (C i). rewrite E in C. apply (m_has_true _ list_eqb_true). apply C. apply in_zseq. unfold byte in R. lia.
Qed.

(** the words with at most one own word: index 0 *)
Definition one_index (w : list Z) : Z := match m_get list_eqb builtin_words w with Some i => - i | None => 0 end.
Definition one_words (words : list (list Z * Z)) : list (list Z * Z) :=
  filter (fun e => negb (snd e <? 0)) (map (fun w => (w, one_index w)) (map fst words)).
Definition is_own (w : list Z) : bool := match m_get list_eqb builtin_words w with Some _ => false | None => true end.
Lemma m_set_in_inv (m : list (list Z * Z)) k v k' v' : NoDup (map fst m) -> In (k', v') (m_set list_eqb m k v) ->
  (k' = k /\ v' = v) \/ (k' <> k /\ In (k', v') m).
Proof.
  intros ND H. apply (m_get_unique _ list_eqb_true) in H; [|apply (m_set_nodup _ list_eqb_true); exact ND].
  rewrite (m_get_set _ list_eqb_true) in H. destruct (list_eqb k' k) eqn:E.
  - apply list_eqb_true in E. inversion H. auto.
  - right. split; [intros ->; rewrite list_eqb_refl in E; discriminate|]. apply (m_get_in _ list_eqb_true). exact H.
Qed.
Lemma assign_one : forall entries words custom minb words' custom' minb',
  NoDup (map fst entries) -> NoDup (map fst words) -> incl (map fst entries) (map fst words) -> 10 <= minb ->
  custom + zlen (filter is_own (map fst entries)) <= 1 -> 0 <= custom ->
  fold_left (assign_word builtin_words) entries (words, custom, minb) = (words', custom', minb') ->
  custom' <= 1 /\ 10 <= minb' /\ map fst words' = map fst words /\
  forall w i, In (w, i) words' -> (In w (map fst entries) /\ i = one_index w) \/ (~ In w (map fst entries) /\ In (w, i) words).
Proof.
  induction entries as [|[w v] r IH]; intros words custom minb words' custom' minb' N1 N2 I1 MB CU C0; cbn [fold_left map].
  { intros H. inversion H. subst. cbn in CU. rewrite zlen_nil in CU. repeat split; try lia. intros w i Hw. right. cbn. auto. }
  cbn [map fst] in N1, I1. apply NoDup_cons_iff in N1. destruct N1 as [N0 N1].
  assert (K : In w (map fst words)) by (apply I1; left; reflexivity).
  cbn [map fst filter] in CU. unfold is_own at 1 in CU. unfold assign_word at 2. cbn [fst].
  destruct (m_get list_eqb builtin_words w) as [j|] eqn:G.
  - pose proof (builtin_get_facts w j G) as [J _]. intros H.
    apply IH in H; [|exact N1|apply (m_set_nodup _ list_eqb_true); exact N2|rewrite m_set_keys_in by exact K; intros x X; apply I1; right; exact X
      |destruct (j <? minb); lia|exact CU|exact C0].
    destruct H as (H1 & H2 & H3 & H4). split; [exact H1|]. split; [exact H2|]. split; [rewrite H3; apply m_set_keys_in; exact K|].
    intros x i X. destruct (H4 x i X) as [[Y1 Y2]|[Y1 Y2]]; [left; split; [right; exact Y1|exact Y2]|].
    apply m_set_in_inv in Y2; [|exact N2]. destruct Y2 as [[-> ->]|[Y2 Y3]].
    + left. split; [left; reflexivity|]. unfold one_index. rewrite G. reflexivity.
    + right. split; [|exact Y3]. intros [Y|Y]; cbn [fst] in *; congruence.
  - rewrite zlen_cons in CU. pose proof (zlen_nonneg (filter is_own (map fst r))) as NN. intros H.
    apply IH in H; [|exact N1|apply (m_set_nodup _ list_eqb_true); exact N2|rewrite m_set_keys_in by exact K; intros x X; apply I1; right; exact X
      |exact MB|lia|lia].
    destruct H as (H1 & H2 & H3 & H4). split; [exact H1|]. split; [exact H2|]. split; [rewrite H3; apply m_set_keys_in; exact K|].
    intros x i X. destruct (H4 x i X) as [[Y1 Y2]|[Y1 Y2]]; [left; split; [right; exact Y1|exact Y2]|].
    apply m_set_in_inv in Y2; [|exact N2]. destruct Y2 as [[-> ->]|[Y2 Y3]].
    + left. split; [left; reflexivity|]. unfold one_index. rewrite G. lia.
    + right. split; [|exact Y3]. intros [Y|Y]; cbn [fst] in *; congruence.
Qed.
Lemma is_own_spec w : is_own w = true <-> own_word w.
Proof.
  unfold is_own. split.
  - destruct (m_get list_eqb builtin_words w) eqn:E; [discriminate|]. intros _. apply not_builtin. exact E.
  - intros H. destruct (m_get list_eqb builtin_words w) as [i|] eqn:E; [|reflexivity]. apply builtin_get_facts in E. destruct E as [_ E]. destruct (H i E).
Qed.
Lemma one_own l : NoDup l -> (forall v w, In v l -> In w l -> own_word v -> own_word w -> v = w) -> zlen (filter is_own l) <= 1.
Proof.
  intros ND H. apply (NoDup_filter is_own) in ND.
  assert (H' : forall v w, In v (filter is_own l) -> In w (filter is_own l) -> v = w).
  { intros v w V W. apply filter_In in V, W. apply H; try tauto; apply is_own_spec; tauto. }
  destruct (filter is_own l) as [|v [|w r]]; [rewrite zlen_nil; lia|rewrite zlen_cons, zlen_nil; lia|].
  exfalso. assert (E : v = w) by (apply H'; cbn; auto). subst w. apply NoDup_cons_iff in ND. apply (proj1 ND). left. reflexivity.
Qed.
Lemma organize_one o words : perm_order o -> NoDup (map fst words) -> zlen (filter is_own (map fst words)) <= 1 ->
  organizeWords o builtin_words words = if zlen words >? 255 then Err "setting options require too many words" else Ok (one_words words).
Proof.
  intros HO ND ONE. unfold organizeWords. destruct (zlen words >? 255) eqn:L; [reflexivity|]. cbv zeta.
  destruct (fold_left (assign_word builtin_words) (o 0%nat _ words) (words, 0, 65535)) as [[w1 c1] m1] eqn:F.
  pose proof (HO 0%nat _ words) as P.
  assert (INK : forall w, In w (map fst (o 0%nat _ words)) <-> In w (map fst words)).
  { intros w. split; apply Permutation_in; apply Permutation_map; [exact P|symmetry; exact P]. }
  assert (PF : zlen (filter is_own (map fst (o 0%nat _ words))) = zlen (filter is_own (map fst words))).
  { apply (Permutation_map fst) in P. revert P. generalize (map fst (o 0%nat _ words)) (map fst words). clear. intros l l' P.
    unfold zlen. f_equal. induction P as [|x l l' P IH|x y l|l1 l2 l3 P1 IH1 P2 IH2]; cbn; [reflexivity| | |congruence].
    - destruct (is_own x); cbn; lia.
    - destruct (is_own x), (is_own y); cbn; lia. }
  apply assign_one in F; [|eapply NoDup_perm_map; eassumption|exact ND|intros w; apply INK|lia|lia|lia].
  destruct F as (F1 & F2 & F3 & F4). 
  assert (MW : forall fuel, move_words fuel o 10 (w1, c1, m1) = Ok w1) by (intros [|fuel]; cbn [move_words]; (destruct (Z.ltb_spec m1 c1); [lia|reflexivity])).
  rewrite MW. cbn [bind]. f_equal. unfold one_words. f_equal. rewrite <- F3. apply list_of_keys.
  intros k v I1. destruct (F4 k v I1) as [[_ X]|[X _]]; [exact X|]. exfalso. apply X, INK. rewrite <- F3. apply in_map_iff. exists (k, v). auto.
Qed.
Lemma one_words_short words : zlen (filter is_own (map fst words)) <= 1 -> zlen (one_words words) <= 1.
Proof.
  intros H. assert (E : one_words words = map (fun w => (w, 0)) (filter is_own (map fst words))); [|rewrite E, zlen_map; exact H].
  unfold one_words. clear H. induction (map fst words) as [|w r IH]; [reflexivity|]. cbn [map filter snd]. unfold one_index at 1, is_own at 1.
  destruct (m_get list_eqb builtin_words w) as [i|] eqn:G.
  - pose proof (builtin_get_facts w i G) as [J _]. destruct (Z.ltb_spec (- i) 0); [|lia]. cbn [negb]. exact IH.
  - cbn [map]. change (negb (0 <? 0)) with true. cbv iota. f_equal; [|exact IH]. unfold one_index. rewrite G. reflexivity.
Qed.
Lemma short_order o n A (l : list A) : perm_order o -> zlen l <= 1 -> o n _ l = l.
Proof.
  intros HO H. pose proof (HO n _ l) as P. destruct l as [|x [|y r]]; [apply Permutation_sym, Permutation_nil in P; exact P|apply Permutation_sym, Permutation_length_1_inv in P; exact P|].
  rewrite !zlen_cons in H. pose proof (zlen_nonneg r). lia.
Qed.
Lemma own_collected b : at_most_one_own_word b -> zlen (filter is_own (map fst (collect_words b))) <= 1.
Proof.
  intros H. destruct (collect_words_ok b) as [C1 C2]. apply one_own; [exact C1|]. intros v w V W. apply H; apply C2; assumption.
Qed.
Lemma build_words_order o1 o2 b data : perm_order o1 -> perm_order o2 -> at_most_one_own_word b ->
  build_words o1 b data = build_words o2 b data.
Proof.
  intros H1 H2 ONE. apply own_collected in ONE. destruct (collect_words_ok b) as [C1 _]. unfold build_words. cbv zeta.
  destruct (zlen (collect_words b) >? 0) eqn:G.
  - rewrite builtin_ok. cbn [bind]. rewrite !organize_one by assumption. destruct (zlen (collect_words b) >? 255); [reflexivity|]. cbn [bind].
    pose proof (one_words_short _ ONE) as S. rewrite !(short_order o1), !(short_order o2) by assumption. reflexivity.
  - cbn [bind]. assert (E : collect_words b = []) by (pose proof (zlen_nonneg (collect_words b)); apply zlen_0_nil; lia). rewrite E.
    reflexivity.
Qed.

(** ** Build *)
Lemma build_order o1 o2 sort b : perm_order o1 -> perm_order o2 ->
  (forall data, build_words o1 (fst (main_dye b)) data = build_words o2 (fst (main_dye b)) data) -> Build o1 sort b = Build o2 sort b.
Proof.
  intros H1 H2 HW. unfold Build. split_if. reflexivity. split_if. reflexivity. split_if. reflexivity.
  destruct (build_header b); try reflexivity. destruct (GetMetricsStatus b); try reflexivity. cbv zeta.
  destruct (main_dye b) as [b' [u| | |]] eqn:M; try reflexivity. f_equal. cbn [fst] in HW. unfold build_sections. cbv zeta.
  repeat match goal with |- bind ?x _ = bind ?x _ => destruct x as [?v| | |]; cbn [bind]; [|reflexivity..] end.
  rewrite HW.
  repeat (match goal with |- bind ?x _ = bind ?x _ => destruct x as [?v| | |]; cbn [bind]; [|reflexivity..] end;
    repeat match goal with v : (_ * _)%type |- _ => destruct v end).
  rewrite (build_mapping_order o1 o2) by assumption.
  repeat (match goal with |- bind ?x _ = bind ?x _ => destruct x as [?v| | |]; cbn [bind]; [|reflexivity..] end;
    repeat match goal with v : (_ * _)%type |- _ => destruct v end).
  split_if; [reflexivity|]. split_if; [reflexivity|].
  rewrite (build_kernings_order o1 o2) by assumption.
  repeat (match goal with |- bind ?x _ = bind ?x _ => destruct x as [?v| | |]; cbn [bind]; [|reflexivity..] end).
  rewrite (build_kernings_order o1 o2) by assumption. reflexivity.
Qed.
Lemma main_dye_settings b : b_settings (fst (main_dye b)) = b_settings b.
Proof. unfold main_dye, AddDye. repeat split_if; reflexivity. Qed.
Lemma build_one_word o1 o2 sort b : perm_order o1 -> perm_order o2 -> at_most_one_own_word b -> Build o1 sort b = Build o2 sort b.
Proof.
  intros H1 H2 ONE. apply build_order; [assumption..|]. intros data. apply build_words_order; [assumption..|].
  unfold at_most_one_own_word, all_options. rewrite main_dye_settings. exact ONE.
Qed.
(** the ranges over the words are numbered 0 to 3 and from 10 *)
Lemma move_words_ext o1 o2 : (forall n A (l : list A), (10 <= n)%nat -> o1 n A l = o2 n A l) ->
  forall fuel n st, (10 <= n)%nat -> move_words fuel o1 n st = move_words fuel o2 n st.
Proof.
  intros H. induction fuel as [|fuel IH]; intros n [[w c] m] Hn; cbn [move_words]; [reflexivity|].
  rewrite H by exact Hn. destruct (m <? c); [|reflexivity]. apply IH. lia.
Qed.
Lemma build_words_ext o1 o2 b data : (forall n A (l : list A), (n <= 3 \/ 10 <= n)%nat -> o1 n A l = o2 n A l) ->
  build_words o1 b data = build_words o2 b data.
Proof.
  intros H. assert (OW : forall builtin words, organizeWords o1 builtin words = organizeWords o2 builtin words).
  { intros builtin words. unfold organizeWords. rewrite (H 0%nat) by lia. cbv zeta.
    rewrite (move_words_ext o1 o2); [reflexivity|intros n A l Hn; apply H; lia|lia]. }
  unfold build_words. cbv zeta. rewrite builtin_ok. cbn [bind]. rewrite OW.
  match goal with |- bind ?x _ = bind ?x _ => destruct x as [[bw ws]| | |]; cbn [bind]; [|reflexivity..] end.
  rewrite !H by lia. reflexivity.
Qed.
Lemma build_other_orders o1 o2 sort b : perm_order o1 -> perm_order o2 ->
  (forall n A (l : list A), (n <= 3 \/ 10 <= n)%nat -> o1 n A l = o2 n A l) -> Build o1 sort b = Build o2 sort b.
Proof. intros H1 H2 H. apply build_order; [assumption..|]. intros data. apply build_words_ext. exact H. Qed.
