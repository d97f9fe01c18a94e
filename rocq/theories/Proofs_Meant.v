(** The rules of a builder in a tester. *)
From Coq Require Import Permutation.
From Verif Require Import Base BaseFacts Spec_Helpers Model_Helpers Proofs_Helpers Model_Date Model_Font Model_Mask Model_Rewrites Spec_Format Spec_Layout Spec_LayoutFont Proofs_Layout
  Proofs_Rewrites Proofs_Font4 Model_Builder Spec_Builder Proofs_Builder Proofs_Build4 Proofs_Build5 Proofs_Build6 Proofs_Build8 Proofs_Survive Spec_Rules Model_Scanner Spec_Scanner Proofs_Scanner3
  Spec_Tree Model_Tester Spec_Tester Spec_Session Spec_TesterRules Proofs_Tester2 Proofs_Tester5 Proofs_Tester6 Spec_Meant.

(** ** A session that adds rules and runs a sequence *)
Lemma adding_state {R} ds : forall (rs : list R) s, length ds = length rs -> zlen (s_rules s) + zlen rs <= 254 ->
  fold_left next (adding ds rs) s = mkSession (s_rules s ++ combine ds rs) (s_pending s || negb (zlen rs =? 0)) (s_room s).
Proof.
  induction ds as [|d ds IH]; intros [|r rs] s L Z0; try discriminate.
  - cbn. rewrite app_nil_r, orb_false_r. destruct s. reflexivity.
  - unfold adding in *. cbn [combine map fold_left next fst snd]. rewrite zlen_cons in Z0. pose proof (zlen_nonneg rs).
    destruct (Z.ltb_spec (zlen (s_rules s)) 254); [|lia]. rewrite IH; [|injection L as L; exact L|cbn [s_rules]; rewrite zlen_app; change (zlen [(d, r)]) with 1; lia].
    cbn [s_rules s_pending s_room orb]. rewrite <- app_assoc, zlen_cons. cbn [app]. f_equal. destruct (Z.eqb_spec (1 + zlen rs) 0); [lia|]. rewrite orb_true_r. reflexivity.
Qed.
Lemma taken_all {A} (l : list A) : zlen l <= 254 -> taken l = l.
Proof. intros H. unfold taken. apply firstn_all2. unfold zlen in H. lia. Qed.
Lemma taken_incl {A} (l : list A) x : In x (taken l) -> In x l.
Proof. unfold taken. intros H. rewrite <- (firstn_skipn (Z.to_nat 254) l). apply in_or_app. left. exact H. Qed.
Lemma taken_forall {A} (P : A -> Prop) l : Forall P l -> Forall P (taken l).
Proof. rewrite !Forall_forall. intros H x Hx. apply H, taken_incl, Hx. Qed.
Lemma taken_nth {A} (l : list A) i x : nth_error (taken l) i = Some x -> nth_error l i = Some x.
Proof.
  unfold taken. generalize (Z.to_nat 254) as n. intros n. revert l i. induction n as [|n IH]; intros [|y l] [|i]; cbn [firstn nth_error]; try discriminate; auto.
Qed.
Lemma taken_pos {A} (l : list A) : 1 <= zlen l -> 1 <= zlen (taken l) <= 254.
Proof. unfold taken, zlen. rewrite firstn_length. lia. Qed.
Lemma adding_full {R} ds : forall (rs : list R) s, 254 <= zlen (s_rules s) -> fold_left next (adding ds rs) s = s.
Proof.
  unfold adding. induction ds as [|d ds IH]; intros [|r rs] s H; try reflexivity. cbn [combine map fold_left next fst snd]. replace (zlen (s_rules s) <? 254) with false by lia. apply IH. exact H.
Qed.
Lemma adding_taken {R} ds (rs : list R) : length ds = length rs -> 1 <= zlen rs ->
  fold_left next (adding ds rs) new_session = mkSession (combine (taken ds) (taken rs)) true false.
Proof.
  intros L H. assert (LT : length (taken ds) = length (taken rs)) by (unfold taken; rewrite !firstn_length, L; reflexivity).
  pose proof (taken_pos rs H) as B.
  assert (F : fold_left next (adding (taken ds) (taken rs)) new_session = mkSession (combine (taken ds) (taken rs)) true false).
  { rewrite adding_state; [|exact LT|cbn [new_session s_rules]; rewrite zlen_nil; lia]. cbn [new_session s_rules s_pending s_room app orb]. f_equal. destruct (Z.eqb_spec (zlen (taken rs)) 0); [lia|reflexivity]. }
  assert (C : combine ds rs = combine (taken ds) (taken rs) ++ combine (skipn (Z.to_nat 254) ds) (skipn (Z.to_nat 254) rs)).
  { unfold taken in *. revert LT. generalize (Z.to_nat 254) as n. clear - L. intros n. revert ds rs L. induction n as [|n IH]; intros [|d ds] [|r rs] L LT; try discriminate; try reflexivity.
    cbn [firstn skipn combine app]. f_equal. cbn in L, LT. apply IH; lia. }
  destruct (Z.le_gt_cases (zlen rs) 254) as [Hs|Hs].
  - rewrite !taken_all in F by (unfold zlen in *; lia). rewrite !taken_all by (unfold zlen in *; lia). exact F.
  - unfold adding in *. rewrite C, map_app, fold_left_app, F. apply (adding_full (skipn (Z.to_nat 254) ds) (skipn (Z.to_nat 254) rs)). cbn [s_rules].
    unfold zlen. rewrite combine_length, LT. unfold taken. rewrite firstn_length. unfold zlen in Hs. lia.
Qed.
Lemma all_legal_app {R} (rule_of : list Z -> R -> Prop) js : forall s js', all_legal rule_of s js -> all_legal rule_of (fold_left next js s) js' -> all_legal rule_of s (js ++ js').
Proof. induction js as [|j js IH]; intros s js' H1 H2; [exact H2|]. cbn [app all_legal fold_left] in *. destruct H1 as [H0 H1]. split; [exact H0|]. apply IH; assumption. Qed.
Lemma adding_legal {R} (rule_of : list Z -> R -> Prop) ds : forall rs s, Forall2 rule_of ds rs -> all_legal rule_of s (adding ds rs).
Proof. intros rs s F. revert s. induction F as [|d r ds rs X _ IH]; intros s; [exact I|]. cbn [adding combine map all_legal legal fst snd]. split; [exact X|]. apply IH. Qed.
Lemma expected_adding {R} ds : forall (rs : list R) s js, expected s (adding ds rs ++ js) = expected (fold_left next (adding ds rs) s) js.
Proof. induction ds as [|d ds IH]; intros [|r rs] s js; try reflexivity. cbn [adding combine map app expected fold_left]. apply IH. Qed.
Lemma compilations_adding {R} ds : forall (rs : list R) s js, compilations s (adding ds rs ++ js) = compilations (fold_left next (adding ds rs) s) js.
Proof. induction ds as [|d ds IH]; intros [|r rs] s js; try reflexivity. cbn [adding combine map app compilations fold_left]. apply IH. Qed.
Lemma map_snd_combine {A B} (l : list A) : forall m : list B, length l = length m -> map snd (combine l m) = m.
Proof. induction l as [|x l IH]; intros [|y m] L; try discriminate; [reflexivity|]. cbn. f_equal. apply IH. injection L as L. exact L. Qed.

Lemma F2_length {A B} (R : A -> B -> Prop) l m : Forall2 R l m -> length l = length m.
Proof. induction 1; cbn; congruence. Qed.
Section Run.
  Variable k : tester_kind.
  Variable accepted : Z -> bool.
  Variable rule_of : list Z -> rrule -> Prop.
  Hypothesis Hfeeds : forall g, tk_feed k g = Ok (accepted g) \/ (accepted g = false /\ exists m, tk_feed k g = Err m).
  Hypothesis Hplain : forall d r, rule_of d r -> plain k d r.
  Variables (ds : list (list Z)) (rs : list rrule) (e : env) (pieces : list (list Z)) (last : list Z).
  Hypothesis HR : Forall2 rule_of ds rs.
  Hypothesis H255 : Forall (fun r => r_cond r = 255) rs.
  Hypothesis HN : 1 <= zlen rs.
  Hypothesis HE : conditions_known e.

  Let js := one_sequence ds rs e pieces last.
  Lemma one_lengths : length ds = length rs.
  Proof. exact (F2_length _ _ _ HR). Qed.
  Lemma one_state : fold_left next (adding ds rs) new_session = mkSession (combine (taken ds) (taken rs)) true false.
  Proof. apply adding_taken; [exact one_lengths|exact HN]. Qed.
  Lemma one_rules : map snd (combine (taken ds) (taken rs)) = taken rs.
  Proof. apply map_snd_combine. unfold taken. rewrite !firstn_length, one_lengths. reflexivity. Qed.
  Lemma one_legal : all_legal rule_of new_session js.
  Proof.
    unfold js, one_sequence. apply all_legal_app; [apply adding_legal; exact HR|]. rewrite one_state. cbn [all_legal legal s_rules s_pending s_room]. split; [|exact I]. split; [exact HE|].
    intros X. exfalso. pose proof one_rules as Y. rewrite X in Y. cbn in Y. pose proof (taken_pos _ HN) as T. rewrite <- Y, zlen_nil in T. lia.
  Qed.
  Lemma one_expected : expected new_session js = [(taken rs, pieces ++ [last])].
  Proof. unfold js, one_sequence. rewrite expected_adding, one_state. cbn [expected s_rules]. rewrite one_rules. reflexivity. Qed.
  Lemma one_compilation : compilations new_session js = [taken rs].
  Proof. unfold js, one_sequence. rewrite compilations_adding, one_state. cbn [compilations s_rules s_pending next app]. rewrite one_rules. reflexivity. Qed.
  Lemma group_255 : group 255 (taken rs) = all_rules (taken rs).
  Proof.
    unfold group, all_rules. f_equal. pose proof (taken_forall _ _ H255) as H2. clear - H2. generalize 0 as n. induction (taken rs) as [|r l IH]; intros n; [reflexivity|]. cbn [numbered filter fst].
    rewrite (Forall_inv H2). change (255 =? 255) with true. cbv iota. f_equal. apply IH. exact (Forall_inv_tail H2).
  Qed.
  Lemma group_other c : c <> 255 -> group c (taken rs) = [].
  Proof.
    intros N. unfold group. pose proof (taken_forall _ _ H255) as H2. clear - H2 N. generalize 0 as n. induction (taken rs) as [|r l IH]; intros n; [reflexivity|]. cbn [numbered filter fst].
    rewrite (Forall_inv H2). destruct (Z.eqb_spec 255 c); [congruence|]. apply IH. exact (Forall_inv_tail H2).
  Qed.
  Lemma one_run :
    run_jobs k (false, new_tester) js = Err "DecisionTreeCompiler hit a limit" /\ ~ within_limits (all_rules (taken rs)) \/
    exists w outs, run_jobs k (false, new_tester) js = Ok (w, [outs]) /\
      Forall2 (fun piece out => rewriting (longest (taken rs)) (taken rs) (filter accepted piece) out) (pieces ++ [last]) outs.
  Proof.
    destruct (session_ok k accepted rule_of Hfeeds Hplain js one_legal) as [[E X]|(w & outs & E & F)].
    - left. split; [exact E|]. rewrite one_compilation in X. inversion X as [? ? (c & Y)|? ? Y]; [|inversion Y]. intros W. apply Y. destruct (Z.eq_dec c 255) as [->|N]; [rewrite group_255; exact W|].
      rewrite (group_other c N). split; [vm_compute; discriminate|vm_compute; discriminate].
    - right. rewrite one_expected in F. inversion F as [|? outs1 ? r F1 F2]; subst. inversion F2; subst. exists w, outs1. split; [exact E|].
      destruct (session_longest k accepted rule_of Hfeeds Hplain js w [outs1] 0 (taken rs) (pieces ++ [last]) 255 one_legal E) as (outs & O1 & O2); [rewrite one_expected; reflexivity|exact (taken_forall _ _ H255)|].
      cbn in O1. injection O1 as <-. exact O2.
  Qed.
End Run.

(** ** The bytes of a plain rule are what they are meant to be *)
Lemma flat_length b : zlen (flat b) = block_length b.
Proof.
  unfold flat, block_length, fragment_length. induction b as [|f b IH]; [reflexivity|]. cbn [map concat fold_right]. rewrite !zlen_app, !zlen_map, IH. reflexivity.
Qed.
Section Encoded.
  Variable k : kind.
  Variable w : nat.
  Variable dec : Z -> Z.
  Variable R : Z -> Z -> Prop.
  Variable b : builder.
  Hypothesis SETS : zlen (b_setsOrder b) <= 255.
  Variables (a : added) (r : brule) (t : rewrite_rule).
  Hypothesis K : kept a r.
  Hypothesis ST : rule_stored R b r t.
  Hypothesis RANGE : forall x y, In (false, x) (ad_input a) -> R x y -> 0 <= y < 256 ^ Z.of_nat w /\ k_valid k (dec y) = true.
  Hypothesis OUTS : forall x y, In x (ad_out a) -> R x y -> 0 <= y < 256 ^ Z.of_nat w.
  Hypothesis KW : k_width k = Z.of_nat w.
  Hypothesis W1 : (1 <= w)%nat.
  Hypothesis KM : k_min k = Z.of_nat w + 9.
  Hypothesis PR : plain_rule a.
  (** the elements as they are known *)
  Variable elem : Z -> Z -> Prop.
  Hypothesis HE : forall x y, R x y -> (In (false, x) (ad_input a) \/ In x (ad_out a)) -> elem x (dec y).

  Let values (bl : list fragment) : list Z := map (fun x => dec (snd x)) (flat bl).
  Lemma plain_encoded : exists q, encodes k w dec t q /\ meant elem a q.
  Proof.
    destruct PR as (P1 & P2 & P3). destruct (stored_lengths w R b a r t K ST W1) as (L1 & L2 & L3 & L4 & L5 & L6).
    pose proof (stored_input R b a r t K ST) as SI.
    assert (TL : flat (rule_tail t) = []) by (apply zlen_0_nil; rewrite flat_length, L3; exact P1).
    assert (SG : forall x, In x (flat (rule_head t) ++ flat (rule_body t) ++ flat (rule_tail t)) -> fst x = false).
    { intros x I1. destruct (Forall2_in_r _ _ _ _ SI I1) as (y & I2 & Y & _). rewrite <- Y. rewrite Forall_forall in P2. exact (P2 y I2). }
    assert (BL : forall bl, (forall x, In x (flat bl) -> fst x = false) -> block_is dec bl (values bl)).
    { intros bl H. unfold block_is, values. rewrite flat_elements, map_map. apply map_ext_in. intros x I1. rewrite (H x I1). reflexivity. }
    destruct (rule_out t) as [|y l] eqn:EO; [rewrite zlen_nil in L4; lia|]. assert (l = []) by (apply zlen_0_nil; rewrite zlen_cons in L4; lia). subst l.
    exists (Spec_Tester.mkRule 255 (values (rule_head t)) (values (rule_body t)) [dec y]). split.
    - split; [eapply stored_scannable; try eassumption; lia|]. split; [exact L5|]. cbn [r_head r_body r_out].
      split; [apply BL; intros x I1; apply SG, in_or_app; left; exact I1|]. split; [apply BL; intros x I1; apply SG, in_or_app; right; apply in_or_app; left; exact I1|].
      split; [unfold block_is; rewrite flat_elements, TL; reflexivity|]. exists y. split; [exact EO|reflexivity].
    - split; [reflexivity|]. cbn [r_head r_out]. split; [unfold values; rewrite zlen_map, flat_length; exact L1|]. split.
      + unfold pattern, values. cbn [r_head r_body]. rewrite <- map_app. rewrite TL, app_nil_r in SI.
        assert (Q : forall l m, Forall2 (fun x y : bool * Z => fst x = fst y /\ (if fst x then set_indexed_as b (snd x) (snd y) else R (snd x) (snd y))) l m -> incl l (ad_input a) ->
          Forall2 (fun x y => elem (snd x) y) l (map (fun x => dec (snd x)) m)).
        { intros l m F. induction F as [|x z l m [X1 X2] _ IH]; intros I1; cbn [map]; constructor; [|apply IH; intros q Q; apply I1; right; exact Q].
          assert (IX : In x (ad_input a)) by (apply I1; left; reflexivity). rewrite Forall_forall in P2. pose proof (P2 x IX) as PX. rewrite PX in X2.
          apply HE; [exact X2|]. left. rewrite (surjective_pairing x), PX in IX. exact IX. }
        apply Q; [exact SI|intros x X; exact X].
      + pose proof ST as ((_ & _ & _ & _ & OF & _) & _). rewrite (kp_out _ _ K), EO in OF. inversion OF as [|x ? l m X OF' A B]; subst. inversion OF'; subst. constructor; [|constructor].
        apply HE; [exact X|]. right. rewrite <- A. left. reflexivity.
  Qed.
End Encoded.

Section Rules.
  Variables (id : Z) (date : Date) (ops : list bop) (o : order) (sort : list Model_Mask.fragment -> list Model_Mask.fragment) (b' : builder) (f : Font).
  Hypothesis HD : date_typed date.
  Hypothesis HT : Forall op_typed ops.
  Hypothesis HO : perm_order o.
  Hypothesis HS : forall l, Permutation l (sort l).
  Hypothesis HB : Build o sort (history id date ops) = (b', Ok f).

  Lemma glyph_rule_meant i a : zget (glyph_rules_added id date ops) i = Ok a -> plain_rule a ->
    exists d q, rewrites_GetGlyphRule f i = Ok d /\ glyph_rule d q /\ meant (indexed_as b') a q.
  Proof.
    intros G PR. destruct (glyph_rule_found id date ops o sort b' f HD HT HO HS HB i a G) as (t & r & K & ST & E & LS & LO).
    assert (IX : forall x y, indexed_as b' x y -> 0 <= y < 56789) by (intros x y H; apply zget_ok_range in H; lia).
    destruct (plain_encoded glyph_kind 2 (fun x => x) (indexed_as b') b' LS a r t K ST) with (elem := indexed_as b') as (q & Q1 & Q2); try reflexivity; try lia; try assumption.
    - intros x y _ X. apply IX in X. change (256 ^ Z.of_nat 2) with 65536. split; [lia|]. cbn [k_valid glyph_kind]. lia.
    - intros x y _ X. apply IX in X. change (256 ^ Z.of_nat 2) with 65536. lia.
    - intros x y X _. exact X.
    - exists (rule_bytes 2 t), q. split; [exact E|]. split; [|exact Q2]. exists t. split; [reflexivity|exact Q1].
  Qed.
  Lemma utf8_rule_meant i a : zget (utf8_rules_added id date ops) i = Ok a -> ~ In (false, 65533) (ad_input a) -> ~ In (false, 2147483647) (ad_input a) ->
    exists d q, rewrites_GetUtf8Rule f i = Ok d /\ utf8_rule d q /\ meant eq a q.
  Proof.
    intros G N1 N2. destruct (utf8_rule_found id date ops o sort b' f HD HT HO HS HB i a G) as (t & r & K & ST & E & LS).
    destruct (utf8_added_typed id date ops HT i a G) as (H1 & H2 & H3 & rep & H4 & H5 & H6). rewrite Forall_forall in H6.
    assert (IX : forall x y, rune_stored x y -> 0 <= y < 2 ^ 32) by (intros x y ->; apply Z.mod_pos_bound; lia).
    assert (PR : plain_rule a). { split; [exact H3|]. split; [apply Forall_forall; intros x I1; exact (proj1 (H6 x I1))|]. rewrite H4. reflexivity. }
    destruct (plain_encoded utf8_kind 4 i32 rune_stored b' LS a r t K ST) with (elem := @eq Z) as (q & Q1 & Q2); try reflexivity; try lia; try assumption.
    - intros x y I1 X. pose proof (IX _ _ X). change (256 ^ Z.of_nat 4) with (2 ^ 32). split; [lia|]. cbn [k_valid utf8_kind].
      destruct (H6 _ I1) as [_ T]. cbn [snd] in T. rewrite X, i32_back by exact T. destruct (Z.eqb_spec x 65533); [subst; contradiction|reflexivity].
    - intros x y _ X. exact (IX _ _ X).
    - intros x y X [I1|I1]; rewrite X, i32_back; [reflexivity|exact (proj2 (H6 _ I1))|reflexivity|]. rewrite H4 in I1. destruct I1 as [<-|[]]. exact H5.
    - exists (rule_bytes 4 t), q. split; [exact E|]. split; [|exact Q2]. exists t. split; [reflexivity|]. split; [exact Q1|].
      intros X. destruct Q2 as (_ & _ & F & _). destruct (Proofs_Font4.in_zget _ _ X) as (j & X0). clear X. rename X0 into X. destruct (Proofs_Survive.Forall2_zget _ _ _ j F) as [(x & y & X1 & X2 & X3)|[_ X2]]; [|congruence].
      rewrite X in X2. injection X2 as <-. apply zget_in in X1. destruct (H6 _ X1) as [X4 _]. destruct x as [g x]. cbn [fst snd] in *. subst g x. contradiction.
  Qed.
End Rules.

(** a list of results, one by one *)
Lemma choose_list {A B} (P : Z -> A -> B -> Prop) (l : list A) : (forall i x, zget l i = Ok x -> exists y, P i x y) ->
  exists m, length m = length l /\ forall i x, zget l i = Ok x -> exists y, zget m i = Ok y /\ P i x y.
Proof.
  revert P. induction l as [|x l IH]; intros P H; [exists []; split; [reflexivity|]; intros i x X; apply zget_ok_range in X; rewrite zlen_nil in X; lia|].
  destruct (H 0 x (zget_cons_0 _ _)) as (y & Y). destruct (IH (fun i => P (i + 1))) as (m & L & M).
  - intros i z Z0. apply H. pose proof (zget_ok_range _ _ _ Z0). rewrite <- Z0. rewrite zget_cons_S by lia. f_equal. lia.
  - exists (y :: m). split; [cbn; congruence|]. intros i z Z0. pose proof (zget_ok_range _ _ _ Z0) as R. destruct (Z.eq_dec i 0) as [->|N].
    + rewrite zget_cons_0 in Z0. injection Z0 as <-. exists y. split; [apply zget_cons_0|exact Y].
    + rewrite zget_cons_S in Z0 by lia. destruct (M _ _ Z0) as (q & Q1 & Q2). exists q. rewrite zget_cons_S by lia. split; [exact Q1|]. replace (i - 1 + 1) with i in Q2 by lia. exact Q2.
Qed.

Section Together.
  Variables (id : Z) (date : Date) (ops : list bop) (o : order) (sort : list Model_Mask.fragment -> list Model_Mask.fragment) (b' : builder) (f : Font).
  Hypothesis HD : date_typed date.
  Hypothesis HT : Forall op_typed ops.
  Hypothesis HO : perm_order o.
  Hypothesis HS : forall l, Permutation l (sort l).
  Hypothesis HB : Build o sort (history id date ops) = (b', Ok f).

  Lemma split_pairs {P : Z -> added -> list Z -> rrule -> Prop} (l : list added) (m : list (list Z * rrule)) :
    length m = length l -> (forall i x, zget l i = Ok x -> exists y, zget m i = Ok y /\ P i x (fst y) (snd y)) ->
    zlen (map snd m) = zlen l /\
    forall i a, zget l i = Ok a -> exists d r, zget (map fst m) i = Ok d /\ zget (map snd m) i = Ok r /\ P i a d r.
  Proof.
    intros L H. split; [rewrite zlen_map; unfold zlen; congruence|]. intros i a A. destruct (H i a A) as ((d & r) & X1 & X2). exists d, r.
    rewrite !zget_map, X1. auto.
  Qed.
  Lemma pairs_forall {P : Z -> added -> list Z -> rrule -> Prop} {Q : list Z -> rrule -> Prop} (l : list added) (m : list (list Z * rrule)) :
    length m = length l -> (forall i x, zget l i = Ok x -> exists y, zget m i = Ok y /\ P i x (fst y) (snd y)) ->
    (forall i a d r, P i a d r -> Q d r) -> Forall2 Q (map fst m) (map snd m).
  Proof.
    intros L H HQ. assert (G : forall y, In y m -> Q (fst y) (snd y)).
    { intros y Y. destruct (Proofs_Font4.in_zget _ _ Y) as (i & I1). pose proof (zget_ok_range _ _ _ I1) as R.
      destruct (zget_in_range l i) as (x & X); [unfold zlen in *; lia|]. destruct (H i x X) as (y' & Y1 & Y2). rewrite I1 in Y1. injection Y1 as <-. exact (HQ _ _ _ _ Y2). }
    clear - G. induction m as [|y m IH]; cbn [map]; constructor; [apply G; left; reflexivity|apply IH; intros z Z0; apply G; right; exact Z0].
  Qed.

  Lemma glyph_rules_run : 1 <= zlen (glyph_rules_added id date ops) -> Forall plain_rule (glyph_rules_added id date ops) ->
    exists ds rs, (zlen rs = zlen (glyph_rules_added id date ops) /\
      forall i a, zget (glyph_rules_added id date ops) i = Ok a -> exists d r, zget ds i = Ok d /\ zget rs i = Ok r /\
        rewrites_GetGlyphRule f i = Ok d /\ meant (indexed_as b') a r) /\
      forall e pieces last, conditions_known e ->
        run_jobs glyph_tester (false, new_tester) (one_sequence ds rs e pieces last) = Err "DecisionTreeCompiler hit a limit" /\ ~ within_limits (all_rules (taken rs)) \/
        exists w outs, run_jobs glyph_tester (false, new_tester) (one_sequence ds rs e pieces last) = Ok (w, [outs]) /\
          Forall2 (fun piece out => rewriting (longest (taken rs)) (taken rs) (filter is_glyph piece) out) (pieces ++ [last]) outs.
  Proof.
    intros HN HP. rewrite Forall_forall in HP.
    destruct (choose_list (fun i a y => rewrites_GetGlyphRule f i = Ok (fst y) /\ glyph_rule (fst y) (snd y) /\ meant (indexed_as b') a (snd y)) (glyph_rules_added id date ops)) as (m & L & M).
    { intros i a A. destruct (glyph_rule_meant id date ops o sort b' f HD HT HO HS HB i a A (HP a (zget_in _ _ _ A))) as (d & q & X1 & X2 & X3). exists (d, q). auto. }
    destruct (split_pairs (P := fun i a d r => rewrites_GetGlyphRule f i = Ok d /\ glyph_rule d r /\ meant (indexed_as b') a r) _ _ L M) as (LM & X).
    pose proof (pairs_forall (P := fun i a d r => rewrites_GetGlyphRule f i = Ok d /\ glyph_rule d r /\ meant (indexed_as b') a r) (Q := glyph_rule) _ _ L M ltac:(cbv beta; tauto)) as G.
    exists (map fst m), (map snd m). split.
    - split; [exact LM|]. intros i a A. destruct (X i a A) as (d & r & Y1 & Y2 & Y3 & _ & Y5). exists d, r. auto.
    - intros e pieces last HE. apply (one_run glyph_tester is_glyph glyph_rule glyph_feeds glyph_plain); [exact G| |lia|exact HE].
      apply Forall_forall. intros r R. destruct (Proofs_Font4.in_zget _ _ R) as (i & I1). pose proof (zget_ok_range _ _ _ I1) as RG.
      destruct (zget_in_range (glyph_rules_added id date ops) i) as (a & A); [lia|]. destruct (X i a A) as (d & r' & _ & Y2 & _ & _ & Y5). rewrite I1 in Y2. injection Y2 as <-. apply Y5.
  Qed.
  Lemma utf8_rules_run : 1 <= zlen (utf8_rules_added id date ops) ->
    Forall (fun a => ~ In (false, 65533) (ad_input a) /\ ~ In (false, 2147483647) (ad_input a)) (utf8_rules_added id date ops) ->
    exists ds rs, (zlen rs = zlen (utf8_rules_added id date ops) /\
      forall i a, zget (utf8_rules_added id date ops) i = Ok a -> exists d r, zget ds i = Ok d /\ zget rs i = Ok r /\
        rewrites_GetUtf8Rule f i = Ok d /\ meant eq a r) /\
      forall e pieces last, conditions_known e ->
        run_jobs utf8_tester (false, new_tester) (one_sequence ds rs e pieces last) = Err "DecisionTreeCompiler hit a limit" /\ ~ within_limits (all_rules (taken rs)) \/
        exists w outs, run_jobs utf8_tester (false, new_tester) (one_sequence ds rs e pieces last) = Ok (w, [outs]) /\
          Forall2 (fun piece out => rewriting (longest (taken rs)) (taken rs) (filter is_rune piece) out) (pieces ++ [last]) outs.
  Proof.
    intros HN HP. rewrite Forall_forall in HP.
    destruct (choose_list (fun i a y => rewrites_GetUtf8Rule f i = Ok (fst y) /\ utf8_rule (fst y) (snd y) /\ meant eq a (snd y)) (utf8_rules_added id date ops)) as (m & L & M).
    { intros i a A. destruct (HP a (zget_in _ _ _ A)) as [N1 N2].
      destruct (utf8_rule_meant id date ops o sort b' f HD HT HO HS HB i a A N1 N2) as (d & q & X1 & X2 & X3). exists (d, q). auto. }
    destruct (split_pairs (P := fun i a d r => rewrites_GetUtf8Rule f i = Ok d /\ utf8_rule d r /\ meant eq a r) _ _ L M) as (LM & X).
    pose proof (pairs_forall (P := fun i a d r => rewrites_GetUtf8Rule f i = Ok d /\ utf8_rule d r /\ meant eq a r) (Q := utf8_rule) _ _ L M ltac:(cbv beta; tauto)) as G.
    exists (map fst m), (map snd m). split.
    - split; [exact LM|]. intros i a A. destruct (X i a A) as (d & r & Y1 & Y2 & Y3 & _ & Y5). exists d, r. auto.
    - intros e pieces last HE. apply (one_run utf8_tester is_rune utf8_rule utf8_feeds utf8_plain); [exact G| |lia|exact HE].
      apply Forall_forall. intros r R. destruct (Proofs_Font4.in_zget _ _ R) as (i & I1). pose proof (zget_ok_range _ _ _ I1) as RG.
      destruct (zget_in_range (utf8_rules_added id date ops) i) as (a & A); [lia|]. destruct (X i a A) as (d & r' & _ & Y2 & _ & _ & Y5). rewrite I1 in Y2. injection Y2 as <-. apply Y5.
  Qed.
End Together.
