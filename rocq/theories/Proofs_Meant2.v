(** The rules of a builder in a tester: rules with sets and tails. *)
From Coq Require Import Permutation.
From Verif Require Import Base BaseFacts Spec_Helpers Model_Helpers Proofs_Helpers Model_Date Model_Font Model_Mask Model_Rewrites Spec_Format Spec_Layout Spec_LayoutFont Proofs_Layout
  Proofs_Rewrites Proofs_Font4 Model_Builder Spec_Builder Proofs_Builder Proofs_Build4 Proofs_Build5 Proofs_Build6 Proofs_Build7 Proofs_Build8 Proofs_Survive Spec_Rules Model_Scanner Spec_Scanner Proofs_Scanner2 Proofs_Scanner3
  Model_Tree Spec_Tree Spec_TreeSets Proofs_Tree Proofs_Tree4 Proofs_Tree5 Model_Tester Spec_Tester Spec_Session Spec_TesterRules Spec_TesterSets Proofs_Tester6 Proofs_Tester11 Proofs_Tester12 Spec_Meant Proofs_Kept Proofs_Meant.

Section Run.
  Variables (f : Font) (R : list (Z * Z)).
  Hypotheses (Hap : apart R) (Hle : forall r, In r R -> fst r <= snd r).
  Variables (ds : list (list Z)) (rs : list srule) (e : env) (pieces : list (list Z)) (last : list Z).
  Hypothesis HR : Forall2 (glyph_rule_in f R) ds rs.
  Hypothesis H255 : Forall (fun r => q_cond r = 255) rs.
  Hypothesis HN : 1 <= zlen rs.
  Hypothesis HE : conditions_known e.
  Hypothesis HF : e_sets e = glyph_sets f.
  Hypothesis HT : tails_fit rs.

  Let js := one_sequence ds rs e pieces last.
  Lemma q_lengths : length ds = length rs.
  Proof. exact (Proofs_Meant.F2_length _ _ _ HR). Qed.
  Lemma q_state : fold_left next (adding ds rs) new_session = mkSession (combine (taken ds) (taken rs)) true false.
  Proof. apply adding_taken; [exact q_lengths|exact HN]. Qed.
  Lemma q_rules : map snd (combine (taken ds) (taken rs)) = taken rs.
  Proof. apply map_snd_combine. unfold taken. rewrite !firstn_length, q_lengths. reflexivity. Qed.
  Lemma q_expected : expected new_session js = [(taken rs, pieces ++ [last])].
  Proof. unfold js, one_sequence. rewrite expected_adding, q_state. cbn [expected s_rules]. rewrite q_rules. reflexivity. Qed.
  Lemma q_compilation : compilations new_session js = [taken rs].
  Proof. unfold js, one_sequence. rewrite compilations_adding, q_state. cbn [compilations s_rules s_pending next app]. rewrite q_rules. reflexivity. Qed.
  Lemma taken_tails : tails_fit (taken rs).
  Proof. destruct HT as [H|H]; [left|right]; apply taken_forall; exact H. Qed.
  Lemma q_one_usable : q_usable (glyph_rule_in f R) (glyph_sets f) js.
  Proof.
    split; [|split].
    - unfold js, one_sequence. apply all_legal_app; [apply adding_legal; exact HR|]. rewrite q_state. cbn [all_legal legal s_rules s_pending s_room]. split; [|exact I]. split; [exact HE|].
      intros X. exfalso. pose proof q_rules as Y. rewrite X in Y. cbn in Y. pose proof (taken_pos _ HN) as T. rewrite <- Y, zlen_nil in T. lia.
    - unfold js, one_sequence, same_sets. apply Forall_app. split; [|constructor; [exact HF|constructor]]. unfold adding. apply Forall_map, Forall_forall. intros; exact I.
    - rewrite q_expected. constructor; [exact taken_tails|constructor].
  Qed.
  Lemma q_one_run :
    run_jobs glyph_tester (false, new_tester) js = Err "DecisionTreeCompiler hit a limit" /\ ~ within_limits (q_all (taken rs)) \/
    exists w outs, run_jobs glyph_tester (false, new_tester) js = Ok (w, [outs]) /\
      Forall2 (fun piece out => q_rewriting (q_longest (taken rs)) (taken rs) (filter is_glyph piece) out) (pieces ++ [last]) outs.
  Proof.
    destruct (q_usable_ok glyph_tester (glyph_sets f) is_glyph (glyph_rule_in f R) glyph_feeds (glyph_lettered f R Hap Hle) js q_one_usable) as [[E X]|(w & outs & E & F)].
    - left. split; [exact E|]. rewrite q_compilation in X. inversion X as [? ? (c & Y)|? ? Y]; [|inversion Y]. intros W. apply Y. destruct (Z.eq_dec c 255) as [->|N]; [rewrite (q_group_all 255 _ (taken_forall _ _ H255)); exact W|].
      rewrite (q_group_none 255 c _ (taken_forall _ _ H255) N). split; vm_compute; discriminate.
    - right. rewrite q_expected in F. inversion F as [|? outs1 ? r F1 F2]; subst. inversion F2; subst. exists w, outs1. split; [exact E|].
      destruct (q_session_longest glyph_tester (glyph_sets f) is_glyph (glyph_rule_in f R) glyph_feeds (glyph_lettered f R Hap Hle) js w [outs1] 0 (taken rs) (pieces ++ [last]) 255 q_one_usable E) as (outs & O1 & O2);
        [rewrite q_expected; reflexivity|exact (taken_forall _ _ H255)|].
      cbn in O1. injection O1 as <-. exact O2.
  Qed.
End Run.

Section Rules.
  Variables (id : Z) (date : Date) (ops : list bop) (o : order) (sort : list Model_Mask.fragment -> list Model_Mask.fragment) (b' : builder) (f : Font).
  Hypothesis HD : date_typed date.
  Hypothesis HT : Forall op_typed ops.
  Hypothesis HO : perm_order o.
  Hypothesis HS : forall l, Permutation l (sort l).
  Hypothesis HB : Build o sort (history id date ops) = (b', Ok f).
  Variable R : list (Z * Z).
  Hypothesis Hle : forall r, In r R -> fst r <= snd r.

  Lemma key_unique {A} (l : list (Z * A)) u x y : NoDup (map fst l) -> In (u, x) l -> In (u, y) l -> x = y.
  Proof.
    induction l as [|[k v] l IH]; intros N H1 H2; [contradiction|]. cbn [map fst] in N. apply NoDup_cons_iff in N. destruct N as [N1 N2].
    destruct H1 as [H1|H1], H2 as [H2|H2]; [congruence| | |exact (IH N2 H1 H2)]; exfalso; apply N1; [injection H1 as -> _; exact (in_map fst _ _ H2)|injection H2 as -> _; exact (in_map fst _ _ H1)].
  Qed.
  Lemma index_unique (b : builder) u i j : NoDup (b_order b) -> indexed_as b u i -> indexed_as b u j -> i = j.
  Proof.
    unfold indexed_as. intros N H1 H2. pose proof (zget_ok_range _ _ _ H1) as R1. pose proof (zget_ok_range _ _ _ H2) as R2.
    rewrite NoDup_nth_error in N. unfold zget in H1, H2. unfold zlen in *.
    assert (G : forall k, 0 <= k < Z.of_nat (length (b_order b)) -> zget (b_order b) k = Ok u -> nth_error (b_order b) (Z.to_nat k) = Some u).
    { intros k Hk H. unfold zget in H. replace (k <? 0) with false in H by lia. destruct (nth_error (b_order b) (Z.to_nat k)); congruence. }
    pose proof (N (Z.to_nat i) (Z.to_nat j) ltac:(lia)) as X. rewrite (G i R1 H1), (G j R2 H2) in X. specialize (X eq_refl). lia.
  Qed.
  Lemma set_range_read s uid r : set_indexed_as b' uid s -> In r R -> means_range b' (true, uid) r -> glyph_range f (InSet s) r.
  Proof.
    intros HI Hr (st & I1 & C). cbn [fst snd] in *.
    destruct (built_history id date ops o sort b' f HD HT HO HS HB) as (l & E & DS & BT & FN & _). pose proof (ds_glyph_sets _ _ DS) as G. unfold glyph_sets_described in G.
    destruct (bt_sets _ _ _ BT) as (LS & L & _). pose proof (bt_glyphs _ _ _ BT) as LG. unfold MaxGlyphs in LG. pose proof (st_glyph_sets l) as S. rewrite <- E in S.
    pose proof (zget_ok_range _ _ _ HI) as RI.
    assert (GET : rewrites_GetGlyphSet f s = do t <- zget (l_glyph_sets l) s; Ok (set_bytes 2 t)).
    { rewrite <- zget_map. unfold rewrites_GetGlyphSet. apply set_located; rewrite ?zlen_map; auto; try lia. apply Forall_map, Forall_forall. intros t _. discriminate. }
    destruct (Forall2_zget _ _ _ s G) as [(uid' & t & X1 & X2 & st' & I2 & D1 & D2)|[X _]]; [|unfold set_indexed_as in HI; congruence].
    unfold set_indexed_as in HI. rewrite HI in X1. injection X1 as <-.
    pose proof (key_unique _ _ _ _ (proj1 (fn_sets _ FN)) I1 I2) as <-. rewrite X2 in GET. cbn [bind] in GET. pose proof (Hle r Hr) as LE.
    assert (IX : forall u i, indexed_as b' u i -> 0 <= i < 56789) by (intros u i H; apply zget_ok_range in H; lia).
    split; [pose proof (F2_zlen' _ _ _ G); lia|]. exists t. split; [exact GET|].
    assert (ND : NoDup (b_order b')) by (destruct (fn_glyphs _ FN) as (N & -> & _); exact N).
    destruct t as [rs es]. cbn [set_ranges set_elements] in *. unfold set_in_range, one_range. cbn [set_ranges set_elements].
    destruct C as [(p & Ep & El & P1 & P2)|(u & Ep & El & P1 & P2)]; rewrite Ep in D1; rewrite El in D2.
    - inversion D1 as [|? x ? xs (A1 & A2 & A3) D1']; subst. inversion D1'; subst. inversion D2; subst.
      pose proof (index_unique b' _ _ _ ND P1 A1) as B1. pose proof (index_unique b' _ _ _ ND P2 A2) as B2. apply IX in P1, P2.
      split; [split; [constructor; [split; [lia|exact A3]|constructor]|constructor]|]. split; [left|lia]. split; [|reflexivity]. f_equal. rewrite (surjective_pairing x). f_equal; lia.
    - inversion D2 as [|? x ? xs A1 D2']; subst. inversion D2'; subst. inversion D1; subst.
      pose proof (index_unique b' _ _ _ ND P1 A1) as B1. apply IX in P1.
      split; [split; [constructor|constructor; [lia|constructor]]|]. split; [right|lia]. split; [reflexivity|]. split; [congruence|exact P2].
  Qed.
  Lemma F2_impl {A B C} (P : A -> B -> Prop) (Q : A -> C -> Prop) (h : B -> C) l m : (forall x y, In x l -> In y m -> P x y -> Q x (h y)) -> Forall2 P l m -> Forall2 Q l (map h m).
  Proof.
    intros H F. induction F as [|x y l m X _ IH]; cbn [map]; constructor; [apply H; [left; reflexivity|left; reflexivity|exact X]|].
    apply IH. intros a b Ha Hb. apply H; right; assumption.
  Qed.
  Lemma glyph_rule_sets i a : zget (glyph_rules_added id date ops) i = Ok a -> within_ranges b' R a ->
    exists d q, rewrites_GetGlyphRule f i = Ok d /\ glyph_rule_in f R d q /\ meant_sets b' a q.
  Proof.
    intros G (W1 & W2). destruct (glyph_rule_found id date ops o sort b' f HD HT HO HS HB i a G) as (t & r & K & ST & E & LS & LO).
    assert (IX : forall x y, indexed_as b' x y -> 0 <= y < 56789) by (intros x y H; apply zget_ok_range in H; lia).
    destruct (stored_lengths 2 (indexed_as b') b' a r t K ST ltac:(lia)) as (L1 & L2 & L3 & L4 & L5 & L6). pose proof (stored_input (indexed_as b') b' a r t K ST) as SI.
    assert (SC : scannable glyph_kind 2 (fun x => x) t).
    { eapply stored_scannable with (R := indexed_as b'); try eassumption; try reflexivity; try lia.
      - intros x y _ X. apply IX in X. change (256 ^ Z.of_nat 2) with 65536. split; [lia|]. cbn [k_valid glyph_kind]. lia.
      - intros x y _ X. apply IX in X. change (256 ^ Z.of_nat 2) with 65536. lia. }
    destruct (rule_out t) as [|y l] eqn:EO; [rewrite zlen_nil in L4; lia|]. assert (l = []) by (apply zlen_0_nil; rewrite zlen_cons in L4; lia). subst l.
    set (el := fun x : bool * Z => if fst x then InSet (snd x) else Single (snd x)).
    assert (EL : rule_elements (fun x => x) t = map el (flat (rule_head t) ++ flat (rule_body t) ++ flat (rule_tail t))) by (unfold rule_elements; rewrite !flat_elements, !map_app; reflexivity).
    assert (ND : NoDup (b_order b')).
    { destruct (built_history id date ops o sort b' f HD HT HO HS HB) as (l & _ & _ & _ & FN & _). destruct (fn_glyphs _ FN) as (N & -> & _). exact N. }
    assert (RG : Forall2 (fun x e => exists g, In g R /\ means_range b' x g /\ glyph_range f e g) (ad_input a) (rule_elements (fun x => x) t)).
    { rewrite EL. apply (F2_impl (fun (x y : bool * Z) => fst x = fst y /\ if fst x then set_indexed_as b' (snd x) (snd y) else indexed_as b' (snd x) (snd y))); [|exact SI].
      intros [g x] [g' z] Hx _ [Hg Hz]. cbn [fst snd] in *. subst g'. pose proof (proj1 (Forall_forall _ _) W2 _ Hx) as (q & Hq & Hm). exists q. split; [exact Hq|]. split; [exact Hm|].
      destruct g; unfold el; cbn [fst snd].
      - exact (set_range_read z x q Hz Hq Hm).
      - destruct Hm as [M1 M2]. cbn [fst snd] in *. cbn [glyph_range]. rewrite (surjective_pairing q), M2, (index_unique b' _ _ _ ND M1 Hz). reflexivity. }
    exists (rule_bytes 2 t), (mkSRule 255 (map (element_pattern f) (block_elements (fun x => x) (rule_head t))) (map (element_pattern f) (block_elements (fun x => x) (rule_body t)))
      (map (element_pattern f) (block_elements (fun x => x) (rule_tail t))) [y]). split; [exact E|]. split.
    - exists t. split; [reflexivity|]. split; [split; [exact SC|]; split; [exact L5|]; do 3 (split; [reflexivity|]); exists y; split; [exact EO|reflexivity]|].
      clear - RG. induction RG as [|x e l m (g & G1 & _ & G2) _ IH]; constructor; [exists g; auto|exact IH].
    - split; [reflexivity|]. cbn [q_head q_tail q_out]. rewrite !zlen_map, !block_elements_len. split; [exact L1|]. split; [exact L3|]. split.
      + unfold q_pattern. cbn [q_head q_body q_tail]. rewrite <- !map_app. change (_ ++ _ ++ _) with (rule_elements (fun x => x) t).
        pose proof (rule_bytes_ok _ _ _ _ SC) as Hb. pose proof (read_glyph _ SC) as Hs.
        apply (F2_impl (fun x e => exists g, In g R /\ means_range b' x g /\ glyph_range f e g)); [|exact RG]. intros x e _ He (g & G1 & G2 & G3). exists g. split; [exact G2|].
        pose proof (glyph_range_covers f e g G3 (fun x Ex => glyph_succ _ _ x Hb Hs (eq_ind e (fun e => In e _) He _ Ex))) as (_ & _ & C3 & _). exact C3.
      + pose proof ST as ((_ & _ & _ & _ & OF & _) & _). rewrite (kp_out _ _ K), EO in OF. exact OF.
  Qed.

  Lemma q_split_pairs {P : Z -> added -> list Z -> srule -> Prop} (l : list added) (m : list (list Z * srule)) :
    length m = length l -> (forall i x, zget l i = Ok x -> exists y, zget m i = Ok y /\ P i x (fst y) (snd y)) ->
    zlen (map snd m) = zlen l /\
    forall i a, zget l i = Ok a -> exists d r, zget (map fst m) i = Ok d /\ zget (map snd m) i = Ok r /\ P i a d r.
  Proof.
    intros L H. split; [rewrite zlen_map; unfold zlen; congruence|]. intros i a A. destruct (H i a A) as ((d & r) & X1 & X2). exists d, r.
    rewrite !zget_map, X1. auto.
  Qed.
  Hypothesis Hap : apart R.
  Lemma glyph_sets_run : 1 <= zlen (glyph_rules_added id date ops) -> Forall (within_ranges b' R) (glyph_rules_added id date ops) -> short_tails (glyph_rules_added id date ops) ->
    exists ds rs, (zlen rs = zlen (glyph_rules_added id date ops) /\
      forall i a, zget (glyph_rules_added id date ops) i = Ok a -> exists d r, zget ds i = Ok d /\ zget rs i = Ok r /\
        rewrites_GetGlyphRule f i = Ok d /\ meant_sets b' a r) /\
      forall e pieces last, conditions_known e -> e_sets e = glyph_sets f ->
        run_jobs glyph_tester (false, new_tester) (one_sequence ds rs e pieces last) = Err "DecisionTreeCompiler hit a limit" /\ ~ within_limits (q_all (taken rs)) \/
        exists w outs, run_jobs glyph_tester (false, new_tester) (one_sequence ds rs e pieces last) = Ok (w, [outs]) /\
          Forall2 (fun piece out => q_rewriting (q_longest (taken rs)) (taken rs) (filter is_glyph piece) out) (pieces ++ [last]) outs.
  Proof.
    intros HN HP TL. rewrite Forall_forall in HP.
    set (P := fun i a d r => rewrites_GetGlyphRule f i = Ok d /\ glyph_rule_in f R d r /\ meant_sets b' a r).
    destruct (choose_list (fun i a (y : list Z * srule) => P i a (fst y) (snd y)) (glyph_rules_added id date ops)) as (m & L & M).
    { intros i a A. destruct (glyph_rule_sets i a A (HP a (zget_in _ _ _ A))) as (d & q & X1 & X2 & X3). exists (d, q). unfold P. auto. }
    destruct (q_split_pairs (P := P) _ _ L M) as (LM & X). exists (map fst m), (map snd m).
    assert (B : forall r, In r (map snd m) -> exists i a d, zget (glyph_rules_added id date ops) i = Ok a /\ zget (map fst m) i = Ok d /\ P i a d r).
    { intros r Hr. destruct (Proofs_Font4.in_zget _ _ Hr) as (i & I1). pose proof (zget_ok_range _ _ _ I1) as RG.
      destruct (zget_in_range (glyph_rules_added id date ops) i) as (a & A); [lia|]. destruct (X i a A) as (d & r' & Y1 & Y2 & Y3). rewrite I1 in Y2. injection Y2 as <-. eauto 6. }
    split; [split; [exact LM|]; intros i a A; destruct (X i a A) as (d & r & Y1 & Y2 & Y3 & _ & Y5); eauto 6|].
    intros e pieces last HE HF. apply (q_one_run f R Hap Hle); [| |lia|exact HE|exact HF|].
    - assert (G : forall y, In y m -> glyph_rule_in f R (fst y) (snd y)).
      { intros y Y. destruct (Proofs_Font4.in_zget _ _ Y) as (i & I1). pose proof (zget_ok_range _ _ _ I1) as RG. destruct (zget_in_range (glyph_rules_added id date ops) i) as (a & A); [unfold zlen in *; lia|].
        destruct (M i a A) as (y' & Y1 & _ & Y2 & _). rewrite I1 in Y1. injection Y1 as <-. exact Y2. }
      clear - G. induction m as [|y m IH]; cbn [map]; constructor; [apply G; left; reflexivity|apply IH; intros z Z0; apply G; right; exact Z0].
    - apply Forall_forall. intros r Hr. destruct (B r Hr) as (i & a & d & _ & _ & _ & _ & Y). apply Y.
    - destruct TL as [TL|TL]; rewrite Forall_forall in TL; [left|right]; apply Forall_forall; intros r Hr; destruct (B r Hr) as (i & a & d & A & _ & _ & _ & (_ & Y1 & Y2 & _));
        specialize (TL a (zget_in _ _ _ A)).
      + apply zlen_0_nil. lia.
      + split; [apply zlen_0_nil; lia|lia].
  Qed.

  Let b := history id date ops.
  Lemma sets_run_history : 1 <= zlen (glyph_rules_added id date ops) -> Forall (within_ranges b R) (glyph_rules_added id date ops) -> short_tails (glyph_rules_added id date ops) ->
    exists ds rs, (zlen rs = zlen (glyph_rules_added id date ops) /\
      forall i a, zget (glyph_rules_added id date ops) i = Ok a -> exists d r, zget ds i = Ok d /\ zget rs i = Ok r /\
        rewrites_GetGlyphRule f i = Ok d /\ meant_sets b a r) /\
      forall e pieces last, conditions_known e -> e_sets e = glyph_sets f ->
        run_jobs glyph_tester (false, new_tester) (one_sequence ds rs e pieces last) = Err "DecisionTreeCompiler hit a limit" /\ ~ within_limits (q_all (taken rs)) \/
        exists w outs, run_jobs glyph_tester (false, new_tester) (one_sequence ds rs e pieces last) = Ok (w, [outs]) /\
          Forall2 (fun piece out => q_rewriting (q_longest (taken rs)) (taken rs) (filter is_glyph piece) out) (pieces ++ [last]) outs.
  Proof.
    destruct (kept_builder id date ops o sort b' f HD HT HO HS HB) as (_ & _ & _ & _ & E1 & _ & _ & _ & E2 & _).
    pose proof glyph_sets_run as G. unfold within_ranges, meant_sets, means_range, indexed_as in *. rewrite E1, E2 in G. exact G.
  Qed.
End Rules.
