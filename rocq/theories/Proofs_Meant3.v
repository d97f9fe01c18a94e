(** The rules of a builder in a tester: rules with any sets. *)
From Coq Require Import Permutation.
From Verif Require Import Base BaseFacts Spec_Helpers Model_Helpers Proofs_Helpers Model_Date Model_Font Model_Mask Model_Rewrites Spec_Format Spec_Layout Spec_LayoutFont Proofs_Layout
  Proofs_Rewrites Proofs_Font4 Model_Builder Spec_Builder Proofs_Builder Proofs_Build4 Proofs_Build5 Proofs_Build6 Proofs_Build7 Proofs_Build8 Proofs_Survive Spec_Rules Model_Scanner Spec_Scanner Proofs_Scanner2 Proofs_Scanner3
  Model_Tree Spec_Tree Spec_TreeSets Proofs_Tree Proofs_Tree4 Proofs_Tree5 Model_Tester Spec_Tester Spec_Session Spec_TesterRules Spec_TesterSets Proofs_Tester6 Proofs_Tester11 Proofs_Tester12 Spec_Meant Proofs_Kept Proofs_Meant Proofs_Meant2
  Spec_Fans Proofs_Fans2 Spec_TesterFans Proofs_TesterFans2 Spec_Meant2.

Section Run.
  Variables (f : Font) (R : list (Z * Z)).
  Hypothesis Hap : apart R.
  Variables (ds : list (list Z)) (rs : list srule) (e : env) (pieces : list (list Z)) (last : list Z).
  Hypothesis HR : Forall2 (glyph_fan_rule f R) ds rs.
  Hypothesis H255 : Forall (fun r => q_cond r = 255) rs.
  Hypothesis HN : 1 <= zlen rs.
  Hypothesis HE : conditions_known e.
  Hypothesis HF : e_sets e = glyph_sets f.
  Hypothesis HT : tails_fit rs.
  Hypothesis HA : starts_apart rs.

  Let js := one_sequence ds rs e pieces last.
  Lemma fan_lengths : length ds = length rs.
  Proof. exact (Proofs_Meant.F2_length _ _ _ HR). Qed.
  Lemma fan_state : fold_left next (adding ds rs) new_session = mkSession (combine (taken ds) (taken rs)) true false.
  Proof. apply adding_taken; [exact fan_lengths|exact HN]. Qed.
  Lemma fan_snds : map snd (combine (taken ds) (taken rs)) = taken rs.
  Proof. apply map_snd_combine. unfold taken. rewrite !firstn_length, fan_lengths. reflexivity. Qed.
  Lemma fan_expects : expected new_session js = [(taken rs, pieces ++ [last])].
  Proof. unfold js, one_sequence. rewrite expected_adding, fan_state. cbn [expected s_rules]. rewrite fan_snds. reflexivity. Qed.
  Lemma fan_compilation : compilations new_session js = [taken rs].
  Proof. unfold js, one_sequence. rewrite compilations_adding, fan_state. cbn [compilations s_rules s_pending next app]. rewrite fan_snds. reflexivity. Qed.
  Lemma taken_tails : tails_fit (taken rs).
  Proof. destruct HT as [H|H]; [left|right]; apply taken_forall; exact H. Qed.
  Lemma taken_starts : starts_apart (taken rs).
  Proof. intros i j r r' x Hij Hi Hj. exact (HA i j r r' x Hij (taken_nth _ _ _ Hi) (taken_nth _ _ _ Hj)). Qed.
  Lemma fan_one_usable : fan_usable (glyph_fan_rule f R) (glyph_sets f) js.
  Proof.
    split; [split; [|split]|].
    - unfold js, one_sequence. apply all_legal_app; [apply adding_legal; exact HR|]. rewrite fan_state. cbn [all_legal legal s_rules s_pending s_room]. split; [|exact I]. split; [exact HE|].
      intros X. exfalso. pose proof fan_snds as Y. rewrite X in Y. cbn in Y. pose proof (taken_pos _ HN) as T. rewrite <- Y, zlen_nil in T. lia.
    - unfold js, one_sequence, same_sets. apply Forall_app. split; [|constructor; [exact HF|constructor]]. unfold adding. apply Forall_map, Forall_forall. intros; exact I.
    - rewrite fan_expects. constructor; [exact taken_tails|constructor].
    - rewrite fan_compilation. constructor; [exact taken_starts|constructor].
  Qed.
  Lemma fan_one_run :
    run_jobs glyph_tester (false, new_tester) js = Err "DecisionTreeCompiler hit a limit" /\ fan_crowded (one_of R) (taken rs) \/
    exists w outs, run_jobs glyph_tester (false, new_tester) js = Ok (w, [outs]) /\
      Forall2 (fun piece out => q_rewriting (q_longest (taken rs)) (taken rs) (filter is_glyph piece) out) (pieces ++ [last]) outs.
  Proof.
    destruct (fan_usable_ok glyph_tester (glyph_sets f) (element_pattern f) (one_of R) Hap is_glyph glyph_feeds (glyph_fan_rule f R) (glyph_fan_ok f R) js fan_one_usable) as [[E X]|(w & outs & E & F)].
    - left. split; [exact E|]. rewrite fan_compilation in X. inversion X as [? ? Y|? ? Y]; [exact Y|inversion Y].
    - right. rewrite fan_expects in F. inversion F as [|? outs1 ? r F1 F2]; subst. inversion F2; subst. exists w, outs1. split; [exact E|].
      destruct (fan_session_longest glyph_tester (glyph_sets f) (element_pattern f) (one_of R) Hap is_glyph glyph_feeds (glyph_fan_rule f R) (glyph_fan_ok f R) js w [outs1] 0 (taken rs) (pieces ++ [last]) 255 fan_one_usable E) as (outs & O1 & O2);
        [rewrite fan_expects; reflexivity|exact (taken_forall _ _ H255)|].
      cbn in O1. injection O1 as <-. exact O2.
  Qed.
End Run.

Section Rules.
  Variables (id : Z) (date : Date) (ops : list bop) (o : order) (sort : list Model_Mask.fragment -> list Model_Mask.fragment) (b' : builder) (f : Font).
  Hypothesis HD : date_typed date.
  Hypothesis HT : Forall op_typed ops.
  Hypothesis HO : perm_order o.
  Hypothesis HS : forall l, Permutation l (sort l).
  Hypothesis HB : Build o sort (history id date ops) = (b', Ok f).
  Variable R : list (Z * Z).

  Lemma set_members_read s uid rs : set_indexed_as b' uid s -> rs <> [] -> means_ranges b' (true, uid) rs -> glyph_members f (InSet s) rs.
  Proof.
    intros HI Hne (st & ranges & singles & I1 & -> & C1 & C2). cbn [fst snd] in *.
    destruct (built_history id date ops o sort b' f HD HT HO HS HB) as (l & E & DS & BT & FN & _). pose proof (ds_glyph_sets _ _ DS) as G. unfold glyph_sets_described in G.
    destruct (bt_sets _ _ _ BT) as (LS & L & _). pose proof (bt_glyphs _ _ _ BT) as LG. unfold MaxGlyphs in LG. pose proof (st_glyph_sets l) as S. rewrite <- E in S.
    pose proof (zget_ok_range _ _ _ HI) as RI.
    assert (GET : rewrites_GetGlyphSet f s = do t <- zget (l_glyph_sets l) s; Ok (set_bytes 2 t)).
    { rewrite <- zget_map. unfold rewrites_GetGlyphSet. apply set_located; rewrite ?zlen_map; auto; try lia. apply Forall_map, Forall_forall. intros t _. discriminate. }
    destruct (Forall2_zget _ _ _ s G) as [(uid' & t & X1 & X2 & st' & I2 & D1 & D2)|[X _]]; [|unfold set_indexed_as in HI; congruence].
    unfold set_indexed_as in HI. rewrite HI in X1. injection X1 as <-.
    pose proof (key_unique _ _ _ _ (proj1 (fn_sets _ FN)) I1 I2) as <-. rewrite X2 in GET. cbn [bind] in GET.
    assert (IX : forall u i, indexed_as b' u i -> 0 <= i < 56789) by (intros u i H; apply zget_ok_range in H; lia).
    assert (ND : NoDup (b_order b')) by (destruct (fn_glyphs _ FN) as (N & -> & _); exact N).
    split; [pose proof (F2_zlen' _ _ _ G); lia|]. split; [exact Hne|]. exists t. split; [exact GET|]. clear GET X2 G.
    assert (K1 : Forall (fun r : Z * Z => 0 <= fst r < 65536 /\ byte (snd r)) (set_ranges t) /\ ranges = map (fun r : Z * Z => (fst r, fst r + snd r)) (set_ranges t) /\ Forall (fun r : Z * Z => snd r < 65535) ranges).
    { clear Hne. revert ranges C1. induction D1 as [|p x ps xs (A1 & A2 & A3) _ IH]; intros ranges C1; inversion C1 as [|? r ? rest (P1 & P2) C1']; subst; [repeat split; constructor|].
      destruct (IH _ C1') as (J1 & -> & J2). pose proof (index_unique b' _ _ _ ND P1 A1) as B1. pose proof (index_unique b' _ _ _ ND P2 A2) as B2. apply IX in P1, P2.
      split; [constructor; [split; [lia|exact A3]|exact J1]|]. cbn [map]. split; [f_equal; rewrite (surjective_pairing r); f_equal; lia|constructor; [lia|exact J2]]. }
    assert (K2 : Forall (fun g => 0 <= g < 65536) (set_elements t) /\ singles = map (fun g => (g, g)) (set_elements t) /\ Forall (fun r : Z * Z => snd r < 65535) singles).
    { clear Hne. revert singles C2. induction D2 as [|u x us xs A1 _ IH]; intros singles C2; inversion C2 as [|? r ? rest (P1 & P2) C2']; subst; [repeat split; constructor|].
      destruct (IH _ C2') as (J1 & -> & J2). pose proof (index_unique b' _ _ _ ND P1 A1) as B1. apply IX in P1.
      split; [constructor; [lia|exact J1]|]. cbn [map]. split; [f_equal; rewrite (surjective_pairing r); f_equal; lia|constructor; [lia|exact J2]]. }
    destruct K1 as (K1 & -> & K3), K2 as (K2 & -> & K4). split; [split; assumption|]. split; [reflexivity|]. apply Forall_app. split; assumption.
  Qed.
  Lemma glyph_rule_any i a : zget (glyph_rules_added id date ops) i = Ok a -> of_ranges b' R a ->
    exists d q, rewrites_GetGlyphRule f i = Ok d /\ glyph_fan_rule f R d q /\ meant_any b' a q.
  Proof.
    intros G (W1 & W2). destruct (glyph_rule_found id date ops o sort b' f HD HT HO HS HB i a G) as (t & r & K & ST & E & LS & LO).
    assert (IX : forall x y, indexed_as b' x y -> 0 <= y < 56789) by (intros x y H; apply zget_ok_range in H; lia).
    destruct (stored_lengths 2 (indexed_as b') b' a r t K ST ltac:(lia)) as (L1 & L2 & L3 & L4 & L5 & L6). pose proof (stored_input (indexed_as b') b' a r t K ST) as SI.
    assert (SC : scannable glyph_kind 2 (fun x => x) t).
    { eapply stored_scannable with (R := indexed_as b'); try eassumption; try reflexivity; try lia.
      - intros x y _ X. apply IX in X. change (256 ^ Z.of_nat 2) with 65536. split; [lia|]. cbn [k_valid glyph_kind]. lia.
      - intros x y _ X. apply IX in X. change (256 ^ Z.of_nat 2) with 65536. lia. }
    destruct (rule_out t) as [|y l] eqn:EO; [rewrite zlen_nil in L4; lia|]. assert (l = []) by (apply zlen_0_nil; rewrite zlen_cons in L4; lia). subst l.
    set (el := fun x : bool * Z => if fst x then InSet (snd x) else Single (snd x)).
    assert (EL : rule_elements (fun x => x) t = map el (flat (rule_head t) ++ flat (rule_body t) ++ flat (rule_tail t))) by (unfold rule_elements; rewrite !flat_elements, !map_app; reflexivity).
    assert (ND : NoDup (b_order b')).
    { destruct (built_history id date ops o sort b' f HD HT HO HS HB) as (l & _ & _ & _ & FN & _). destruct (fn_glyphs _ FN) as (N & -> & _). exact N. }
    assert (RG : Forall2 (fun x e => exists rs, (incl rs R /\ NoDup rs) /\ means_ranges b' x rs /\ glyph_members f e rs) (ad_input a) (rule_elements (fun x => x) t)).
    { rewrite EL. apply (Proofs_Meant2.F2_impl (fun (x y : bool * Z) => fst x = fst y /\ if fst x then set_indexed_as b' (snd x) (snd y) else indexed_as b' (snd x) (snd y))); [|exact SI].
      intros [g x] [g' z] Hx _ [Hg Hz]. cbn [fst snd] in *. subst g'. pose proof (proj1 (Forall_forall _ _) W2 _ Hx) as (rs & Hm & Hn & Hi & Hd). exists rs. split; [split; assumption|]. split; [exact Hm|].
      destruct g; unfold el; cbn [fst snd].
      - exact (set_members_read z x rs Hz Hn Hm).
      - destruct Hm as (q & M1 & ->). cbn [fst snd] in *. cbn [glyph_members]. rewrite (index_unique b' _ _ _ ND M1 Hz). reflexivity. }
    exists (rule_bytes 2 t), (mkSRule 255 (map (element_pattern f) (block_elements (fun x => x) (rule_head t))) (map (element_pattern f) (block_elements (fun x => x) (rule_body t)))
      (map (element_pattern f) (block_elements (fun x => x) (rule_tail t))) [y]). split; [exact E|]. split.
    - exists t. split; [reflexivity|]. split; [split; [exact SC|]; split; [exact L5|]; do 3 (split; [reflexivity|]); exists y; split; [exact EO|reflexivity]|].
      clear - RG. induction RG as [|x e l m (rs & (G1 & G2) & _ & G3) _ IH]; constructor; [exists rs; auto|exact IH].
    - split; [reflexivity|]. cbn [q_head q_tail q_out]. rewrite !zlen_map, !block_elements_len. split; [exact L1|]. split; [exact L3|]. split.
      + unfold q_pattern. cbn [q_head q_body q_tail]. rewrite <- !map_app. change (_ ++ _ ++ _) with (rule_elements (fun x => x) t).
        pose proof (rule_bytes_ok _ _ _ _ SC) as Hb. pose proof (read_glyph _ SC) as Hs.
        apply (Proofs_Meant2.F2_impl (fun x e => exists rs, (incl rs R /\ NoDup rs) /\ means_ranges b' x rs /\ glyph_members f e rs)); [|exact RG]. intros x e _ He (rs & _ & G2 & G3). exists rs. split; [exact G2|].
        pose proof (glyph_members_covers f e rs G3 (fun x Ex => glyph_succ _ _ x Hb Hs (eq_ind e (fun e => In e _) He _ Ex))) as (_ & _ & C3 & _). exact C3.
      + pose proof ST as ((_ & _ & _ & _ & OF & _) & _). rewrite (kp_out _ _ K), EO in OF. exact OF.
  Qed.

  Hypothesis Hap : apart R.
  Lemma glyph_any_run : 1 <= zlen (glyph_rules_added id date ops) -> Forall (of_ranges b' R) (glyph_rules_added id date ops) -> short_tails (glyph_rules_added id date ops) ->
    begin_apart b' (glyph_rules_added id date ops) ->
    exists ds rs, (zlen rs = zlen (glyph_rules_added id date ops) /\
      forall i a, zget (glyph_rules_added id date ops) i = Ok a -> exists d r, zget ds i = Ok d /\ zget rs i = Ok r /\
        rewrites_GetGlyphRule f i = Ok d /\ meant_any b' a r) /\
      forall e pieces last, conditions_known e -> e_sets e = glyph_sets f ->
        run_jobs glyph_tester (false, new_tester) (one_sequence ds rs e pieces last) = Err "DecisionTreeCompiler hit a limit" /\ fan_crowded (one_of R) (taken rs) \/
        exists w outs, run_jobs glyph_tester (false, new_tester) (one_sequence ds rs e pieces last) = Ok (w, [outs]) /\
          Forall2 (fun piece out => q_rewriting (q_longest (taken rs)) (taken rs) (filter is_glyph piece) out) (pieces ++ [last]) outs.
  Proof.
    intros HN HP TL BA. rewrite Forall_forall in HP.
    set (P := fun i a d r => rewrites_GetGlyphRule f i = Ok d /\ glyph_fan_rule f R d r /\ meant_any b' a r).
    destruct (choose_list (fun i a (y : list Z * srule) => P i a (fst y) (snd y)) (glyph_rules_added id date ops)) as (m & L & M).
    { intros i a A. destruct (glyph_rule_any i a A (HP a (zget_in _ _ _ A))) as (d & q & X1 & X2 & X3). exists (d, q). unfold P. auto. }
    destruct (q_split_pairs (P := P) _ _ L M) as (LM & X). exists (map fst m), (map snd m).
    assert (B0 : forall i r, zget (map snd m) i = Ok r -> exists a d, zget (glyph_rules_added id date ops) i = Ok a /\ zget (map fst m) i = Ok d /\ P i a d r).
    { intros i r I1. pose proof (zget_ok_range _ _ _ I1) as RG.
      destruct (zget_in_range (glyph_rules_added id date ops) i) as (a & A); [lia|]. destruct (X i a A) as (d & r' & Y1 & Y2 & Y3). rewrite I1 in Y2. injection Y2 as <-. eauto 6. }
    assert (B : forall r, In r (map snd m) -> exists i a d, zget (glyph_rules_added id date ops) i = Ok a /\ zget (map fst m) i = Ok d /\ P i a d r).
    { intros r Hr. destruct (Proofs_Font4.in_zget _ _ Hr) as (i & I1). exists i. apply B0. exact I1. }
    split; [split; [exact LM|]; intros i a A; destruct (X i a A) as (d & r & Y1 & Y2 & Y3 & _ & Y5); eauto 6|].
    intros e pieces last HE HF. apply (fan_one_run f R Hap); [| |lia|exact HE|exact HF| |].
    - assert (G : forall y, In y m -> glyph_fan_rule f R (fst y) (snd y)).
      { intros y Y. destruct (Proofs_Font4.in_zget _ _ Y) as (i & I1). pose proof (zget_ok_range _ _ _ I1) as RG. destruct (zget_in_range (glyph_rules_added id date ops) i) as (a & A); [unfold zlen in *; lia|].
        destruct (M i a A) as (y' & Y1 & _ & Y2 & _). rewrite I1 in Y1. injection Y1 as <-. exact Y2. }
      clear - G. induction m as [|y m IH]; cbn [map]; constructor; [apply G; left; reflexivity|apply IH; intros z Z0; apply G; right; exact Z0].
    - apply Forall_forall. intros r Hr. destruct (B r Hr) as (i & a & d & _ & _ & _ & _ & Y). apply Y.
    - destruct TL as [TL|TL]; rewrite Forall_forall in TL; [left|right]; apply Forall_forall; intros r Hr; destruct (B r Hr) as (i & a & d & A & _ & _ & _ & (_ & Y1 & Y2 & _));
        specialize (TL a (zget_in _ _ _ A)).
      + apply zlen_0_nil. lia.
      + split; [apply zlen_0_nil; lia|lia].
    - assert (NZ : forall {T} (l : list T) i x, zget l (Z.of_nat i) = Ok x <-> nth_error l i = Some x).
      { intros T l i x. unfold zget. replace (Z.of_nat i <? 0) with false by lia. rewrite Nat2Z.id. destruct (nth_error l i); split; congruence. }
      assert (FS : forall a q g, meant_any b' a q -> starts_with q g -> exists x rest rs, ad_input a = x :: rest /\ means_ranges b' x rs /\ within_one rs g).
      { intros a q g (_ & _ & _ & F & _) (p & ps & E1 & E2). rewrite E1 in F. inversion F as [|x ? rest ? (rs & M1 & M2) _ E3 E4]; subst. exists x, rest, rs. split; [reflexivity|]. split; [exact M1|]. apply M2. exact E2. }
      intros i j r r' g Hij Hi Hj _ Hr Hr'. destruct (B0 _ _ (proj2 (NZ _ _ _ _) Hi)) as (a & d & A1 & _ & _ & _ & A2). destruct (B0 _ _ (proj2 (NZ _ _ _ _) Hj)) as (a' & d' & A1' & _ & _ & _ & A2').
      destruct (FS _ _ _ A2 Hr) as (x & rest & rs & F1 & F2 & F3). destruct (FS _ _ _ A2' Hr') as (x' & rest' & rs' & F1' & F2' & F3').
      exact (BA i j a a' x x' rest rest' rs rs' g Hij (proj1 (NZ _ _ _ _) A1) (proj1 (NZ _ _ _ _) A1') F1 F1' F2 F2' F3 F3').
  Qed.

  Let b := history id date ops.
  Lemma any_run_history : 1 <= zlen (glyph_rules_added id date ops) -> Forall (of_ranges b R) (glyph_rules_added id date ops) -> short_tails (glyph_rules_added id date ops) ->
    begin_apart b (glyph_rules_added id date ops) ->
    exists ds rs, (zlen rs = zlen (glyph_rules_added id date ops) /\
      forall i a, zget (glyph_rules_added id date ops) i = Ok a -> exists d r, zget ds i = Ok d /\ zget rs i = Ok r /\
        rewrites_GetGlyphRule f i = Ok d /\ meant_any b a r) /\
      forall e pieces last, conditions_known e -> e_sets e = glyph_sets f ->
        run_jobs glyph_tester (false, new_tester) (one_sequence ds rs e pieces last) = Err "DecisionTreeCompiler hit a limit" /\ fan_crowded (one_of R) (taken rs) \/
        exists w outs, run_jobs glyph_tester (false, new_tester) (one_sequence ds rs e pieces last) = Ok (w, [outs]) /\
          Forall2 (fun piece out => q_rewriting (q_longest (taken rs)) (taken rs) (filter is_glyph piece) out) (pieces ++ [last]) outs.
  Proof.
    destruct (kept_builder id date ops o sort b' f HD HT HO HS HB) as (_ & _ & _ & _ & E1 & _ & _ & _ & E2 & _).
    pose proof glyph_any_run as G. unfold of_ranges, begin_apart, meant_any, means_ranges, indexed_as in *. rewrite E1, E2 in G. exact G.
  Qed.
End Rules.

(** What an element means is determined. *)
Lemma means_unique b x rs rs' : NoDup (b_order b) -> NoDup (map fst (b_glyphSets b)) -> means_ranges b x rs -> means_ranges b x rs' -> rs = rs'.
Proof.
  intros N1 N2. unfold means_ranges. destruct (fst x).
  - intros (s & r1 & r2 & H1 & -> & H2 & H3) (s' & r1' & r2' & H1' & -> & H2' & H3'). rewrite <- (key_unique _ _ _ _ N2 H1 H1') in *. f_equal.
    + clear - N1 H2 H2'. revert r1' H2'. induction H2 as [|p r ps r1 [A1 A2] _ IH]; intros r1' H'; inversion H' as [|? r' ? r2 [B1 B2] H'']; subst; [reflexivity|].
      f_equal; [|exact (IH _ H'')]. rewrite (surjective_pairing r), (surjective_pairing r'). f_equal; eapply index_unique; eassumption.
    + clear - N1 H3 H3'. revert r2' H3'. induction H3 as [|p r ps r1 [A1 A2] _ IH]; intros r2' H'; inversion H' as [|? r' ? r2 [B1 B2] H'']; subst; [reflexivity|].
      f_equal; [|exact (IH _ H'')]. assert (fst r = fst r') by (eapply index_unique; eassumption). rewrite (surjective_pairing r), (surjective_pairing r'). congruence.
  - intros (i & H1 & ->) (j & H2 & ->). rewrite (index_unique b _ _ _ N1 H1 H2). reflexivity.
Qed.
Lemma apart_by_list b l firsts : NoDup (b_order b) -> NoDup (map fst (b_glyphSets b)) ->
  Forall2 (fun a rs => exists x rest, ad_input a = x :: rest /\ means_ranges b x rs) l firsts ->
  (forall i j rs rs' g, i <> j -> nth_error firsts i = Some rs -> nth_error firsts j = Some rs' -> within_one rs g -> ~ within_one rs' g) -> begin_apart b l.
Proof.
  intros N1 N2 F H i j a a' x x' rest rest' rs rs' g Hij Hi Hj Ea Ea' M M'.
  assert (K : forall i a x rest rs, nth_error l i = Some a -> ad_input a = x :: rest -> means_ranges b x rs -> nth_error firsts i = Some rs).
  { clear - F N1 N2. induction F as [|a0 rs0 l firsts (y & r0 & E & M0) _ IH]; intros [|i] a x rest rs Hi Ea M; cbn [nth_error] in *; try discriminate.
    - injection Hi as <-. rewrite E in Ea. injection Ea as <- <-. f_equal. exact (means_unique b _ _ _ N1 N2 M0 M).
    - exact (IH i a x rest rs Hi Ea M). }
  exact (H i j rs rs' g Hij (K _ _ _ _ _ Hi Ea M) (K _ _ _ _ _ Hj Ea' M')).
Qed.
