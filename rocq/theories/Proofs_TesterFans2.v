(** The rewrite testers with rules that have any sets, no two of which can start with the same element:
    compiling, and consequences. *)
From Verif Require Import Base BaseFacts Spec_Helpers Model_Helpers Spec_Layout Model_Font Model_Rewrites Proofs_Rewrites Model_Scanner Spec_Scanner Proofs_Scanner2 Proofs_Scanner3 Model_CircularBuffer
  Model_Tree Spec_Tree Spec_TreeSets Proofs_Tree Proofs_Tree2 Proofs_Tree3 Proofs_Tree4 Proofs_Tree5 Model_Tester Spec_Tester Spec_Session Spec_TesterRules Proofs_Tester Proofs_Tester2 Proofs_Tester4 Proofs_Tester5 Proofs_Tester6 Proofs_Tester7 Spec_TesterSets
  Proofs_Tester8 Proofs_Tester10 Proofs_Tester11 Proofs_Tester12 Spec_Fans Proofs_Fans Proofs_Fans2 Proofs_Any Spec_TesterFans Proofs_TesterFans.

Lemma fan_impl {A B} (P Q : A -> B -> Prop) l l' : (forall a b, P a b -> Q a b) -> Forall2 P l l' -> Forall2 Q l l'.
Proof. intros H. induction 1; constructor; auto. Qed.
Lemma fan_nodup_app {A} (a b : list A) : NoDup a -> NoDup b -> (forall x, In x a -> ~ In x b) -> NoDup (a ++ b).
Proof.
  induction 1 as [|x a Hx Ha IH]; intros Hb H; [exact Hb|]. cbn [app]. constructor.
  - intros Hin. apply in_app_or in Hin. destruct Hin as [Hin|Hin]; [contradiction|exact (H x (or_introl eq_refl) Hin)].
  - apply IH; [exact Hb|]. intros y Hy. apply H. right. exact Hy.
Qed.
Section Fans.
  Variables (tk : tester_kind) (sets : set_reader) (pat : element -> Z -> Prop) (R : Z * Z -> Prop).
  Hypothesis HR : forall a b, R a -> R b -> a = b \/ snd a < fst b \/ snd b < fst a.
  Notation k := (tk_kind tk).
  Definition fan_covers (e : element) (rs : list (Z * Z)) : Prop := covers_all k sets pat e rs /\ NoDup rs /\ Forall R rs.
  Definition fan_rule (d : list Z) (r : srule) : Prop :=
    sized tk d r /\ exists es rss, scan k d = Ok es /\ map pat es = q_pattern r /\ Forall2 fan_covers es rss.
  Lemma fan_sized d r : fan_rule d r -> sized tk d r.
  Proof. intros H. apply H. Qed.

  Record laid_out (c from : Z) (rules : list srule) (own : list (list Z * Z)) (els : list (list element * Z)) (members : list (list (list (Z * Z)))) : Prop := {
    lo_scan : Forall2 (fun d e => scan k (fst d) = Ok (fst e) /\ snd d = snd e /\ fst e <> []) own els;
    lo_cov : Forall2 (fun e rss => Forall2 fan_covers (fst e) rss) els members;
    lo_group : map (fan_pattern pat) els = q_patterns (filter (fun e => q_cond (fst e) =? c) (q_numbered from rules));
    lo_inc : increasing from (map snd els);
    lo_firsts : NoDup (firsts members);
    lo_from : forall g, In g (firsts members) -> exists r, In r rules /\ q_cond r = c /\ starts_with r (fst g);
    lo_flat : headless rules -> Forall (fun d => zget (fst d) 1 = Ok 0) own }.
  Lemma increasing_weaken a b l : a <= b -> increasing b l -> increasing a l.
  Proof. destruct l as [|y l]; cbn [increasing]; [auto|]. intros H [H1 H2]. split; [lia|exact H2]. Qed.
  Lemma lay_out c data rules : Forall2 fan_rule data rules -> forall from own, starts_apart rules -> 0 <= from -> from + zlen rules <= 255 -> rules_with c from data = Ok own ->
    exists els members, laid_out c from rules own els members.
  Proof.
    induction 1 as [|d r ds rs Hd _ IH]; intros from own Hap Hf Hl E; cbn [rules_with] in E.
    { injection E as <-. exists [], []. constructor; cbn; try constructor. intros g []. }
    rewrite zlen_cons in Hl. pose proof (zlen_nonneg rs) as Hz. destruct Hd as (Hsz & es & rss & Hs & Hp & HF). pose proof Hsz as (_ & Hc & Hh & _). rewrite Hc in E. cbn [bind] in E. apply bind_ok in E. destruct E as (l & E & E').
    assert (Hap' : starts_apart rs) by (intros i j a b x Hij Ha Hb; apply (Hap (S i) (S j) a b x); [congruence|exact Ha|exact Hb]).
    destruct (IH (from + 1) l Hap' ltac:(lia) ltac:(lia) E) as (els & members & L). destruct L as [L1 L2 L3 L4 L5 L6 L7].
    assert (L6' : forall g, In g (firsts members) -> exists r', In r' (r :: rs) /\ q_cond r' = c /\ starts_with r' (fst g)).
    { intros g Hg. destruct (L6 g Hg) as (r' & G1 & G). exists r'. split; [right; exact G1|exact G]. }
    destruct (Z.eqb_spec (q_cond r) c) as [Ec|Nc]; injection E' as <-.
    - assert (Eu : u8 from = from) by (unfold u8; apply Z.mod_small; lia). rewrite Eu. exists ((es, from) :: els), (rss :: members).
      assert (Hes : es <> []). { intros ->. destruct (q_pattern r) eqn:Ep; [|discriminate]. exact (sized_ne _ _ _ Hsz Ep). }
      assert (Hst : forall g, In g (hd [] rss) -> starts_with r (fst g)).
      { intros g Hg. destruct HF as [|e rs1 es' rss' ((C1 & _ & C3 & _) & _) HF]; [contradiction|]. cbn [hd] in Hg. cbn [map] in Hp. exists (pat e), (map pat es'). split; [symmetry; exact Hp|].
        apply C3. exists g. split; [exact Hg|]. pose proof (proj1 (Forall_forall _ _) C1 g Hg) as [C4 _]. lia. }
      constructor; cbn [fst snd map q_numbered filter increasing].
      + constructor; [|exact L1]. cbn [fst snd]. auto.
      + constructor; [exact HF|exact L2].
      + replace (q_cond r =? c) with true by lia. unfold q_patterns in *. cbn [map fst snd]. rewrite <- L3. unfold fan_pattern at 1. cbn [fst snd]. rewrite Hp. reflexivity.
      + split; [lia|exact L4].
      + unfold firsts. cbn [map concat]. fold (firsts members). destruct HF as [|e rs1 es' rss' (_ & Hn & _) HF]; [contradiction|]. cbn [hd].
        apply fan_nodup_app; [exact Hn|exact L5|]. intros g G1 G2. destruct (L6 g G2) as (r' & G3 & G4 & G5). apply In_nth_error in G3. destruct G3 as (j & G3).
        apply (Hap 0%nat (S j) r r' (fst g) ltac:(discriminate) eq_refl G3 ltac:(congruence)); [exact (Hst g G1)|exact G5].
      + intros g Hg. unfold firsts in Hg. cbn [map concat] in Hg. apply in_app_or in Hg. destruct Hg as [Hg|Hg]; [|exact (L6' g Hg)]. exists r. split; [left; reflexivity|]. split; [exact Ec|exact (Hst g Hg)].
      + intros Hh'. constructor; [|apply L7; exact (Forall_inv_tail Hh')]. cbn [fst]. unfold rule_HeadLen in Hh. rewrite Hh, (Forall_inv Hh'), zlen_nil. reflexivity.
    - exists els, members. constructor; try assumption; cbn [q_numbered filter fst].
      + replace (q_cond r =? c) with false by lia. exact L3.
      + apply (increasing_weaken from (from + 1)); [lia|exact L4].
      + intros Hh'. apply L7. exact (Forall_inv_tail Hh').
  Qed.

  Lemma fan_laid c from rules own els members : laid_out c from rules own els members ->
    Forall2 (fun e rss => Forall2 (covers_all k sets pat) (fst e) rss) els members /\ fanned members /\    Forall2 (fun e rss => Forall2 (made_up R) (fst e) rss) (map (fan_pattern pat) els) members /\    Forall2 (fun e rss => zlen (fst e) = zlen rss) (map (fan_pattern pat) els) members.
  Proof.
    intros L. pose proof (lo_cov _ _ _ _ _ _ L) as C. split; [|split; [|split]].
    - eapply fan_impl; [|exact C]. intros e rss H. eapply fan_impl; [|exact H]. intros x y Hxy. apply Hxy.
    - assert (K : Forall (Forall (fun rs => NoDup rs /\ Forall R rs)) members).
      { clear - C. induction C as [|e rss els members H _ IH]; constructor; [|exact IH]. clear - H. induction H as [|e0 rs0 es0 rss0 H _ IH]; constructor; [apply H|exact IH]. }
      split; [|split; [|exact (lo_firsts _ _ _ _ _ _ L)]].
      + assert (G : forall g, In g (concat (concat members)) -> R g).
        { intros g Hg. apply in_concat in Hg. destruct Hg as (rs & Hrs & Hg). apply in_concat in Hrs. destruct Hrs as (rss & Hrss & Hrs). rewrite Forall_forall in K. specialize (K _ Hrss).
          rewrite Forall_forall in K. destruct (K _ Hrs) as [_ K']. rewrite Forall_forall in K'. exact (K' g Hg). }
        intros a b Ha Hb. apply HR; apply G; assumption.
      + eapply Forall_impl; [|exact K]. intros rss H. eapply Forall_impl; [|exact H]. intros rs Hr. apply Hr.
    - clear - C. induction C as [|e rss els members H _ IH]; cbn [map]; constructor; [|exact IH]. cbn [fan_pattern fst]. clear - H. induction H as [|e0 rs0 es0 rss0 (H1 & H2 & H3) _ IH]; cbn [map]; constructor; [|exact IH].
      split; [exact H2|]. split; [exact H3|]. exact (proj1 (proj2 (proj2 H1))).
    - clear - C. induction C as [|e rss els members H _ IH]; cbn [map]; constructor; [|exact IH]. cbn [fan_pattern fst]. rewrite BaseFacts.zlen_map. exact (F2_zlen' _ _ _ H).
  Qed.
  Lemma fans_compile data rules c own : Forall2 fan_rule data rules -> zlen rules <= 254 -> starts_apart rules -> rules_with c 0 data = Ok own -> own <> [] ->
    (compile k sets own = Err "DecisionTreeCompiler hit a limit" /\ fan_crowded R rules) \/
    exists st, compile k sets own = Ok st /\ good_fit st (q_group c rules) /\ (Proofs_Any.headless rules -> blocking st).
  Proof.
    intros H Hm Hap E Hne. destruct (lay_out c data rules H 0 own Hap ltac:(lia) ltac:(lia) E) as (els & members & L). destruct (fan_laid _ _ _ _ _ _ L) as (Hcov & Hfan & Hmade & Hlen).
    pose proof (lo_scan _ _ _ _ _ _ L) as Hscan. pose proof (lo_inc _ _ _ _ _ _ L) as Hinc. pose proof (lo_group _ _ _ _ _ _ L) as Hg. fold (q_group c rules) in Hg.
    destruct (fans_compiled k sets pat own els members Hscan Hcov Hfan Hinc Hne) as [[E1 E2]|(st & E1 & E2 & E3)].
    - left. split; [exact E1|]. exists c, members. split; [|exact E2]. rewrite <- Hg. exact Hmade.
    - right. exists st. split; [exact E1|].
      assert (G : good_fit st (q_group c rules)).
      { rewrite <- Hg. apply good_of_match; [intros input; apply E3|]. intros w d Ew Hs.
        assert (Hinc' : increasing 0 (map snd (fan_rules els members))) by (rewrite (fan_snd k sets pat els members Hcov); exact Hinc).
        destruct (@fans_fed _ k sets own (fan_rules els members) st (fan_patterns k sets pat own els members Hscan Hcov Hfan) Hne Hinc' (fan_heads_nodup k sets pat els members Hcov Hfan) E1 w d Ew Hs) as [->|(Ns & i & Hin & Hl)]; [left; reflexivity|right].
        unfold fan_rules in Hin. apply in_map_iff in Hin. destruct Hin as ([e rss] & Ee & Hin). unfold fan_letters in Ee. cbn [fst snd] in Ee. injection Ee as <- <-.
        exists (map pat (fst e)), (snd e). rewrite BaseFacts.zlen_map. unfold zlen in Hl at 2. rewrite map_length in Hl. fold (zlen rss) in Hl. split; [apply in_map_iff; exists e; split; [reflexivity|exact (in_combine_l _ _ _ _ Hin)]|].
        assert (El : zlen (fst e) = zlen rss); [|lia]. clear - Hin Hcov. induction Hcov as [|a b l l' H _ IH]; [destruct Hin|]. destruct Hin as [[= -> ->]|Hin]; [exact (F2_zlen' _ _ _ H)|exact (IH Hin)]. }
      split; [exact G|]. intros Hh. pose proof (lo_flat _ _ _ _ _ _ L Hh) as Hf.
      assert (Hr : Forall (fun d : list Z * Z => (exists es, scan k (fst d) = Ok es /\ Forall (reads_ranges k sets) es) /\ zget (fst d) 1 = Ok 0) own).
      { clear - Hscan Hcov Hf. revert members Hcov. induction Hscan as [|d e ds es (H1 & _) _ IH]; intros members Hcov; constructor.
        - split; [|exact (Forall_inv Hf)]. exists (fst e). split; [exact H1|]. inversion Hcov as [|? rss ? ms Hc _]; subst. clear - Hc. induction Hc as [|x rs l l' (_ & _ & _ & H) _ IH]; constructor; [|exact IH].
          destruct x; [|exact I]. exists rs. apply H.
        - inversion Hcov; subst. eapply IH; [exact (Forall_inv_tail Hf)|eassumption]. }
      pose proof (f_compile_flat k sets own st Hr E1) as Fl. destruct (G [0]) as (d & Ed & _). unfold fed in Ed. cbn [ofold] in Ed. apply bind_ok in Ed. destruct Ed as (d1 & Ed & _).
      unfold feed, tree_Feed in Ed. cbn [d_scanning d_states d_index negb] in Ed. apply bind_ok in Ed. destruct Ed as (s0 & Ed & _). exists s0. split; [exact Ed|].
      exact (proj1 (Forall_forall _ _) Fl s0 (zget_in _ _ _ Ed)).
  Qed.

  (** ** Sessions *)
  Variable accepted : Z -> bool.
  Hypothesis Hfeeds : forall g, tk_feed tk g = Ok (accepted g) \/ (accepted g = false /\ exists m, tk_feed tk g = Err m).
  Variable rule_of : list Z -> srule -> Prop.
  Hypothesis Hrule : forall d r, rule_of d r -> fan_rule d r.
  Notation usable := (fan_usable rule_of sets).
  Lemma fan_of_usable d r : rule_of d r -> q_pattern r <> [] /\ decided r.
  Proof.
    intros H. apply Hrule in H. split; [exact (sized_ne _ _ _ (fan_sized _ _ H))|]. destruct H as (_ & es & rss & _ & Hp & HF). unfold decided. rewrite <- Hp. clear Hp.
    induction HF as [|e rs es rss ((_ & _ & H & _) & _) _ IH]; cbn [map]; constructor; [|exact IH]. intros x. rewrite (H x). clear H.
    induction rs as [|g rs IHr]; [right; intros (q & [] & _)|]. destruct IHr as [(q & Q1 & Q2)|Hn]; [left; exists q; split; [right; exact Q1|exact Q2]|].
    destruct (Z_le_dec (fst g) x), (Z_le_dec x (snd g)); [left; exists g; split; [left; reflexivity|lia]|right..]; intros (q & [<-|Q1] & Q2); try lia; apply Hn; exists q; auto.
  Qed.
  Lemma fan_usable_ok js : usable js -> run_jobs tk (false, new_tester) js = Err "DecisionTreeCompiler hit a limit" /\ Exists (fan_crowded R) (compilations new_session js) \/
    exists w os, run_jobs tk (false, new_tester) js = Ok (w, os) /\ Forall2 (fun e o => q_fits accepted (fst e) (snd e) o) (expected new_session js) os.
  Proof.
    intros ((H1 & H2 & H3) & H4).
    refine (a_jobs_ok tk sets rule_of (fun d r H => fan_sized d r (Hrule d r H)) starts_apart (fan_crowded R) _ accepted Hfeeds js new_tester new_session (a_new_idle rule_of) H1 H2 H3 H4).
    intros data rules c own HF. apply fans_compile. eapply fan_impl; [|exact HF]. exact Hrule.
  Qed.
  Lemma fan_usable_run js w os : usable js -> run_jobs tk (false, new_tester) js = Ok (w, os) -> Forall2 (fun e o => q_fits accepted (fst e) (snd e) o) (expected new_session js) os.
  Proof. intros H E. destruct (fan_usable_ok js H) as [[X _]|(w1 & os1 & X & F)]; [congruence|]. rewrite E in X. injection X as <- <-. exact F. Qed.
  Lemma fan_usable_rules js i rules pieces : usable js -> nth_error (expected new_session js) i = Some (rules, pieces) ->
    zlen rules <= 254 /\ Forall (fun r => q_pattern r <> [] /\ decided r) rules.
  Proof.
    intros ((L & _) & _) N. pose proof (q_expected_sound rule_of (fun r => q_pattern r <> [] /\ decided r) fan_of_usable js _ (q_sound_new _) L) as S.
    exact (proj1 (Forall_forall _ _) S _ (nth_error_In _ _ N)).
  Qed.
  Lemma fan_room_ok js : usable js -> Forall (fun rules => ~ fan_crowded R rules) (compilations new_session js) -> exists w os, run_jobs tk (false, new_tester) js = Ok (w, os).
  Proof.
    intros H Hl. destruct (fan_usable_ok js H) as [[_ X]|(w & os & X & _)]; [|eauto]. exfalso. apply Exists_exists in X. destruct X as (rules & Hin & X). rewrite Forall_forall in Hl. exact (Hl _ Hin X).
  Qed.
  Lemma fan_session_longest js w os i rules pieces c : usable js -> run_jobs tk (false, new_tester) js = Ok (w, os) ->
    nth_error (expected new_session js) i = Some (rules, pieces) -> Forall (fun r => q_cond r = c) rules ->
    exists o, nth_error os i = Some o /\ Forall2 (fun piece out => q_rewriting (q_longest rules) rules (filter accepted piece) out) pieces o.
  Proof.
    intros U E N Hc. destruct (Forall2_nth _ _ _ (fan_usable_run js w os U E) _ _ N) as (o & O1 & O2). exists o. split; [exact O1|]. destruct (fan_usable_rules js i rules pieces U N) as [S1 S2].
    assert (S3 : Forall decided rules) by (apply (Forall_impl _ (fun r (G : q_pattern r <> [] /\ decided r) => proj2 G) S2)).
    clear - O2 Hc S1 S3. unfold q_fits in O2. cbn [fst snd] in O2. induction O2 as [|p x ps xs H _ IH]; constructor; [|exact IH].
    exact (q_rewriting_weaken _ _ _ _ _ (fun i m => q_one_condition c rules i m Hc S3 S1) H).
  Qed.
  Lemma fan_session_independent js js' w os w' os' i j e : usable js -> usable js' ->
    run_jobs tk (false, new_tester) js = Ok (w, os) -> run_jobs tk (false, new_tester) js' = Ok (w', os') ->
    nth_error (expected new_session js) i = Some e -> nth_error (expected new_session js') j = Some e ->
    exists o, nth_error os i = Some o /\ nth_error os' j = Some o.
  Proof.
    intros U U' E E' N N'. destruct (Forall2_nth _ _ _ (fan_usable_run js w os U E) _ _ N) as (o & O1 & O2). destruct (Forall2_nth _ _ _ (fan_usable_run js' w' os' U' E') _ _ N') as (o' & O1' & O2').
    destruct e as [rules pieces]. destruct (fan_usable_rules js i rules pieces U N) as [S1 S2].
    assert (S3 : Forall (fun r => q_pattern r <> []) rules) by (apply (Forall_impl _ (fun r (G : q_pattern r <> [] /\ decided r) => proj1 G) S2)).
    pose proof (q_fits_unique accepted rules pieces o o' S1 S3 O2 O2') as <-. eauto.
  Qed.
  Lemma fan_session_empty js w os i pieces : usable js -> run_jobs tk (false, new_tester) js = Ok (w, os) ->
    nth_error (expected new_session js) i = Some ([], pieces) -> nth_error os i = Some (map (filter accepted) pieces).
  Proof.
    intros U E N. destruct (Forall2_nth _ _ _ (fan_usable_run js w os U E) _ _ N) as (o & O1 & O2). rewrite O1. f_equal. unfold q_fits in O2. cbn [fst snd] in O2. clear - O2.
    induction O2 as [|p x ps xs H _ IH]; [reflexivity|]. cbn [map]. f_equal; [|exact IH].
    induction H as [|y rest out _ _ IHr|m r h b t rest out Hn]; [reflexivity|f_equal; exact IHr|destruct m; discriminate].
  Qed.
End Fans.

(** ** The rules of fonts *)
Lemma encoded_sized tk w dec pat t q : q_encodes (tk_kind tk) w dec pat t q -> scan (tk_kind tk) (rule_bytes w t) = Ok (rule_elements dec t) ->
  (forall y, rule_out t = [y] -> tk_out tk (rule_bytes w t) = Ok [dec y]) -> sized tk (rule_bytes w t) q /\ map pat (rule_elements dec t) = q_pattern q.
Proof.
  intros (S & Hc & Eh & Eb & Et & y & Hy & Ho) Hs Hout. destruct (rule_fields w t) as (R1 & R2 & R3 & R4 & _). split.
  - unfold sized. rewrite R1, R2, R3, R4, Hc, Ho, Eh, Eb, Et, !BaseFacts.zlen_map. split; [exact (rule_bytes_ok _ _ _ _ S)|]. split; [reflexivity|].
    rewrite <- !(block_elements_len dec). do 3 (split; [reflexivity|]). split; [exact (Hout y Hy)|]. exists (rule_elements dec t). exact Hs.
  - unfold rule_elements, q_pattern. rewrite !map_app, Eh, Eb, Et. reflexivity.
Qed.
Lemma covered {A B} (P : A -> B -> Prop) l : Forall (fun a => exists b, P a b) l -> exists l', Forall2 P l l'.
Proof. induction 1 as [|a l (b & H) _ (l' & IH)]; [exists []; constructor|exists (b :: l'); constructor; assumption]. Qed.
Lemma glyph_fan_ok f R d r : glyph_fan_rule f R d r -> fan_rule glyph_tester (glyph_sets f) (element_pattern f) (one_of R) d r.
Proof.
  intros (t & -> & E & He). pose proof E as (S & _). pose proof (rule_bytes_ok _ _ _ _ S) as Hb. pose proof (read_glyph _ S) as Hs.
  destruct (encoded_sized glyph_tester 2 (fun x => x) (element_pattern f) t r E Hs) as [H1 H2].
  { intros y Ho. pose proof (sr_outputs _ _ _ _ S) as Hout. change (256 ^ Z.of_nat 2) with 65536 in Hout. cbn [tk_out glyph_tester]. rewrite (glyph_outs t Hout), Ho. reflexivity. }
  split; [exact H1|]. exists (rule_elements (fun x => x) t).
  assert (K : Forall (fun e => exists rs, fan_covers glyph_tester (glyph_sets f) (element_pattern f) (one_of R) e rs) (rule_elements (fun x => x) t)).
  { rewrite Forall_forall in He |- *. intros e Hin. destruct (He e Hin) as (rs & G1 & G2 & G3). exists rs. split; [|split; [exact G3|apply Forall_forall; exact G2]].
    apply glyph_members_covers; [exact G1|]. intros x ->. exact (glyph_succ _ _ x Hb Hs Hin). }
  destruct (covered _ _ K) as (rss & HF). exists rss. auto.
Qed.
Lemma utf8_fan_ok f d r : utf8_fan_rule f d r -> fan_rule utf8_tester (utf8_sets f) (rune_pattern f) one_rune d r.
Proof.
  intros (t & -> & E & He). pose proof E as (S & _). pose proof (read_utf8 _ S) as Hs.
  destruct (encoded_sized utf8_tester 4 i32 (rune_pattern f) t r E Hs) as [H1 H2].
  { intros y Ho. pose proof (sr_outputs _ _ _ _ S) as Hout. change (256 ^ Z.of_nat 4) with (2 ^ 32) in Hout. rewrite Ho in Hout. exact (utf8_outs_one t y Ho (Forall_inv Hout)). }
  split; [exact H1|]. exists (rule_elements i32 t).
  assert (K : Forall (fun e => exists rs, fan_covers utf8_tester (utf8_sets f) (rune_pattern f) one_rune e rs) (rule_elements i32 t)).
  { rewrite Forall_forall in He |- *. intros e Hin. destruct (He e Hin) as (Hm & rs & G1 & G3). exists rs. split; [|split; [exact G3|]].
    - apply rune_members_covers; [exact G1|]. intros x ->. apply (utf8_succ _ _ x Hs Hin). intros ->. apply Hm. reflexivity.
    - destruct e as [s|x]; cbn [rune_members] in G1; [|subst rs; repeat constructor]. destruct G1 as (_ & _ & st & _ & _ & ->). apply Forall_forall. intros g Hg. apply in_map_iff in Hg. destruct Hg as (y & <- & _). reflexivity. }
  destruct (covered _ _ K) as (rss & HF). exists rss. auto.
Qed.
Lemma one_rune_apart a b : one_rune a -> one_rune b -> a = b \/ snd a < fst b \/ snd b < fst a.
Proof. unfold one_rune. destruct a as [a a'], b as [b b']. cbn [fst snd]. intros <- <-. destruct (Z.eq_dec a b); [left; congruence|right; lia]. Qed.

(** ** Room *)
Lemma nodup_few R (l : list (Z * Z)) : NoDup l -> Forall (one_of R) l -> zlen l <= zlen R.
Proof. intros H1 H2. rewrite Forall_forall in H2. pose proof (NoDup_incl_length H1 H2). unfold zlen. lia. Qed.
Lemma roomy_group R c (Hle : forall r, In r R -> fst r <= snd r) rules : starts_apart rules -> Forall (fun r => q_pattern r <> []) rules -> forall from members,
  Forall2 (fun e rss => Forall2 (made_up (one_of R)) (fst e) rss) (q_patterns (filter (fun e => q_cond (fst e) =? c) (q_numbered from rules))) members ->
  fan_steps members <= steps (q_patterns (q_numbered from rules)) /\ NoDup (firsts members) /\ Forall (one_of R) (firsts members) /\
  Forall (Forall (fun N => zlen N <= zlen R)) members /\ forall g, In g (firsts members) -> exists r, In r rules /\ q_cond r = c /\ starts_with r (fst g).
Proof.
  induction rules as [|r rs IH]; intros Hap Hne from members H; cbn [q_numbered filter fst q_patterns map] in H.
  { inversion H; subst. cbn. repeat split; try constructor; [lia|]. intros g []. }
  assert (Hap' : starts_apart rs) by (intros i j a b x Hij Ha Hb; apply (Hap (S i) (S j) a b x); [congruence|exact Ha|exact Hb]).
  specialize (IH Hap' (Forall_inv_tail Hne) (from + 1)). pose proof (Forall_inv Hne) as Hp. cbv beta in Hp.
  assert (Hs : 0 <= zlen (q_pattern r) - 1) by (destruct (q_pattern r) as [|p l]; [contradiction|]; rewrite zlen_cons; pose proof (zlen_nonneg l); lia).
  unfold steps, q_patterns. cbn [q_numbered map fold_right fst snd]. fold (q_patterns (q_numbered (from + 1) rs)). fold (steps (q_patterns (q_numbered (from + 1) rs))).
  assert (W : forall g : Z * Z, (exists r', In r' rs /\ q_cond r' = c /\ starts_with r' (fst g)) -> exists r', In r' (r :: rs) /\ q_cond r' = c /\ starts_with r' (fst g)).
  { intros g (r' & G1 & G). exists r'. split; [right; exact G1|exact G]. }
  destruct (Z.eqb_spec (q_cond r) c) as [Ec|Nc]; cbn [map fst snd] in H.
  - inversion H as [|? rss ? ms Hr Hrest]; subst. cbn [fst] in Hr. destruct (IH ms Hrest) as (I1 & I2 & I3 & I4 & I5). unfold fan_steps at 1. cbn [fold_right]. fold (fan_steps ms).
    rewrite <- (F2_zlen' _ _ _ Hr). unfold firsts. cbn [map concat]. fold (firsts ms). split; [lia|].
    assert (Hst : NoDup (hd [] rss) /\ Forall (one_of R) (hd [] rss) /\ forall g, In g (hd [] rss) -> starts_with r (fst g)).
    { inversion Hr as [E1 E2|p rs1 ps rss1 (M1 & M2 & M3) _ E1 E2]; [congruence|]. cbn [hd]. split; [exact M1|]. split; [exact M2|]. intros g Hg. exists p, ps. split; [congruence|]. apply M3. exists g.
      split; [exact Hg|]. rewrite Forall_forall in M2. pose proof (Hle g (M2 g Hg)). lia. }
    destruct Hst as (S1 & S2 & S3). split; [|split; [|split]].
    + apply fan_nodup_app; [exact S1|exact I2|]. intros g G1 G2. destruct (I5 g G2) as (r' & G3 & G4 & G5). apply In_nth_error in G3. destruct G3 as (j & G3).
      apply (Hap 0%nat (S j) r r' (fst g) ltac:(discriminate) eq_refl G3 ltac:(congruence)); [exact (S3 g G1)|exact G5].
    + apply Forall_app. split; assumption.
    + constructor; [|exact I4]. clear - Hr. induction Hr as [|p rs l l' (M1 & M2 & _) _ IH]; constructor; [exact (nodup_few R rs M1 M2)|exact IH].
    + intros g Hg. apply in_app_or in Hg. destruct Hg as [Hg|Hg]; [|apply W; exact (I5 g Hg)]. exists r. split; [left; reflexivity|]. split; [reflexivity|exact (S3 g Hg)].
  - destruct (IH members H) as (I1 & I2 & I3 & I4 & I5). split; [lia|]. split; [exact I2|]. split; [exact I3|]. split; [exact I4|]. intros g Hg. apply W. exact (I5 g Hg).
Qed.
Lemma roomy R rules : (forall r, In r R -> fst r <= snd r) -> zlen R <= 254 -> starts_apart rules -> Forall (fun r => q_pattern r <> []) rules ->
  1 + steps (q_all rules) <= 254 -> ~ fan_crowded (one_of R) rules.
Proof.
  intros Hle HR Hap Hne Hs (c & members & H & Hn). apply Hn. destruct (roomy_group R c Hle rules Hap Hne 0 members H) as (I1 & I2 & I3 & I4 & _). split; [unfold q_all in Hs; lia|]. split.
  - pose proof (nodup_few R _ I2 I3). lia.
  - eapply Forall_impl; [|exact I4]. cbv beta. intros l Hl. assert (G : Forall (fun N : list (Z * Z) => zlen N <= 254) l) by (eapply Forall_impl; [|exact Hl]; cbv beta; intros; lia).
    destruct l; [constructor|exact (Forall_inv_tail G)].
Qed.
Lemma glyph_fan_room f R js : apart R -> (forall r, In r R -> fst r <= snd r) -> zlen R <= 254 -> fan_usable (glyph_fan_rule f R) (glyph_sets f) js ->
  Forall (fun rules => 1 + steps (q_all rules) <= 254) (compilations new_session js) -> exists w os, run_jobs glyph_tester (false, new_tester) js = Ok (w, os).
Proof.
  intros Hap Hle HR U Hl. pose proof (glyph_fan_ok f R) as Hok. apply (fan_room_ok glyph_tester (glyph_sets f) (element_pattern f) (one_of R) Hap is_glyph glyph_feeds (glyph_fan_rule f R) Hok js U).
  destruct U as ((L & _) & Ha).
  pose proof (q_compilations_sound (glyph_fan_rule f R) (fun r => q_pattern r <> []) (fun d r H => sized_ne _ _ _ (fan_sized _ _ _ _ _ _ (Hok d r H))) js _ (q_sound_new _) L) as S.
  rewrite Forall_forall in *. intros rules Hin. apply roomy; [exact Hle|exact HR|exact (Ha _ Hin)|exact (S _ Hin)|exact (Hl _ Hin)].
Qed.
