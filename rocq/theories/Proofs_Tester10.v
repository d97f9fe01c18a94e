(** Proofs about the rewrite testers with rules that may have sets which are ranges, and tails: sessions. *)
From Verif Require Import Base BaseFacts Model_Helpers Model_Font Model_Rewrites Model_Scanner Model_CircularBuffer Spec_CircularBuffer
  Proofs_CircularBuffer Proofs_Rewrites Model_Tree Spec_Tree Proofs_Tree Proofs_Tree2 Proofs_Tree3 Proofs_Tree4 Model_Tester Spec_Tester
  Proofs_Tester Proofs_Tester2 Proofs_Tester3 Spec_Session Spec_TesterSets Proofs_Tester4 Proofs_Tester5 Proofs_Tester7 Proofs_Tester8 Proofs_Tester9.

Definition n_crowded (rules : list nrule) : Prop := exists c, ~ within_limits (n_group c rules).
Section Idle.
  Context {AB : alphabet}.
  Variable k : tester_kind.
  Variable sets : set_reader.
  Notation limit := "DecisionTreeCompiler hit a limit"%string.

  Record n_idle (t : tester) (s : session nrule) : Prop := {
    n_d_rules : ts_rules t = map fst (s_rules s);
    n_d_plain : Forall (fun e => lettered_rule k sets (fst e) (snd e)) (s_rules s);
    n_d_many : zlen (s_rules s) <= 254;
    n_d_tail : ts_tail t = 0;
    n_d_operating : ts_operating t = false;
    n_d_pending : ts_recompile t = s_pending s;
    n_d_ascending : ascending (map i_cond (ts_trees t));
    n_d_resync : Forall (fun i => i_resync i = true) (ts_trees t);
    n_d_covered : Forall (fun e => In (n_cond (snd e)) (map i_cond (ts_trees t))) (s_rules s);
    n_d_ready : exists cap, 0 <= cap <= 255 /\ holds (ts_acc t) [] cap /\ (s_room s = true -> 1 <= cap) /\
      (s_pending s = false -> n_trees_ok (map snd (s_rules s)) (map static (ts_trees t)) /\ Forall (fun r => zlen (n_pattern r) <= cap) (map snd (s_rules s))) }.

  Lemma lettered_rules_of l : Forall (fun e => lettered_rule k sets (fst e) (snd e)) l -> Forall2 (lettered_rule k sets) (map fst l) (map snd l).
  Proof. induction 1; cbn [map]; constructor; assumption. Qed.

  Lemma n_new_idle : n_idle new_tester new_session.
  Proof.
    constructor; try reflexivity; try constructor; try (cbn; constructor); [discriminate|]. exists 0. split; [lia|]. split; [apply holds_init|]. split; [discriminate|]. intros _.
    repeat constructor.
  Qed.


  Lemma n_add_ok t s d r : n_idle t s -> lettered_rule k sets d r ->
    match AddRule k t d with Ok t' => n_idle t' (next s (JAdd d r)) | Err _ => n_idle t (next s (JAdd d r)) | _ => False end.
  Proof.
    intros I Hp. unfold AddRule. rewrite (n_d_operating _ _ I). destruct (lettered_sizes _ _ _ _ Hp) as (Hmin & _). replace (zlen d <? k_min (tk_kind k)) with false by lia.
    cbn [next]. rewrite (n_d_rules _ _ I), zlen_map. destruct (Z.geb_spec (zlen (s_rules s)) 254) as [G|G].
    { replace (zlen (s_rules s) <? 254) with false by lia. exact I. }
    replace (zlen (s_rules s) <? 254) with true by lia. pose proof Hp as (_ & Hc & _). rewrite Hc. cbn [bind].
    assert (K : exists trees, (do ' (index, found) <- findTreeByCondition (ts_trees t) (n_cond r);
       do trees <- (if (found : bool) then do i <- zget (ts_trees t) index; Ok (upd (ts_trees t) (Z.to_nat index) (with_resync i))
                   else Ok (rev (move_down (rev (ts_trees t)) (new_instance (n_cond r))))); Ok trees) = Ok trees /\
       ascending (map i_cond trees) /\ Forall (fun i => i_resync i = true) trees /\ In (n_cond r) (map i_cond trees) /\
       (forall c, In c (map i_cond (ts_trees t)) -> In c (map i_cond trees))).
    { destruct (find_ok (ts_trees t) (n_cond r) (n_d_ascending _ _ I)) as [(i & x & E & Hx & Hcx)|(i & E & Hn)]; rewrite E; cbn [bind].
      - rewrite Hx. cbn [bind]. eexists. split; [reflexivity|]. rewrite (with_resync_conds _ _ _ Hx). split; [apply I|]. split; [apply with_resync_all; apply I|].
        split; [rewrite <- Hcx; apply in_map; exact (zget_in _ _ _ Hx)|auto].
      - eexists. split; [reflexivity|]. destruct (insert_ok (ts_trees t) (n_cond r) (n_d_ascending _ _ I) Hn) as [H1 H2]. cbv zeta in H1, H2. split; [exact H1|]. split.
        + apply Forall_forall. intros x Hx. apply H2 in Hx. destruct Hx as [->|Hx]; [reflexivity|exact (proj1 (Forall_forall _ _) (n_d_resync _ _ I) x Hx)].
        + split; [apply in_map_iff; exists (new_instance (n_cond r)); split; [reflexivity|apply H2; left; reflexivity]|].
          intros c Hin. apply in_map_iff in Hin. destruct Hin as (x & <- & Hx). apply in_map. apply H2. right. exact Hx. }
    destruct K as (trees & E & H1 & H2 & H3 & H4). destruct (findTreeByCondition (ts_trees t) (n_cond r)) as [[index found]| | |]; cbn [bind] in *; try discriminate.
    destruct (if found then _ else _) as [trees'| | |]; cbn [bind] in *; try discriminate. injection E as ->.
    constructor; cbn [ts_rules ts_trees ts_acc ts_tail ts_recompile ts_operating s_rules s_pending s_room].
    - rewrite map_app. reflexivity.
    - apply Forall_app. split; [apply I|constructor; [exact Hp|constructor]].
    - rewrite zlen_app, zlen_cons, zlen_nil. lia.
    - apply I.
    - first [reflexivity|apply I].
    - reflexivity.
    - exact H1.
    - exact H2.
    - apply Forall_app. split; [|repeat constructor; exact H3]. apply Forall_forall. intros e He. apply H4. exact (proj1 (Forall_forall _ _) (n_d_covered _ _ I) e He).
    - destruct (n_d_ready _ _ I) as (cap & C1 & C2 & C3 & _). exists cap. split; [exact C1|]. split; [exact C2|]. split; [exact C3|discriminate].
  Qed.

  Lemma n_remove_ok t s d : n_idle t s -> exists t' b, RemoveRule t d = Ok (t', b) /\ n_idle t' (next s (JRemove d)).
  Proof.
    intros I. unfold RemoveRule. rewrite (n_d_operating _ _ I), (n_d_rules _ _ I), delete_ok. cbn [bind next]. destruct (without d (s_rules s)) as [l|] eqn:E; [|exists t, false; split; [reflexivity|exact I]].
    destruct (without_in _ _ _ E) as (e & He & <- & Hl & Hsub). pose proof (proj1 (Forall_forall _ _) (n_d_plain _ _ I) e He) as Hp. pose proof Hp as (_ & Hc & _). rewrite Hc. cbn [bind].
    pose proof (proj1 (Forall_forall _ _) (n_d_covered _ _ I) e He) as Hin. cbv beta in Hin.
    destruct (find_ok (ts_trees t) (n_cond (snd e)) (n_d_ascending _ _ I)) as [(i & x & E1 & Hx & Hcx)|(i & _ & Hn)]; [|contradiction].
    rewrite E1. cbn [bind negb]. rewrite Hx. cbn [bind]. eexists. eexists. split; [reflexivity|].
    constructor; cbn [ts_rules ts_trees ts_acc ts_tail ts_recompile ts_operating s_rules s_pending s_room].
    - reflexivity.
    - apply Forall_forall. intros y Hy. exact (proj1 (Forall_forall _ _) (n_d_plain _ _ I) y (Hsub _ Hy)).
    - pose proof (n_d_many _ _ I). lia.
    - apply I.
    - first [reflexivity|apply I].
    - reflexivity.
    - rewrite (with_resync_conds _ _ _ Hx). apply I.
    - apply with_resync_all. apply I.
    - rewrite (with_resync_conds _ _ _ Hx). apply Forall_forall. intros y Hy. exact (proj1 (Forall_forall _ _) (n_d_covered _ _ I) y (Hsub _ Hy)).
    - destruct (n_d_ready _ _ I) as (cap & C1 & C2 & C3 & _). exists cap. split; [exact C1|]. split; [exact C2|]. split; [exact C3|discriminate].
  Qed.
  Lemma n_remove_all_ok t s : n_idle t s -> exists t', RemoveAllRules t = Ok t' /\ n_idle t' (next s JRemoveAll).
  Proof.
    intros I. unfold RemoveAllRules. rewrite (n_d_operating _ _ I). eexists. split; [reflexivity|]. cbn [next].
    constructor; cbn [ts_rules ts_trees ts_acc ts_tail ts_recompile ts_operating s_rules s_pending s_room map]; try reflexivity; try constructor; try apply I.
    - rewrite zlen_nil. lia.
    - destruct (n_d_ready _ _ I) as (cap & C1 & C2 & C3 & _). exists cap. split; [exact C1|]. split; [exact (clear_holds _ _ C2)|]. split; [exact C3|]. intros _. repeat constructor.
  Qed.

  Lemma n_static_idle t t' s : n_idle t s -> ts_rules t' = ts_rules t -> map static (ts_trees t') = map static (ts_trees t) -> ts_recompile t' = ts_recompile t ->
    ts_operating t' = false -> ts_tail t' = 0 -> (forall cap, holds (ts_acc t) [] cap -> holds (ts_acc t') [] cap) -> n_idle t' s.
  Proof.
    intros I H1 H2 H3 H4 H5 H6. pose proof (conds_of_static _ _ H2) as H7. constructor; try apply I; try congruence.
    - rewrite H1. apply I.
    - rewrite H3. apply I.
    - rewrite H7. apply I.
    - exact (resync_of_static _ _ H2 (n_d_resync _ _ I)).
    - rewrite H7. apply I.
    - destruct (n_d_ready _ _ I) as (cap & C1 & C2 & C3 & C4). exists cap. split; [exact C1|]. split; [auto|]. split; [exact C3|]. rewrite H2. exact C4.
  Qed.
  Lemma n_refresh_ok t s e : n_idle t s -> conditions_known e -> exists t', RefreshConditions e t = Ok t' /\ n_idle t' s.
  Proof.
    intros I He. unfold RefreshConditions. destruct (refresh_trees e (ts_trees t) He) as (l' & -> & H). cbn [bind]. eexists. split; [reflexivity|].
    apply (n_static_idle t); try apply I; try reflexivity; try exact H. auto.
  Qed.

  (** ** Recompiling *)
  Definition n_has (rules : list nrule) (c : Z) : bool := has_rules (map flattened rules) c.
  Definition n_ready (rules : list nrule) (s : list state * Z * bool) : Prop :=
    good_named (fst (fst s)) (n_group (snd (fst s)) rules) /\ (headless rules -> blocking (fst (fst s))).
  Lemma n_recompile_trees_ok e data rules : conditions_known e -> e_sets e = sets -> Forall2 (lettered_rule k sets) data rules -> zlen rules <= 254 ->
    forall trees, Forall (fun i => i_resync i = true) trees ->
    (exists l, recompile_trees k e data false trees = Ok (true, l, Some limit)) /\ n_crowded rules \/
    exists l, recompile_trees k e data false trees = Ok (false, l, None) /\ Forall (n_ready rules) (map static l) /\
      Forall (fun i => i_resync i = true) l /\ map i_cond l = filter (n_has rules) (map i_cond trees).
  Proof.
    intros He Hse Hp Hm. induction trees as [|i trees IH]; intros Hr; cbn [recompile_trees].
    - right. exists []. repeat split; constructor.
    - inversion Hr as [|? ? Hi Hr']; subst. specialize (IH Hr').
      assert (K : exists j, (if i_cached i then Ok i else do b <- testCondition e (i_cond i); Ok (with_value i b)) = Ok j /\ static j = static i /\ i_tree j = i_tree i).
      { destruct (i_cached i); [exists i; auto|]. destruct (conditions_ok e (i_cond i) He) as (b & ->). cbn [bind]. eexists. split; [reflexivity|]. split; reflexivity. }
      destruct K as (j & -> & Hj & _). cbn [bind]. injection Hj as Hj1 Hj2 Hj3. rewrite Hj3, Hi. cbn [negb]. rewrite Hj2.
      destruct (n_rules_with k (e_sets e) data rules Hp (i_cond i) Hm) as (own & -> & Hown & Hhead). cbn [bind].
      assert (Hinc : increasing 0 (map snd (n_group (i_cond i) rules))) by (apply numbered_increasing; rewrite zlen_map; lia).
      destruct own as [|x own].
      + cbn [compile ofold bind compiler_Begin c_states]. assert (Eg : n_group (i_cond i) rules = []) by (inversion Hown; reflexivity). cbn [map filter]. unfold n_has, has_rules at 1.
        fold (n_group (i_cond i) rules). rewrite Eg. destruct IH as [[(l & ->) Hcr]|(l & -> & H1 & H2 & H3)]; cbn [bind]; [left; eauto|right]. exists l. auto.
      + assert (Hh : n_has rules (i_cond i) = true) by (unfold n_has, has_rules; fold (n_group (i_cond i) rules); inversion Hown; reflexivity). cbn [map filter]. rewrite Hh.
        destruct (compile_right (tk_kind k) (e_sets e) (x :: own) (n_group (i_cond i) rules) Hown ltac:(discriminate) Hinc) as [[-> Hfull]|(st & Ec & _)].
        * left. split; [eexists; reflexivity|exists (i_cond i); exact Hfull].
        * rewrite Ec. destruct IH as [[(l & ->) Hcr]|(l & -> & H1 & H2 & H3)]; cbn [bind]; [left; eauto|right]. eexists. split; [reflexivity|]. cbn [map]. split; [|split].
          -- constructor; [|exact H1]. unfold n_ready. cbn [static with_tree i_tree d_states i_cond fst snd]. rewrite Hj2.
             pose proof (compile_named (tk_kind k) (e_sets e) (x :: own) _ st Hown ltac:(discriminate) Hinc Ec) as G. split; [exact G|]. intros Hl.
             pose proof (compile_flat (tk_kind k) (e_sets e) (x :: own) _ st Hown (Hhead Hl) Ec) as Hflat. unfold blocking.
             destruct (G [0]) as (d & Hd & _). unfold fed in Hd. cbn [ofold] in Hd. unfold feed, tree_Feed in Hd. cbn [d_scanning negb d_states d_index] in Hd.
             destruct (zget st 0) as [s0| | |] eqn:E0; cbn [bind] in Hd; try discriminate. exists s0. split; [reflexivity|]. exact (proj1 (Forall_forall _ _) Hflat s0 (zget_in _ _ _ E0)).
          -- constructor; [cbn [with_tree i_resync]; congruence|exact H2].
          -- cbn [with_tree i_cond]. rewrite Hj2, H3. reflexivity.
  Qed.
  Lemma n_max_len_ok data rules : Forall2 (lettered_rule k sets) data rules -> exists n, max_in_len data = Ok n /\ 0 <= n <= 255 /\ Forall (fun r => zlen (n_pattern r) <= n) rules /\ (rules <> [] -> 1 <= n).
  Proof.
    intros H. unfold max_in_len. assert (G : forall m, 0 <= m <= 255 -> exists n, ofold (fun m r => do n <- rule_InLen r; Ok (Z.max m n)) data m = Ok n /\ m <= n <= 255 /\ Forall (fun r => zlen (n_pattern r) <= n) rules).
    { induction H as [|d r ds rs Hd _ IH]; intros m Hm; cbn [ofold]; [exists m; split; [reflexivity|]; split; [lia|constructor]|].
      destruct (lettered_sizes _ _ _ _ Hd) as (_ & _ & Hl & Hin). rewrite Hin. cbn [bind]. pose proof (zlen_nonneg (n_pattern r)). destruct (IH (Z.max m (zlen (n_pattern r))) ltac:(lia)) as (n & E & H1 & H2).
      exists n. split; [exact E|]. split; [lia|]. constructor; [lia|exact H2]. }
    destruct (G 0 ltac:(lia)) as (n & E & H1 & H2). exists n. split; [exact E|]. split; [lia|]. split; [exact H2|].
    intros Hne. destruct H as [|d r ds rs Hd _]; [congruence|]. pose proof (Forall_inv H2) as Hl. cbv beta in Hl. pose proof (lettered_ne _ _ _ _ Hd) as Hp.
    destruct (n_pattern r); [contradiction|]. rewrite zlen_cons in Hl. pose proof (zlen_nonneg l). lia.
  Qed.
  (** The operating flag does not matter for recompiling. *)
  Lemma n_recompile_ok t s e : n_idle t s -> conditions_known e -> e_sets e = sets ->
    (exists t', recompile k e false (with_operating t true) = Ok (true, t', Some limit)) /\ n_crowded (map snd (s_rules s)) \/
    exists t', recompile k e false (with_operating t true) = Ok (false, with_operating t' true, None) /\
      recompile k e false t = Ok (false, t', None) /\ n_idle t' (mkSession (s_rules s) false (match s_rules s with [] => false | _ => true end)).
  Proof.
    intros I He Hse. unfold recompile. cbn [with_operating ts_rules ts_trees ts_acc ts_tail ts_operating]. pose proof (lettered_rules_of _ (n_d_plain _ _ I)) as Hp. rewrite <- (n_d_rules _ _ I) in Hp.
    assert (Hm : zlen (map snd (s_rules s)) <= 254) by (rewrite zlen_map; apply I).
    destruct (n_recompile_trees_ok e (ts_rules t) (map snd (s_rules s)) He Hse Hp Hm (ts_trees t) (n_d_resync _ _ I)) as [[(l & ->) Hcr]|(l & -> & H1 & H2 & H3)]; cbn [bind]; [left; eauto|right].
    destruct (n_max_len_ok _ _ Hp) as (n & -> & Hn & Hfit & Hpos). cbn [bind]. destruct (n_d_ready _ _ I) as (cap & _ & C2 & _).
    destruct (holds_reset _ _ _ n C2 ltac:(lia)) as (a & -> & Ha). cbn [bind]. eexists. split; [|split; [reflexivity|]].
    - unfold with_operating. cbn [ts_rules ts_trees ts_acc ts_tail ts_recompile]. reflexivity.
    - constructor; cbn [ts_rules ts_trees ts_acc ts_tail ts_recompile ts_operating s_rules s_pending s_room]; try apply I; try reflexivity.
      + rewrite H3. apply ascending_filter. apply I.
      + exact H2.
      + apply Forall_forall. intros x Hx. rewrite H3. apply filter_In. split; [exact (proj1 (Forall_forall _ _) (n_d_covered _ _ I) x Hx)|].
        apply (covered_group _ _ (flattened (snd x))); [apply in_map; apply in_map; exact Hx|reflexivity].
      + exists n. split; [lia|]. split; [exact Ha|]. split.
        * intros Hroom. apply Hpos. destruct (s_rules s); [discriminate|]. cbn. discriminate.
        * intros _. split; [|exact Hfit]. split; [exact H1|]. rewrite map_static_cond, H3. apply Forall_forall. intros r Hr. apply in_map_iff in Hr. destruct Hr as (x & <- & Hx).
          apply filter_In. split; [exact (proj1 (Forall_forall _ _) (n_d_covered _ _ I) x Hx)|]. apply (covered_group _ _ (flattened (snd x))); [apply in_map; apply in_map; exact Hx|reflexivity].
  Qed.
  Lemma n_resync_ok t s e : n_idle t s -> conditions_known e -> e_sets e = sets ->
    (exists t', Resync k e false t = Ok (true, t', Some limit)) /\ s_pending s = true /\ n_crowded (map snd (s_rules s)) \/ exists t', Resync k e false t = Ok (false, t', None) /\ n_idle t' (compiled s).
  Proof.
    intros I He Hse. unfold Resync, compiled. rewrite (n_d_operating _ _ I), (n_d_pending _ _ I). destruct (s_pending s) eqn:Ep; cbn [negb].
    - destruct (n_recompile_ok t s e I He Hse) as [[(t' & E) Hcr]|(t' & _ & E & I')].
      + left. split; [|split; [reflexivity|exact Hcr]]. unfold recompile in *. cbn [with_operating ts_rules ts_trees ts_acc ts_tail ts_operating] in E. destruct (recompile_trees k e (ts_rules t) false (ts_trees t)) as [[[c l] err]| | |]; cbn [bind] in *; try discriminate.
        destruct err as [m|].
        * injection E as -> _ ->. eauto.
        * exfalso. destruct (max_in_len (ts_rules t)); cbn [bind] in E; try discriminate. destruct (cb_SetCapacity 0 (cb_Clear (ts_acc t)) a) as [a' o]. destruct o; discriminate.
      + right. eauto.
    - right. eauto.
  Qed.
End Idle.

Section Sessions.
  Context {AB : alphabet}.
  Variable k : tester_kind.
  Variable sets : set_reader.
  Variable accepted : Z -> bool.
  Hypothesis Hkind : forall g, tk_feed k g = Ok (accepted g) \/ (accepted g = false /\ exists m, tk_feed k g = Err m).
  Notation limit := "DecisionTreeCompiler hit a limit"%string.


  Section One.
    Variables (data : list (list Z)) (rules : list nrule) (cap : Z).
    Hypothesis Hrules : Forall2 (lettered_rule k sets) data rules.
    Hypothesis Hmany : zlen rules <= 254.
    Hypothesis Hcap : 1 <= cap.
    Hypothesis Hfit : Forall (fun r => zlen (n_pattern r) <= cap) rules.
    Hypothesis Htails : n_tails rules.
    Notation rewrites := (n_rewriting rules).
    Notation waits := (n_waits data rules cap).

    Lemma n_feeds_ok c : forall piece t w, waits t w -> ts_operating t = true ->
      exists t' w' reports, do_calls k (c, t) (map CFeed piece) = Ok (c, t', reports) /\ frame t t' /\ waits t' w' /\
        forall z o', rewrites (w' ++ z) o' -> rewrites (w ++ filter accepted piece ++ z) (concat (map fst reports) ++ o').
    Proof.
      induction piece as [|g piece IH]; intros t w W Hop; cbn [map do_calls].
      - exists t, w, []. split; [reflexivity|]. split; [apply frame_refl|]. split; [exact W|]. auto.
      - destruct (accepted g) eqn:Ea.
        + assert (Hf : tk_feed k g = Ok true) by (destruct (Hkind g) as [H|(H & _)]; congruence).
          destruct (n_Feed_ok k sets data rules Hrules Hmany cap Hcap Hfit Htails t w g W Hop Hf) as (t1 & w1 & o & E & F & W1 & R). cbn [do_call]. rewrite E. cbn [bind].
          destruct (IH t1 w1 W1) as (t' & w' & rs & E' & F' & W' & R'); [destruct F as (_ & _ & _ & ->); exact Hop|]. rewrite E'. cbn [bind].
          exists t', w', ((o, None) :: rs). split; [reflexivity|]. split; [exact (frame_trans _ _ _ F F')|]. split; [exact W'|].
          intros z o' Hz. cbn [filter map concat fst]. rewrite Ea, <- app_assoc. cbn [app]. apply R. apply R'. exact Hz.
        + assert (Hf : exists err, Feed k t g = Ok (t, [], err)).
          { unfold Feed. rewrite Hop. cbn [negb]. destruct (Hkind g) as [H|(_ & m & H)]; rewrite H, ?Ea; eauto. }
          destruct Hf as (err & E). cbn [do_call]. rewrite E. cbn [bind]. destruct (IH t w W Hop) as (t' & w' & rs & E' & F' & W' & R'). rewrite E'. cbn [bind].
          exists t', w', (([], err) :: rs). split; [reflexivity|]. split; [exact F'|]. split; [exact W'|]. intros z o' Hz. cbn [filter map concat fst app]. rewrite Ea. apply R'. exact Hz.
    Qed.
    Lemma n_piece_ok c t piece : waits t [] -> ts_operating t = true ->
      exists t' o, run_piece k (c, t) piece CBreak = Ok (c, t', o) /\ frame t t' /\ waits t' [] /\ rewrites (filter accepted piece) o.
    Proof.
      intros W Hop. unfold run_piece. rewrite do_calls_app. destruct (n_feeds_ok c piece t [] W Hop) as (t1 & w1 & rs & -> & F & W1 & R). cbn [bind do_calls do_call].
      destruct (n_Break_ok k sets data rules Hrules Hmany cap Htails t1 w1 W1) as (t2 & o & -> & F2 & W2 & R2); [destruct F as (_ & _ & _ & ->); exact Hop|]. cbn [bind].
      eexists. eexists. split; [reflexivity|]. split; [exact (frame_trans _ _ _ F F2)|]. split; [exact W2|].
      rewrite map_app, concat_app. cbn [map fst concat app]. rewrite app_nil_r. specialize (R [] o). rewrite !app_nil_r in R. cbn [app] in R. apply R. exact R2.
    Qed.
    Lemma n_last_ok c t piece : waits t [] -> ts_operating t = true ->
      exists t' o, run_piece k (c, t) piece CFinishSequence = Ok (c, with_operating t' false, o) /\ frame t t' /\ waits t' [] /\ rewrites (filter accepted piece) o.
    Proof.
      intros W Hop. destruct (n_piece_ok c t piece W Hop) as (t' & o & E & H). exists t', o. split; [|exact H]. unfold run_piece in *. rewrite do_calls_app in *.
      destruct (do_calls k (c, t) (map CFeed piece)) as [[[c1 t1] rs]| | |]; cbn [bind] in *; try discriminate. cbn [do_calls do_call] in *. unfold FinishSequence.
      destruct (Break k t1) as [[t2 o2]| | |]; cbn [bind] in *; try discriminate. injection E as -> -> E. cbn [map concat fst] in *. rewrite E. reflexivity.
    Qed.
    Lemma n_pieces_ok c : forall pieces t, waits t [] -> ts_operating t = true ->
      exists t' os, run_pieces k (c, t) pieces = Ok (c, t', os) /\ frame t t' /\ waits t' [] /\ Forall2 (fun p o => rewrites (filter accepted p) o) pieces os.
    Proof.
      induction pieces as [|p pieces IH]; intros t W Hop; cbn [run_pieces].
      - exists t, []. split; [reflexivity|]. split; [apply frame_refl|]. split; [exact W|constructor].
      - destruct (n_piece_ok c t p W Hop) as (t1 & o & -> & F & W1 & R). cbn [bind]. destruct (IH t1 W1) as (t' & os & -> & F' & W' & R'); [destruct F as (_ & _ & _ & ->); exact Hop|]. cbn [bind].
        eexists. eexists. split; [reflexivity|]. split; [exact (frame_trans _ _ _ F F')|]. split; [exact W'|]. constructor; assumption.
    Qed.
  End One.

  Lemma n_begin_ok t s e : n_idle k sets t s -> conditions_known e -> e_sets e = sets ->
    (exists t', BeginSequence k e false t = Ok (true, t', Some limit)) /\ s_pending s = true /\ n_crowded (map snd (s_rules s)) \/
    exists t', BeginSequence k e false t = Ok (false, with_operating t' true, None) /\ n_idle k sets t' (compiled s) /\ trees_at [] (ts_trees t').
  Proof.
    intros I He Hse. unfold BeginSequence. rewrite (n_d_operating _ _ _ _ I). cbv zeta. cbn [with_operating ts_recompile]. rewrite (n_d_pending _ _ _ _ I). unfold compiled.
    assert (K : forall t1 s1, n_idle k sets t1 s1 -> exists t', (do t2 <- treesRestartDetection (with_operating t1 true); Ok (false, t2, None)) = Ok (false, with_operating t' true, None : option string) /\
      n_idle k sets t' s1 /\ trees_at [] (ts_trees t')).
    { intros t1 s1 I1. destruct (restart_ok (with_operating t1 true)) as (t2 & -> & (F1 & F2 & F3 & F4) & At & A1 & A2). cbn [bind]. exists (with_operating t2 false).
      split; [replace (with_operating (with_operating t2 false) true) with t2; [reflexivity|]; clear - F4; destruct t2 as [x1 x2 x3 x4 x5 x6]; cbn in F4; subst x6; reflexivity|]. split; [|exact At].
      cbn [with_operating ts_rules ts_trees ts_acc ts_tail ts_recompile ts_operating] in *. apply (n_static_idle k sets t1); try assumption; try reflexivity.
      - cbn. rewrite A2. apply I1.
      - cbn. rewrite A1. auto. }
    destruct (s_pending s).
    - fold (with_operating t true). destruct (n_recompile_ok k sets t s e I He Hse) as [[(t' & ->) Hcr]|(t' & -> & _ & I')]; cbn [bind]; [left; eauto|right]. apply K. exact I'.
    - right. cbn [bind]. apply K. exact I.
  Qed.

  Definition n_legal_for := legal (lettered_rule k sets).
  Definition n_fits (rules : list nrule) (pieces outs : list (list Z)) : Prop :=
    Forall2 (fun p o => n_rewriting rules (filter accepted p) o) pieces outs.
  Lemma n_sequence_ok t s e pieces last : n_idle k sets t s -> conditions_known e -> e_sets e = sets -> (s_rules s = [] -> s_pending s = false /\ s_room s = true) -> n_tails (map snd (s_rules s)) ->
    run_job k (false, t) (@JSequence nrule e pieces last) = Err limit /\ s_pending s = true /\ n_crowded (map snd (s_rules s)) \/
    exists t' os, run_job k (false, t) (@JSequence nrule e pieces last) = Ok (false, t', Some os) /\ n_idle k sets t' (compiled s) /\ n_fits (map snd (s_rules s)) (pieces ++ [last]) os.
  Proof.
    intros I He Hse Hroom Htails. cbn [run_job do_call]. destruct (n_begin_ok t s e I He Hse) as [[(t' & ->) Hcr]|(t1 & -> & I1 & At)]; cbn [bind checked snd]; [left; split; [reflexivity|exact Hcr]|right].
    assert (Es : s_rules (compiled s) = s_rules s) by (unfold compiled; destruct (s_pending s); reflexivity).
    assert (Ep : s_pending (compiled s) = false) by (unfold compiled; destruct (s_pending s) eqn:E; [reflexivity|exact E]).
    assert (Er : s_room (compiled s) = true \/ s_rules s <> []).
    { destruct (s_rules s) eqn:E; [left|right; discriminate]. destruct (Hroom eq_refl) as [H1 H2]. unfold compiled. rewrite H1. exact H2. }
    destruct (n_d_ready _ _ _ _ I1) as (cap & C1 & C2 & C3 & C4). specialize (C4 Ep). destruct C4 as [C4 C5].
    pose proof (lettered_rules_of k sets _ (n_d_plain _ _ _ _ I1)) as Hp. rewrite Es in *.
    assert (Hcap : 1 <= cap).
    { destruct Er as [Er|Er]; [exact (C3 Er)|]. destruct (s_rules s) as [|x l]; [contradiction|]. cbn [map] in C5, Hp. pose proof (Forall_inv C5) as Hx. cbv beta in Hx.
      inversion Hp as [|? ? ? ? Hx' _]; subst. pose proof (lettered_ne _ _ _ _ Hx'). destruct (n_pattern (snd x)); [contradiction|]. rewrite zlen_cons in Hx. pose proof (zlen_nonneg l0). lia. }
    assert (Hm : zlen (map snd (s_rules s)) <= 254) by (rewrite zlen_map, <- Es; apply I1).
    assert (W : n_waits (map fst (s_rules s)) (map snd (s_rules s)) cap (with_operating t1 true) []).
    { split; [|split; [exact At|left; reflexivity]]. split; [cbn; rewrite <- Es; apply I1|]. split; [exact C4|]. split; [exact C2|]. exact (n_d_tail _ _ _ _ I1). }
    destruct (n_pieces_ok _ _ cap Hp Hm Hcap C5 Htails false pieces _ W eq_refl) as (t2 & os & -> & F2 & W2 & R2). cbn [bind].
    destruct (n_last_ok _ _ cap Hp Hm Hcap C5 Htails false t2 last W2) as (t3 & o & -> & F3 & W3 & R3); [destruct F2 as (_ & _ & _ & ->); reflexivity|]. cbn [bind].
    eexists. eexists. split; [reflexivity|]. split.
    - pose proof (frame_trans _ _ _ F2 F3) as (G1 & G2 & G3 & G4). destruct W3 as ((_ & _ & A & B) & _). constructor; try apply I1; cbn [with_operating ts_rules ts_trees ts_acc ts_tail ts_recompile ts_operating] in *.
      + rewrite G1. apply I1.
      + exact B.
      + reflexivity.
      + rewrite G3. apply I1.
      + rewrite (conds_of_static _ _ G2). apply I1.
      + exact (resync_of_static _ _ G2 (n_d_resync _ _ _ _ I1)).
      + rewrite (conds_of_static _ _ G2). apply I1.
      + exists cap. split; [exact C1|]. split; [exact A|]. split; [intros _; exact Hcap|]. intros _. rewrite G2, Es. split; assumption.
    - apply Forall2_app; [exact R2|]. constructor; [exact R3|constructor].
  Qed.

  Lemma n_jobs_ok : forall js t s, n_idle k sets t s -> all_legal (lettered_rule k sets) s js -> same_sets sets js -> Forall (fun e => n_tails (fst e)) (expected s js) ->
    run_jobs k (false, t) js = Err limit /\ Exists n_crowded (compilations s js) \/
    exists w os, run_jobs k (false, t) js = Ok (w, os) /\ Forall2 (fun e o => n_fits (fst e) (snd e) o) (expected s js) os.
  Proof.
    induction js as [|j js IH]; intros t s I L Ss Ht; cbn [run_jobs].
    - right. eexists. eexists. split; [reflexivity|]. constructor.
    - destruct L as [L1 L2]. inversion Ss as [|? ? Ss1 Ss2]; subst.
      assert (Ht' : Forall (fun e => n_tails (fst e)) (expected (next s j) js)) by (destruct j; cbn [expected] in Ht; try exact Ht; exact (Forall_inv_tail Ht)).
      assert (K : run_job k (false, t) j = Err limit /\ Exists n_crowded (compilations s (j :: js)) \/ exists t' o, run_job k (false, t) j = Ok (false, t', o) /\ n_idle k sets t' (next s j) /\
        match o with
        | None => expected s (j :: js) = expected (next s j) js
        | Some l => exists rules pieces, expected s (j :: js) = (rules, pieces) :: expected (next s j) js /\ n_fits rules pieces l
        end).
      { destruct j as [d r|d| |e|e|e pieces last]; cbn [run_job do_call legal] in *.
        - right. pose proof (n_add_ok k sets t s d r I L1) as H. destruct (AddRule k t d) as [t'|m| |]; try contradiction; cbn [bind]; eexists; exists None; split; try reflexivity; auto.
        - right. destruct (n_remove_ok k sets t s d I) as (t' & b & -> & H). cbn [bind]. exists t', None. auto.
        - right. destruct (n_remove_all_ok k sets t s I) as (t' & -> & H). cbn [bind]. exists t', None. auto.
        - destruct (n_resync_ok k sets t s e I L1 Ss1) as [[(t' & ->) [Hpe Hcr]]|(t' & -> & H)]; cbn [bind checked snd]; [left; split; [reflexivity|cbn [compilations]; rewrite Hpe; constructor; exact Hcr]|right]. exists t', None. auto.
        - right. destruct (n_refresh_ok k sets t s e I L1) as (t' & -> & H). cbn [bind]. exists t', None. auto.
        - destruct L1 as [L1 L3]. destruct (n_sequence_ok t s e pieces last I L1 Ss1 L3 (Forall_inv Ht)) as [[E [Hpe Hcr]]|(t' & os & E & I' & F)]; [left; split; [exact E|cbn [compilations]; rewrite Hpe; constructor; exact Hcr]|right].
          exists t', (Some os). split; [exact E|]. split; [exact I'|]. exists (map snd (s_rules s)), (pieces ++ [last]). split; [reflexivity|exact F]. }
      destruct K as [[-> Hcr]|(t' & o & -> & I' & H)]; cbn [bind]; [left; split; [reflexivity|exact Hcr]|].
      destruct (IH t' (next s j) I' L2 Ss2 Ht') as [[-> Hcr]|(w & os & -> & F)]; cbn [bind]; [left; split; [reflexivity|cbn [compilations]; apply Exists_app; right; exact Hcr]|right].
      destruct o as [l|].
      + destruct H as (rules & pieces & -> & Hl). eexists. eexists. split; [reflexivity|]. constructor; assumption.
      + rewrite H. eexists. eexists. split; [reflexivity|]. exact F.
  Qed.
End Sessions.

