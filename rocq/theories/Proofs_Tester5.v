(** Proofs about the rewrite testers: what sequences of a session report. *)
From Verif Require Import Base BaseFacts Model_Helpers Model_Font Model_Rewrites Model_Scanner Model_CircularBuffer Spec_CircularBuffer
  Proofs_CircularBuffer Model_Tree Spec_Tree Proofs_Tree4 Model_Tester Spec_Tester Proofs_Tester Proofs_Tester2 Proofs_Tester3 Spec_Session Proofs_Tester4.

Section Sessions.
  Variable k : tester_kind.
  Variable accepted : Z -> bool.
  Hypothesis Hkind : forall g, tk_feed k g = Ok (accepted g) \/ (accepted g = false /\ exists m, tk_feed k g = Err m).
  Notation limit := "DecisionTreeCompiler hit a limit"%string.

  Lemma do_calls_app w a b : do_calls k w (a ++ b) = do ' (w, os) <- do_calls k w a; do ' (w, os') <- do_calls k w b; Ok (w, os ++ os').
  Proof.
    revert w. induction a as [|c a IH]; intros w; cbn [app do_calls bind].
    - destruct (do_calls k w b) as [[w' os]| | |]; reflexivity.
    - destruct (do_call k w c) as [[w1 o]| | |]; try reflexivity. cbn [bind]. rewrite IH. destruct (do_calls k w1 a) as [[w2 os]| | |]; try reflexivity. cbn [bind].
      destruct (do_calls k w2 b) as [[w3 os']| | |]; reflexivity.
  Qed.

  Section One.
    Variables (data : list (list Z)) (rules : list rrule) (cap : Z).
    Hypothesis Hrules : Forall2 (plain k) data rules.
    Hypothesis Hmany : zlen rules <= 254.
    Hypothesis Hcap : 1 <= cap.
    Hypothesis Hfit : Forall (fun r => zlen (pattern r) <= cap) rules.
    Notation rewrites := (rewriting (by_condition rules) rules).
    Notation waits := (waits data rules cap).

    Lemma feeds_ok c : forall piece t w, waits t w -> ts_operating t = true ->
      exists t' w' reports, do_calls k (c, t) (map CFeed piece) = Ok (c, t', reports) /\ frame t t' /\ waits t' w' /\
        forall z o', rewrites (w' ++ z) o' -> rewrites (w ++ filter accepted piece ++ z) (concat (map fst reports) ++ o').
    Proof.
      induction piece as [|g piece IH]; intros t w W Hop; cbn [map do_calls].
      - exists t, w, []. split; [reflexivity|]. split; [apply frame_refl|]. split; [exact W|]. auto.
      - destruct (accepted g) eqn:Ea.
        + assert (Hf : tk_feed k g = Ok true) by (destruct (Hkind g) as [H|(H & _)]; congruence).
          destruct (Feed_ok k data rules Hrules Hmany cap Hcap Hfit t w g W Hop Hf) as (t1 & w1 & o & E & F & W1 & R). cbn [do_call]. rewrite E. cbn [bind].
          destruct (IH t1 w1 W1) as (t' & w' & rs & E' & F' & W' & R'); [destruct F as (_ & _ & _ & ->); exact Hop|]. rewrite E'. cbn [bind].
          exists t', w', ((o, None) :: rs). split; [reflexivity|]. split; [exact (frame_trans _ _ _ F F')|]. split; [exact W'|].
          intros z o' Hz. cbn [filter map concat fst]. rewrite Ea, <- app_assoc. cbn [app]. apply R. apply R'. exact Hz.
        + assert (Hf : exists err, Feed k t g = Ok (t, [], err)).
          { unfold Feed. rewrite Hop. cbn [negb]. destruct (Hkind g) as [H|(_ & m & H)]; rewrite H, ?Ea; eauto. }
          destruct Hf as (err & E). cbn [do_call]. rewrite E. cbn [bind]. destruct (IH t w W Hop) as (t' & w' & rs & E' & F' & W' & R'). rewrite E'. cbn [bind].
          exists t', w', (([], err) :: rs). split; [reflexivity|]. split; [exact F'|]. split; [exact W'|]. intros z o' Hz. cbn [filter map concat fst app]. rewrite Ea. apply R'. exact Hz.
    Qed.
    Lemma piece_ok c t piece : waits t [] -> ts_operating t = true ->
      exists t' o, run_piece k (c, t) piece CBreak = Ok (c, t', o) /\ frame t t' /\ waits t' [] /\ rewrites (filter accepted piece) o.
    Proof.
      intros W Hop. unfold run_piece. rewrite do_calls_app. destruct (feeds_ok c piece t [] W Hop) as (t1 & w1 & rs & -> & F & W1 & R). cbn [bind do_calls do_call].
      destruct (Break_ok k data rules Hrules Hmany cap t1 w1 W1) as (t2 & o & -> & F2 & W2 & R2); [destruct F as (_ & _ & _ & ->); exact Hop|]. cbn [bind].
      eexists. eexists. split; [reflexivity|]. split; [exact (frame_trans _ _ _ F F2)|]. split; [exact W2|].
      rewrite map_app, concat_app. cbn [map fst concat app]. rewrite app_nil_r. specialize (R [] o). rewrite !app_nil_r in R. cbn [app] in R. apply R. exact R2.
    Qed.
    Lemma last_ok c t piece : waits t [] -> ts_operating t = true ->
      exists t' o, run_piece k (c, t) piece CFinishSequence = Ok (c, with_operating t' false, o) /\ frame t t' /\ waits t' [] /\ rewrites (filter accepted piece) o.
    Proof.
      intros W Hop. destruct (piece_ok c t piece W Hop) as (t' & o & E & H). exists t', o. split; [|exact H]. unfold run_piece in *. rewrite do_calls_app in *.
      destruct (do_calls k (c, t) (map CFeed piece)) as [[[c1 t1] rs]| | |]; cbn [bind] in *; try discriminate. cbn [do_calls do_call] in *. unfold FinishSequence.
      destruct (Break k t1) as [[t2 o2]| | |]; cbn [bind] in *; try discriminate. injection E as -> -> E. cbn [map concat fst] in *. rewrite E. reflexivity.
    Qed.
    Lemma pieces_ok c : forall pieces t, waits t [] -> ts_operating t = true ->
      exists t' os, run_pieces k (c, t) pieces = Ok (c, t', os) /\ frame t t' /\ waits t' [] /\ Forall2 (fun p o => rewrites (filter accepted p) o) pieces os.
    Proof.
      induction pieces as [|p pieces IH]; intros t W Hop; cbn [run_pieces].
      - exists t, []. split; [reflexivity|]. split; [apply frame_refl|]. split; [exact W|constructor].
      - destruct (piece_ok c t p W Hop) as (t1 & o & -> & F & W1 & R). cbn [bind]. destruct (IH t1 W1) as (t' & os & -> & F' & W' & R'); [destruct F as (_ & _ & _ & ->); exact Hop|]. cbn [bind].
        eexists. eexists. split; [reflexivity|]. split; [exact (frame_trans _ _ _ F F')|]. split; [exact W'|]. constructor; assumption.
    Qed.
  End One.

  Lemma begin_ok t s e : idle k t s -> conditions_known e ->
    (exists t', BeginSequence k e false t = Ok (true, t', Some limit)) /\ s_pending s = true /\ crowded (map snd (s_rules s)) \/
    exists t', BeginSequence k e false t = Ok (false, with_operating t' true, None) /\ idle k t' (compiled s) /\ trees_at [] (ts_trees t').
  Proof.
    intros I He. unfold BeginSequence. rewrite (d_operating _ _ _ I). cbv zeta. cbn [with_operating ts_recompile]. rewrite (d_pending _ _ _ I). unfold compiled.
    assert (K : forall t1 s1, idle k t1 s1 -> exists t', (do t2 <- treesRestartDetection (with_operating t1 true); Ok (false, t2, None)) = Ok (false, with_operating t' true, None : option string) /\
      idle k t' s1 /\ trees_at [] (ts_trees t')).
    { intros t1 s1 I1. destruct (restart_ok (with_operating t1 true)) as (t2 & -> & (F1 & F2 & F3 & F4) & At & A1 & A2). cbn [bind]. exists (with_operating t2 false).
      split; [replace (with_operating (with_operating t2 false) true) with t2; [reflexivity|]; clear - F4; destruct t2 as [x1 x2 x3 x4 x5 x6]; cbn in F4; subst x6; reflexivity|]. split; [|exact At].
      cbn [with_operating ts_rules ts_trees ts_acc ts_tail ts_recompile ts_operating] in *. apply (static_idle k t1); try assumption; try reflexivity.
      - cbn. rewrite A2. apply I1.
      - cbn. rewrite A1. auto. }
    destruct (s_pending s).
    - fold (with_operating t true). destruct (recompile_ok k t s e I He) as [[(t' & ->) Hcr]|(t' & -> & _ & I')]; cbn [bind]; [left; eauto|right]. apply K. exact I'.
    - right. cbn [bind]. apply K. exact I.
  Qed.

  Definition legal_for := legal (plain k).
  Definition fits (rules : list rrule) (pieces outs : list (list Z)) : Prop :=
    Forall2 (fun p o => rewriting (by_condition rules) rules (filter accepted p) o) pieces outs.
  Lemma sequence_ok t s e pieces last : idle k t s -> conditions_known e -> (s_rules s = [] -> s_pending s = false /\ s_room s = true) ->
    run_job k (false, t) (@JSequence rrule e pieces last) = Err limit /\ s_pending s = true /\ crowded (map snd (s_rules s)) \/
    exists t' os, run_job k (false, t) (@JSequence rrule e pieces last) = Ok (false, t', Some os) /\ idle k t' (compiled s) /\ fits (map snd (s_rules s)) (pieces ++ [last]) os.
  Proof.
    intros I He Hroom. cbn [run_job do_call]. destruct (begin_ok t s e I He) as [[(t' & ->) Hcr]|(t1 & -> & I1 & At)]; cbn [bind checked snd]; [left; split; [reflexivity|exact Hcr]|right].
    assert (Es : s_rules (compiled s) = s_rules s) by (unfold compiled; destruct (s_pending s); reflexivity).
    assert (Ep : s_pending (compiled s) = false) by (unfold compiled; destruct (s_pending s) eqn:E; [reflexivity|exact E]).
    assert (Er : s_room (compiled s) = true \/ s_rules s <> []).
    { destruct (s_rules s) eqn:E; [left|right; discriminate]. destruct (Hroom eq_refl) as [H1 H2]. unfold compiled. rewrite H1. exact H2. }
    destruct (d_ready _ _ _ I1) as (cap & C1 & C2 & C3 & C4). specialize (C4 Ep). destruct C4 as [C4 C5].
    pose proof (plain_rules_of k _ (d_plain _ _ _ I1)) as Hp. rewrite Es in *.
    assert (Hcap : 1 <= cap).
    { destruct Er as [Er|Er]; [exact (C3 Er)|]. destruct (s_rules s) as [|x l]; [contradiction|]. cbn [map] in C5, Hp. pose proof (Forall_inv C5) as Hx. cbv beta in Hx.
      inversion Hp as [|? ? ? ? Hx' _]; subst. pose proof (plain_pattern_ne _ _ _ Hx'). destruct (pattern (snd x)); [contradiction|]. rewrite zlen_cons in Hx. pose proof (zlen_nonneg l0). lia. }
    assert (Hm : zlen (map snd (s_rules s)) <= 254) by (rewrite zlen_map, <- Es; apply I1).
    assert (W : waits (map fst (s_rules s)) (map snd (s_rules s)) cap (with_operating t1 true) []).
    { split; [|split; [exact At|left; reflexivity]]. split; [cbn; rewrite <- Es; apply I1|]. split; [exact C4|]. split; [exact C2|]. exact (d_tail _ _ _ I1). }
    destruct (pieces_ok _ _ cap Hp Hm Hcap C5 false pieces _ W eq_refl) as (t2 & os & -> & F2 & W2 & R2). cbn [bind].
    destruct (last_ok _ _ cap Hp Hm Hcap C5 false t2 last W2) as (t3 & o & -> & F3 & W3 & R3); [destruct F2 as (_ & _ & _ & ->); reflexivity|]. cbn [bind].
    eexists. eexists. split; [reflexivity|]. split.
    - pose proof (frame_trans _ _ _ F2 F3) as (G1 & G2 & G3 & G4). destruct W3 as ((_ & _ & A & B) & _). constructor; try apply I1; cbn [with_operating ts_rules ts_trees ts_acc ts_tail ts_recompile ts_operating] in *.
      + rewrite G1. apply I1.
      + exact B.
      + reflexivity.
      + rewrite G3. apply I1.
      + rewrite (conds_of_static _ _ G2). apply I1.
      + exact (resync_of_static _ _ G2 (d_resync _ _ _ I1)).
      + rewrite (conds_of_static _ _ G2). apply I1.
      + exists cap. split; [exact C1|]. split; [exact A|]. split; [intros _; exact Hcap|]. intros _. rewrite G2, Es. split; assumption.
    - apply Forall2_app; [exact R2|]. constructor; [exact R3|constructor].
  Qed.

  Lemma jobs_ok : forall js t s, idle k t s -> all_legal (plain k) s js ->
    run_jobs k (false, t) js = Err limit /\ Exists crowded (compilations s js) \/
    exists w os, run_jobs k (false, t) js = Ok (w, os) /\ Forall2 (fun e o => fits (fst e) (snd e) o) (expected s js) os.
  Proof.
    induction js as [|j js IH]; intros t s I L; cbn [run_jobs].
    - right. eexists. eexists. split; [reflexivity|]. constructor.
    - destruct L as [L1 L2].
      assert (K : run_job k (false, t) j = Err limit /\ Exists crowded (compilations s (j :: js)) \/ exists t' o, run_job k (false, t) j = Ok (false, t', o) /\ idle k t' (next s j) /\
        match o with
        | None => expected s (j :: js) = expected (next s j) js
        | Some l => exists rules pieces, expected s (j :: js) = (rules, pieces) :: expected (next s j) js /\ fits rules pieces l
        end).
      { destruct j as [d r|d| |e|e|e pieces last]; cbn [run_job do_call legal] in *.
        - right. pose proof (add_ok k t s d r I L1) as H. destruct (AddRule k t d) as [t'|m| |]; try contradiction; cbn [bind]; eexists; exists None; split; try reflexivity; auto.
        - right. destruct (remove_ok k t s d I) as (t' & b & -> & H). cbn [bind]. exists t', None. auto.
        - right. destruct (remove_all_ok k t s I) as (t' & -> & H). cbn [bind]. exists t', None. auto.
        - destruct (resync_ok k t s e I L1) as [[(t' & ->) [Hpe Hcr]]|(t' & -> & H)]; cbn [bind checked snd]; [left; split; [reflexivity|cbn [compilations]; rewrite Hpe; constructor; exact Hcr]|right]. exists t', None. auto.
        - right. destruct (refresh_ok k t s e I L1) as (t' & -> & H). cbn [bind]. exists t', None. auto.
        - destruct L1 as [L1 L3]. destruct (sequence_ok t s e pieces last I L1 L3) as [[E [Hpe Hcr]]|(t' & os & E & I' & F)]; [left; split; [exact E|cbn [compilations]; rewrite Hpe; constructor; exact Hcr]|right].
          exists t', (Some os). split; [exact E|]. split; [exact I'|]. exists (map snd (s_rules s)), (pieces ++ [last]). split; [reflexivity|exact F]. }
      destruct K as [[-> Hcr]|(t' & o & -> & I' & H)]; cbn [bind]; [left; split; [reflexivity|exact Hcr]|].
      destruct (IH t' (next s j) I' L2) as [[-> Hcr]|(w & os & -> & F)]; cbn [bind]; [left; split; [reflexivity|cbn [compilations]; apply Exists_app; right; exact Hcr]|right].
      destruct o as [l|].
      + destruct H as (rules & pieces & -> & Hl). eexists. eexists. split; [reflexivity|]. constructor; assumption.
      + rewrite H. eexists. eexists. split; [reflexivity|]. exact F.
  Qed.
End Sessions.

(** ** Rewriting is determined *)
Lemma by_condition_unique rules input m m' : by_condition rules input m -> by_condition rules input m' -> m = m'.
Proof. intros [(c & H1) H2] [(c' & H1') H2']. specialize (H2 c' m' H1'). specialize (H2' c m H1). lia. Qed.
Lemma rewriting_unique rules : zlen rules <= 254 -> Forall (fun r => pattern r <> []) rules ->
  forall w o, rewriting (by_condition rules) rules w o -> forall o', rewriting (by_condition rules) rules w o' -> o = o'.
Proof.
  intros Hm Hne. assert (Hp : forall m r, nth_error rules m = Some r -> pattern r <> []) by (intros m r H; exact (proj1 (Forall_forall _ _) Hne r (nth_error_In _ _ H))).
  induction 1 as [|x rest out Hc Hr IH|m r rest out Hn Hc Hr IH]; intros o' H'.
  - inversion H' as [E|x r o Hc' Hr' E|m r rest out Hn Hc Hr E]; [reflexivity|]. exfalso. apply app_eq_nil in E. exact (Hp _ _ Hn (proj1 E)).
  - inversion H' as [E|x' r' o Hc' Hr' E|m r rest' o Hn Hc' Hr' E]; subst; [f_equal; apply IH; exact Hr'|]. exfalso. rewrite E in Hc'.
    pose proof (by_condition_unique _ _ _ _ Hc Hc') as U. assert (m < length rules)%nat by (apply nth_error_Some; congruence). unfold zlen in Hm. lia.
  - inversion H' as [E|x' r' o Hc' Hr' E|m' r' rest' o Hn' Hc' Hr' E].
    + exfalso. symmetry in E. apply app_eq_nil in E. exact (Hp _ _ Hn (proj1 E)).
    + exfalso. rewrite E in Hc'. pose proof (by_condition_unique _ _ _ _ Hc Hc') as U. assert (m < length rules)%nat by (apply nth_error_Some; congruence). unfold zlen in Hm. lia.
    + rewrite E in Hc'. pose proof (by_condition_unique _ _ _ _ Hc Hc') as U. assert (m' = m) by lia. subst m'. rewrite Hn in Hn'. injection Hn' as <-.
      apply app_inv_head in E. subst rest'. f_equal. f_equal. apply IH. exact Hr'.
Qed.
