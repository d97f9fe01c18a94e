(** Proofs about the rewrite testers with rules that may have sets which are ranges, and tails:
    sets of elements in place of letters. *)
From Verif Require Import Base BaseFacts Model_Helpers Spec_Helpers Spec_Layout Model_Font Model_Rewrites Proofs_Rewrites Model_Scanner Spec_Scanner Proofs_Scanner2 Proofs_Scanner3
  Model_CircularBuffer Model_Tree Spec_Tree Spec_TreeSets Proofs_Tree Proofs_Tree2 Proofs_Tree3 Proofs_Tree4 Proofs_Tree5 Model_Tester Spec_Tester Spec_Session Spec_TesterRules
  Proofs_Tester Proofs_Tester2 Proofs_Tester3 Proofs_Tester4 Proofs_Tester5 Proofs_Tester6 Spec_TesterSets Proofs_Tester7 Proofs_Tester8 Proofs_Tester9 Proofs_Tester10.

(** ** The best of any kind of patterns *)
Definition best {A} (ok : list A -> Prop) (rules : list (list A * Z)) (m : Z) : Prop :=
  (m = 255 /\ forall xs r, In (xs, r) rules -> ~ ok xs) \/
  (exists before xs after, rules = before ++ (xs, m) :: after /\ ok xs /\
     (forall ys r, In (ys, r) rules -> ok ys -> (length ys <= length xs)%nat) /\
     (forall ys r, In (ys, r) before -> ok ys -> (length ys < length xs)%nat)).
Lemma best_transfer {A B} (ok : list A -> Prop) (ok' : list B -> Prop) P Q m :
  Forall2 (fun p q => (ok (fst p) <-> ok' (fst q)) /\ length (fst p) = length (fst q) /\ snd p = snd q) P Q -> best ok P m -> best ok' Q m.
Proof.
  intros HF. assert (K : forall ys r, In (ys, r) Q -> exists xs, In (xs, r) P /\ (ok xs <-> ok' ys) /\ length xs = length ys).
  { clear m. induction HF as [|[a i] [b j] P Q (H1 & H2 & H3) _ IH]; intros ys r; [intros []|]. cbn [fst snd] in *. intros [[= <- <-]|Hin]; [exists a; subst; split; [left; reflexivity|auto]|].
    destruct (IH _ _ Hin) as (xs & G1 & G2). exists xs. split; [right; exact G1|exact G2]. }
  intros [[-> H]|(before & xs & after & -> & H1 & H2 & H3)].
  - left. split; [reflexivity|]. intros ys r Hin Hy. destruct (K _ _ Hin) as (xs & G1 & G2 & _). apply (H _ _ G1). apply G2. exact Hy.
  - right. apply Forall2_app_inv_l in HF. destruct HF as (b' & rest & F1 & F2 & ->). inversion F2 as [|? [ys j] ? a' (G1 & G2 & G3) F3]; subst. cbn [fst snd] in *. subst j.
    exists b', ys, a'. split; [reflexivity|]. split; [apply G1; exact H1|]. rewrite <- G2. split.
    + intros zs r Hin Hz. destruct (K _ _ Hin) as (ws & L1 & L2 & L3). rewrite <- L3. apply (H2 _ _ L1). apply L2. exact Hz.
    + intros zs r Hin Hz. clear - F1 H3 Hin Hz. induction F1 as [|[a i] [b j] P Q (K1 & K2 & K3) _ IH]; [destruct Hin|]. cbn [fst snd] in *. destruct Hin as [[= <- <-]|Hin].
      * rewrite <- K2. apply (H3 a i); [left; reflexivity|apply K1; exact Hz].
      * apply IH; [|exact Hin]. intros ys r' Hy. apply (H3 ys r'). right. exact Hy.
Qed.
Lemma best_one {A} (ok : list A -> Prop) P m m' : best ok P m -> best ok P m' -> m = m'.
Proof.
  intros [[-> H]|(b1 & x1 & a1 & E1 & H1 & H2 & H3)] [[-> H']|(b2 & x2 & a2 & E2 & H1' & H2' & H3')]; [reflexivity| | |].
  - exfalso. apply (H x2 m'); [rewrite E2; apply in_elt|exact H1'].
  - exfalso. apply (H' x1 m); [rewrite E1; apply in_elt|exact H1].
  - assert (L1 := H2 x2 m' ltac:(rewrite E2; apply in_elt) H1'). assert (L2 := H2' x1 m ltac:(rewrite E1; apply in_elt) H1).
    rewrite E1 in E2. clear E1 H2 H2'. revert b2 H3' E2. induction b1 as [|e b1 IH]; intros [|e2 b2] H3' E; cbn [app] in E; [congruence| | |].
    + injection E as <- _. specialize (H3' x1 m (or_introl eq_refl) H1). lia.
    + injection E as -> _. specialize (H3 x2 m' (or_introl eq_refl) H1'). lia.
    + injection E as -> E. apply (IH (fun ys r Hin => H3 ys r (or_intror Hin)) b2 (fun ys r Hin => H3' ys r (or_intror Hin)) E).
Qed.

(** ** Choosing and rewriting *)
Section Agree.
  Context {AB : alphabet}.
  (** a set of elements and a letter *)
  Definition agrees (n : Z) (q : Z -> Prop) : Prop := forall x, q x <-> name x = n.
  Definition agree (n : nrule) (q : srule) : Prop :=
    n_cond n = q_cond q /\ Forall2 agrees (n_head n) (q_head q) /\ Forall2 agrees (n_body n) (q_body q) /\ Forall2 agrees (n_tail n) (q_tail q) /\ n_out n = q_out q.
  Lemma agrees_elements ns qs w : Forall2 agrees ns qs -> map name w = ns <-> elements_of qs w.
  Proof.
    unfold elements_of. intros H. revert w. induction H as [|n q ns qs Hn _ IH]; intros [|x w]; cbn [map]; split; intros E; try discriminate; try (inversion E; fail); try constructor.
    - injection E as E1 E2. apply Hn. exact E1.
    - injection E as E1 E2. apply IH. exact E2.
    - inversion E; subst. f_equal; [apply Hn; assumption|apply IH; assumption].
  Qed.
  Lemma agrees_prefix ns qs w : Forall2 agrees ns qs -> is_prefix ns (map name w) <-> Spec_Tree.fits qs w.
  Proof.
    intros H. split.
    - intros (r & E). destruct (map_app_inv _ _ _ _ E) as (u & v & -> & H1 & _). exists u, v. split; [reflexivity|]. apply (agrees_elements _ _ _ H). exact H1.
    - intros (u & v & -> & HF). exists (map name v). rewrite map_app. f_equal. apply (agrees_elements _ _ _ H). exact HF.
  Qed.
  Lemma agree_pattern n q : agree n q -> Forall2 agrees (n_pattern n) (q_pattern q).
  Proof. intros (_ & H1 & H2 & H3 & _). apply Forall2_app; [exact H1|]. apply Forall2_app; assumption. Qed.
  Lemma F2_length {A B} (P : A -> B -> Prop) l m : Forall2 P l m -> length l = length m.
  Proof. induction 1; cbn; congruence. Qed.

  Definition paired (p : list Z * Z) (q : list (Z -> Prop) * Z) : Prop := Forall2 agrees (fst p) (fst q) /\ snd p = snd q.
  Lemma group_agree c ns qs : Forall2 agree ns qs -> Forall2 paired (n_group c ns) (q_group c qs).
  Proof.
    unfold n_group, group, q_group. intros H. generalize 0. induction H as [|n q ns qs Hn _ IH]; intros from; cbn [map numbered q_numbered filter fst]; [constructor|].
    pose proof (proj1 Hn) as Hc. cbn [flattened r_cond]. rewrite Hc. destruct (q_cond q =? c); [|apply IH]. unfold patterns, q_patterns. cbn [map fst snd]. constructor; [|apply IH].
    split; [|reflexivity]. cbn [fst]. rewrite flattened_pattern. exact (agree_pattern _ _ Hn).
  Qed.
  Lemma paired_best P Q w m : Forall2 paired P Q -> best_match P (map name w) m <-> best_fit Q w m.
  Proof.
    intros H. split.
    - apply (best_transfer (fun xs => is_prefix xs (map name w)) (fun q => Spec_Tree.fits q w)). induction H as [|p q P Q [H1 H2] _ IH]; constructor; [|exact IH].
      split; [exact (agrees_prefix _ _ w H1)|]. split; [exact (F2_length _ _ _ H1)|exact H2].
    - apply (best_transfer (fun q => Spec_Tree.fits q w) (fun xs => is_prefix xs (map name w))). induction H as [|p q P Q [H1 H2] _ IH]; constructor; [|exact IH].
      split; [symmetry; exact (agrees_prefix _ _ w H1)|]. split; [symmetry; exact (F2_length _ _ _ H1)|symmetry; exact H2].
  Qed.
  Lemma choice_agree ns qs w m : Forall2 agree ns qs -> n_choice ns (map name w) m -> q_by_condition qs w m.
  Proof.
    intros H [(c & H1) H2]. split.
    - exists c. apply (paired_best _ _ w m (group_agree c _ _ H)). exact H1.
    - intros c' m' Hm. apply (H2 c' m'). apply (paired_best _ _ w m' (group_agree c' _ _ H)). exact Hm.
  Qed.
  Lemma rewriting_agree ns qs : Forall2 agree ns qs -> forall w o, n_rewriting ns w o -> q_rewriting (q_by_condition qs) qs w o.
  Proof.
    intros H. induction 1 as [|x rest out Hc _ IH|m r h b t rest out Hn Eh Eb Et Hc _ IH]; [constructor|constructor; [exact (choice_agree _ _ _ _ H Hc)|exact IH]|].
    destruct (Forall2_nth _ _ _ H _ _ Hn) as (q & Hq & (_ & A1 & A2 & A3 & Ao)). rewrite Ao. apply (q_rewriting_apply _ _ m q h b t); [exact Hq| | | |exact (choice_agree _ _ _ _ H Hc)|exact IH].
    - apply (agrees_elements _ _ _ A1). exact Eh.
    - apply (agrees_elements _ _ _ A2). exact Eb.
    - apply (agrees_elements _ _ _ A3). exact Et.
  Qed.
  Lemma tails_agree ns qs : Forall2 agree ns qs -> tails_fit qs -> n_tails ns.
  Proof.
    intros H [T|T]; [left|right]; revert T; induction H as [|n q ns qs (_ & A1 & _ & A3 & _) _ IH]; intros T; constructor; try (apply IH; exact (Forall_inv_tail T)); pose proof (Forall_inv T) as T1; cbv beta in T1.
    - rewrite T1 in A3. inversion A3. reflexivity.
    - destruct T1 as [T1 T2]. rewrite T1 in A1. split; [inversion A1; reflexivity|]. unfold zlen in *. rewrite (F2_length _ _ _ A3). exact T2.
  Qed.
  Lemma limits_agree P Q : Forall2 paired P Q -> within_limits Q -> within_limits P.
  Proof.
    intros H. assert (E : steps P = steps Q /\ zlen P = zlen Q).
    { induction H as [|p q P Q [H1 _] _ [IH1 IH2]]; [split; reflexivity|]. rewrite !zlen_cons. split; [|lia]. unfold steps in *. cbn [fold_right]. rewrite IH1. unfold zlen. rewrite (F2_length _ _ _ H1). reflexivity. }
    unfold within_limits. destruct E as [-> ->]. auto.
  Qed.
  Lemma crowded_agree ns qs : Forall2 agree ns qs -> n_crowded ns -> q_crowded qs.
  Proof. intros H (c & Hc). exists c. intros G. apply Hc. exact (limits_agree _ _ (group_agree c _ _ H) G). Qed.

  (** ** Sessions *)
  Definition job_agree (j : job nrule) (j' : job srule) : Prop :=
    match j, j' with
    | JAdd d n, JAdd d' q => d = d' /\ agree n q
    | JRemove d, JRemove d' => d = d'
    | JRemoveAll, JRemoveAll => True
    | JResync e, JResync e' | JRefresh e, JRefresh e' => e = e'
    | JSequence e p l, JSequence e' p' l' => e = e' /\ p = p' /\ l = l'
    | _, _ => False
    end.
  Definition session_agree (s : session nrule) (s' : session srule) : Prop :=
    Forall2 (fun a b => fst a = fst b /\ agree (snd a) (snd b)) (s_rules s) (s_rules s') /\ s_pending s = s_pending s' /\ s_room s = s_room s'.
  Lemma F2_zlen' {A B} (P : A -> B -> Prop) l m : Forall2 P l m -> zlen l = zlen m.
  Proof. intros H. unfold zlen. rewrite (F2_length _ _ _ H). reflexivity. Qed.
  Lemma without_agree d l l' : Forall2 (fun a b => fst a = fst b /\ agree (snd a) (snd b)) l l' ->
    match without d l, without d l' with
    | Some m, Some m' => Forall2 (fun a b => fst a = fst b /\ agree (snd a) (snd b)) m m'
    | None, None => True
    | _, _ => False
    end.
  Proof.
    induction 1 as [|a b l l' [H1 H2] H IH]; cbn [without]; [exact I|]. rewrite H1. destruct (list_eq_dec Z.eq_dec (fst b) d); [exact H|].
    destruct (without d l), (without d l'); try contradiction; [|exact I]. constructor; auto.
  Qed.
  Lemma next_agree s s' j j' : session_agree s s' -> job_agree j j' -> session_agree (next s j) (next s' j').
  Proof.
    intros (H1 & H2 & H3) Hj. assert (Hc : session_agree (compiled s) (compiled s')).
    { unfold compiled. rewrite <- H2. destruct (s_pending s) eqn:E; [|split; [exact H1|]; split; [congruence|exact H3]]. split; [exact H1|]. split; [reflexivity|]. cbn [s_room]. inversion H1; reflexivity. }
    assert (Hs : session_agree s s') by (split; auto).
    destruct j, j'; cbn [job_agree] in Hj; try contradiction; cbn [next]; try exact Hc; try exact Hs.
    - destruct Hj as [<- Hj]. rewrite <- (F2_zlen' _ _ _ H1). destruct (_ <? _); [|exact Hs]. split; [|split; [reflexivity|exact H3]]. cbn [s_rules]. apply Forall2_app; [exact H1|]. constructor; [auto|constructor].
    - subst d0. pose proof (without_agree d _ _ H1) as G. destruct (without d (s_rules s)), (without d (s_rules s')); try contradiction; [|exact Hs]. split; [exact G|]. split; [reflexivity|exact H3].
    - split; [constructor|]. split; [reflexivity|exact H3].
  Qed.
  Lemma snds_agree l l' : Forall2 (fun (a : list Z * nrule) (b : list Z * srule) => fst a = fst b /\ agree (snd a) (snd b)) l l' -> Forall2 agree (map snd l) (map snd l').
  Proof. induction 1 as [|a b l l' [_ H] _ IH]; cbn [map]; constructor; assumption. Qed.
  Lemma expected_agree : forall js js', Forall2 job_agree js js' -> forall s s', session_agree s s' ->
    Forall2 (fun e e' => Forall2 agree (fst e) (fst e') /\ snd e = snd e') (expected s js) (expected s' js').
  Proof.
    induction 1 as [|j j' js js' Hj _ IH]; intros s s' Hs; [constructor|]. pose proof (IH _ _ (next_agree _ _ _ _ Hs Hj)) as G.
    destruct j, j'; cbn [job_agree] in Hj; try contradiction; cbn [expected]; try exact G. destruct Hj as (_ & <- & <-). constructor; [|exact G]. split; [exact (snds_agree _ _ (proj1 Hs))|reflexivity].
  Qed.
  Lemma compilations_agree : forall js js', Forall2 job_agree js js' -> forall s s', session_agree s s' -> Forall2 (Forall2 agree) (compilations s js) (compilations s' js').
  Proof.
    induction 1 as [|j j' js js' Hj _ IH]; intros s s' Hs; [constructor|]. pose proof (IH _ _ (next_agree _ _ _ _ Hs Hj)) as G. cbn [compilations].
    assert (K : Forall2 (Forall2 agree) (if s_pending s then [map snd (s_rules s)] else []) (if s_pending s' then [map snd (s_rules s')] else [])).
    { rewrite (proj1 (proj2 Hs)). destruct (s_pending s'); constructor; [|constructor]. exact (snds_agree _ _ (proj1 Hs)). }
    destruct j, j'; cbn [job_agree] in Hj; try contradiction; cbn [app]; try exact G; apply Forall2_app; assumption.
  Qed.
  Lemma run_agree k : forall js js', Forall2 job_agree js js' -> forall w, run_jobs k w js = run_jobs k w js'.
  Proof.
    induction 1 as [|j j' js js' Hj _ IH]; intros w; [reflexivity|]. cbn [run_jobs].
    assert (E : run_job k w j = run_job k w j') by (destruct j, j'; cbn [job_agree] in Hj; try contradiction; cbn [run_job]; repeat match goal with H : _ /\ _ |- _ => destruct H end; subst; reflexivity).
    rewrite E. destruct (run_job k w j') as [[w1 o]| | |]; cbn [bind]; try reflexivity. rewrite IH. reflexivity.
  Qed.
  Lemma sets_agree sets js js' : Forall2 job_agree js js' -> same_sets sets js' -> same_sets sets js.
  Proof.
    unfold same_sets. induction 1 as [|j j' js js' Hj _ IH]; intros S; constructor; [|apply IH; exact (Forall_inv_tail S)]. pose proof (Forall_inv S) as S1. cbv beta in S1.
    destruct j, j'; cbn [job_agree] in Hj; try contradiction; try exact I; repeat match goal with H : _ /\ _ |- _ => destruct H end; subst; reflexivity.
  Qed.

  Section Kind.
    Variables (k : tester_kind) (sets : set_reader) (accepted : Z -> bool) (rule_of : list Z -> srule -> Prop).
    Hypothesis Hfeeds : forall g, tk_feed k g = Ok (accepted g) \/ (accepted g = false /\ exists m, tk_feed k g = Err m).
    Hypothesis Hrule : forall d q, rule_of d q -> exists n, lettered_rule k sets d n /\ agree n q.
    Lemma jobs_named : forall js' s s', session_agree s s' -> all_legal rule_of s' js' -> exists js, Forall2 job_agree js js' /\ all_legal (lettered_rule k sets) s js.
    Proof.
      induction js' as [|j' js' IH]; intros s s' Hs L; [exists []; split; [constructor|exact I]|]. destruct L as [L1 L2].
      assert (K : exists j, job_agree j j' /\ legal (lettered_rule k sets) s j).
      { destruct j' as [d q|d| |e|e|e p l]; cbn [legal] in L1.
        - destruct (Hrule _ _ L1) as (n & H1 & H2). exists (JAdd d n). split; [split; auto|exact H1].
        - exists (JRemove d). split; [reflexivity|exact I].
        - exists JRemoveAll. split; exact I.
        - exists (JResync e). split; [reflexivity|exact L1].
        - exists (JRefresh e). split; [reflexivity|exact L1].
        - exists (JSequence e p l). split; [split; auto|]. cbn [legal]. destruct Hs as (H1 & -> & ->). destruct L1 as [L0 L1]. split; [exact L0|]. intros E. apply L1. rewrite E in H1. inversion H1. reflexivity. }
      destruct K as (j & Hj & L1'). destruct (IH _ _ (next_agree _ _ _ _ Hs Hj) L2) as (js & H1 & H2). exists (j :: js). split; [constructor; assumption|split; assumption].
    Qed.
    Definition q_fits (rules : list srule) (pieces outs : list (list Z)) : Prop :=
      Forall2 (fun p o => q_rewriting (q_by_condition rules) rules (filter accepted p) o) pieces outs.
    Lemma new_agree : session_agree new_session new_session.
    Proof. split; [constructor|auto]. Qed.
    Lemma Forall2_Exists {A B} (P : A -> B -> Prop) (X : A -> Prop) (Y : B -> Prop) l m : (forall a b, P a b -> X a -> Y b) -> Forall2 P l m -> Exists X l -> Exists Y m.
    Proof. intros H. induction 1 as [|a b l m Hab _ IH]; intros E; inversion E; subst; [left; eauto|right; auto]. Qed.
    Lemma q_session_ok js : all_legal rule_of new_session js -> same_sets sets js -> Forall (fun e => tails_fit (fst e)) (expected new_session js) ->
      run_jobs k (false, new_tester) js = Err "DecisionTreeCompiler hit a limit" /\ Exists q_crowded (compilations new_session js) \/
      exists w os, run_jobs k (false, new_tester) js = Ok (w, os) /\ Forall2 (fun e o => q_fits (fst e) (snd e) o) (expected new_session js) os.
    Proof.
      intros L S T. destruct (jobs_named js _ _ new_agree L) as (js0 & Hj & L0). pose proof (expected_agree _ _ Hj _ _ new_agree) as He.
      assert (T0 : Forall (fun e => n_tails (fst e)) (expected new_session js0)).
      { clear - He T. induction He as [|e e' l l' [H _] _ IH]; constructor; [exact (tails_agree _ _ H (Forall_inv T))|apply IH; exact (Forall_inv_tail T)]. }
      rewrite <- (run_agree k _ _ Hj).
      destruct (n_jobs_ok k sets accepted Hfeeds js0 new_tester new_session (n_new_idle k sets) L0 (sets_agree _ _ _ Hj S) T0) as [[-> Hc]|(w & os & -> & HF)]; [left|right].
      - split; [reflexivity|]. exact (Forall2_Exists _ _ _ _ _ (fun a b H => crowded_agree a b H) (compilations_agree _ _ Hj _ _ new_agree) Hc).
      - exists w, os. split; [reflexivity|]. revert os HF. clear - He. induction He as [|e e' l l' [H1 H2] _ IH]; intros os HF; inversion HF as [|? o ? os' H HF']; subst; constructor; [|apply IH; exact HF'].
        unfold q_fits. rewrite <- H2. unfold n_fits in H. clear - H H1. induction H as [|p x ps xs H _ IHp]; [constructor|]. constructor; [exact (rewriting_agree _ _ H1 _ _ H)|exact IHp].
    Qed.
  End Kind.
End Agree.
