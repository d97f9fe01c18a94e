(** The rewrite testers with any rules whose trees answer rightly: sequences and sessions. *)
From Verif Require Import Base BaseFacts Model_Helpers Model_Font Model_Rewrites Model_Scanner Model_CircularBuffer Spec_CircularBuffer
  Proofs_CircularBuffer Proofs_Rewrites Model_Tree Spec_Tree Proofs_Tree Proofs_Tree2 Proofs_Tree3 Proofs_Tree4 Model_Tester Spec_Tester
  Proofs_Tester Proofs_Tester2 Proofs_Tester3 Spec_Session Proofs_Tester4 Proofs_Tester5 Proofs_Tester7 Proofs_Tester8 Spec_TesterSets Proofs_Tester11 Proofs_Tester12.

(** ** Numbered rules *)
Lemma q_numbered_in rules : forall from r i, In (r, i) (q_numbered from rules) -> from <= i < from + zlen rules /\ nth_error rules (Z.to_nat (i - from)) = Some r.
Proof.
  induction rules as [|r0 rules IH]; intros from r i; cbn [q_numbered]; [intros []|]. rewrite zlen_cons. pose proof (zlen_nonneg rules). intros [[= <- <-]|Hin].
  - split; [lia|]. replace (from - from) with 0 by lia. reflexivity.
  - destruct (IH _ _ _ Hin) as [H1 H2]. split; [lia|]. replace (Z.to_nat (i - from)) with (S (Z.to_nat (i - (from + 1)))) by lia. exact H2.
Qed.
Lemma q_group_in c rules xs i : In (xs, i) (q_group c rules) -> 0 <= i < zlen rules /\ exists r, nth_error rules (Z.to_nat i) = Some r /\ xs = q_pattern r /\ q_cond r = c.
Proof.
  unfold q_group, q_patterns. intros Hin. apply in_map_iff in Hin. destruct Hin as ([r j] & E & Hin). cbn [fst snd] in E. injection E as <- <-.
  apply filter_In in Hin. destruct Hin as [Hin Hc]. cbn [fst] in Hc. destruct (q_numbered_in _ _ _ _ Hin) as [H1 H2]. split; [lia|]. exists r.
  replace (j - 0) with j in H2 by lia. split; [exact H2|]. split; [reflexivity|lia].
Qed.
Lemma q_numbered_cond rules c : forall from, (forall r, In r rules -> q_cond r <> c) -> filter (fun e => q_cond (fst e) =? c) (q_numbered from rules) = [].
Proof.
  induction rules as [|r rules IH]; intros from H; cbn [q_numbered filter fst]; [reflexivity|]. pose proof (H r (or_introl eq_refl)).
  replace (q_cond r =? c) with false by lia. apply IH. intros r' Hin. apply H. right. exact Hin.
Qed.
Lemma q_best_unique P input m m' : best_fit P input m -> best_fit P input m' -> m = m'.
Proof. exact (best_one (fun q => Spec_Tree.fits q input) P m m'). Qed.
Lemma q_best_range P input m : (forall xs i, In (xs, i) P -> 0 <= i < 255) -> best_fit P input m -> 0 <= m <= 255.
Proof.
  intros H [[-> _]|(a & xs & b & E & _)]; [lia|]. specialize (H xs m). rewrite E in H. specialize (H ltac:(apply in_or_app; right; left; reflexivity)). lia.
Qed.
Lemma q_best_nil input : best_fit [] input 255.
Proof. left. split; [reflexivity|]. intros xs r []. Qed.
Lemma q_min_choice rules l input : zlen rules <= 254 -> Forall (fun i => best_fit (q_group (i_cond i) rules) input (d_best (i_tree i))) l ->
  Forall (fun r => In (q_cond r) (map i_cond l)) rules ->
  q_by_condition rules input (fold_left (fun best i => if d_best (i_tree i) <? best then d_best (i_tree i) else best) l 255).
Proof.
  intros Hmany HB HC.
  assert (G : forall l best, let m := fold_left (fun best i => if d_best (i_tree i) <? best then d_best (i_tree i) else best) l best in
    m <= best /\ (forall i, In i l -> m <= d_best (i_tree i)) /\ (m = best \/ exists i, In i l /\ m = d_best (i_tree i))).
  { clear. induction l as [|i l IH]; intros best; cbn [fold_left].
    - split; [lia|]. split; [intros i []|left; reflexivity].
    - specialize (IH (if d_best (i_tree i) <? best then d_best (i_tree i) else best)). cbv zeta in *. destruct IH as (H1 & H2 & H3).
      destruct (Z.ltb_spec (d_best (i_tree i)) best).
      + split; [lia|]. split; [intros j [<-|Hj]; [exact H1|exact (H2 j Hj)]|]. right. destruct H3 as [H3|(j & Hj & H3)]; [exists i; split; [left; reflexivity|exact H3]|].
        exists j. split; [right; exact Hj|exact H3].
      + split; [exact H1|]. split; [intros j [<-|Hj]; [lia|exact (H2 j Hj)]|]. destruct H3 as [H3|(j & Hj & H3)]; [left; exact H3|]. right. exists j. split; [right; exact Hj|exact H3]. }
  specialize (G l 255). cbv zeta in G. set (m := fold_left _ l 255) in *. clearbody m. destruct G as (H1 & H2 & H3).
  assert (Hmin : forall c m', best_fit (q_group c rules) input m' -> m <= m').
  { intros c m' Hm'. destruct (in_dec Z.eq_dec c (map i_cond l)) as [Hin|Hin].
    - apply in_map_iff in Hin. destruct Hin as (i & <- & Hi). pose proof (proj1 (Forall_forall _ _) HB i Hi) as Hb. cbv beta in Hb.
      rewrite (q_best_unique _ _ _ _ Hm' Hb). exact (H2 i Hi).
    - replace (q_group c rules) with (@nil (list (Z -> Prop) * Z)) in Hm'.
      + rewrite (q_best_unique _ _ _ _ Hm' (q_best_nil input)). exact H1.
      + unfold q_group. rewrite q_numbered_cond; [reflexivity|]. intros r Hr E. apply Hin. rewrite <- E. exact (proj1 (Forall_forall _ _) HC r Hr). }
  split; [|exact Hmin]. destruct H3 as [->|(i & Hi & ->)].
  - destruct l as [|i l].
    + exists 0. destruct rules as [|r rs]; [apply q_best_nil|]. inversion HC as [|? ? [] ?].
    + pose proof (Forall_inv HB) as Hb. cbv beta in Hb. pose proof (H2 i (or_introl eq_refl)) as Hge.
      pose proof (q_best_range _ _ _ (fun xs j => q_group_range _ _ xs j Hmany) Hb) as Hr. exists (i_cond i). replace 255 with (d_best (i_tree i)) by lia. exact Hb.
  - exists (i_cond i). exact (proj1 (Forall_forall _ _) HB i Hi).
Qed.

Definition headless (rules : list srule) : Prop := Forall (fun r => q_head r = []) rules.
(** A tree that answers rightly whatever it is fed, and stops where no rule is longer *)
Definition good_fit (states : list state) (Q : list (list (Z -> Prop) * Z)) : Prop :=
  forall w, exists d, fed states w = Ok d /\ d_states d = states /\ best_fit Q w (d_best d) /\
    (d_scanning d = true -> w = [] \/ exists xs j, In (xs, j) Q /\ zlen w < zlen xs) /\
    (d_scanning d = false -> forall z, best_fit Q (w ++ z) (d_best d)).
(** a rule as its bytes tell *)
Definition sized (k : tester_kind) (d : list Z) (r : srule) : Prop :=
  bytes d /\ rule_Condition d = Ok (q_cond r) /\ rule_HeadLen d = Ok (zlen (q_head r)) /\ rule_BodyLen d = Ok (zlen (q_body r)) /\ rule_TailLen d = Ok (zlen (q_tail r)) /\
  tk_out k d = Ok (q_out r) /\ exists es, scan (tk_kind k) d = Ok es.
Lemma sized_sizes k d r : sized k d r -> k_min (tk_kind k) <= zlen d /\ q_body r <> [] /\ zlen (q_pattern r) <= 255 /\ rule_InLen d = Ok (zlen (q_pattern r)).
Proof.
  intros (Hby & _ & Hh & Hb & Ht & _ & es & Hs). destruct (scan_checks _ _ _ Hs) as (Hm & o & h & b & t & Ho' & Hh' & Hb' & Ht' & H1 & H2 & H3 & H4).
  unfold rule_HeadLen, rule_BodyLen, rule_TailLen in *. rewrite Hh in Hh'. injection Hh' as <-. rewrite Hb in Hb'. injection Hb' as <-. rewrite Ht in Ht'. injection Ht' as <-.
  split; [exact Hm|]. assert (K : forall i x, zget d i = Ok x -> byte x) by (intros i x E; exact (proj1 (Forall_forall _ _) Hby x (zget_in _ _ _ E))).
  pose proof (K _ _ Hb). pose proof (K _ _ Hh). pose proof (K _ _ Ht). pose proof (K _ _ Ho'). unfold byte in *.
  assert (Hsum : zlen (q_head r) + zlen (q_body r) <= 255) by (revert H3; unfold u8; lia).
  assert (Hsum' : zlen (q_head r) + zlen (q_body r) + zlen (q_tail r) <= 255) by (revert H4; unfold u8; lia).
  split; [intros E; rewrite E, zlen_nil in H2; lia|]. unfold q_pattern. rewrite !zlen_app. split; [lia|].
  unfold rule_InLen. rewrite Hh, Hb, Ht. cbn [bind]. f_equal. unfold u8. lia.
Qed.
Lemma sized_ne k d r : sized k d r -> q_pattern r <> [].
Proof. intros H. destruct (sized_sizes _ _ _ H) as (_ & H1 & _). unfold q_pattern. destruct (q_head r); [|discriminate]. destruct (q_body r); [contradiction|discriminate]. Qed.


Section Any.
  Variables (k : tester_kind) (sets : set_reader) (rule_of : list Z -> srule -> Prop).
  Hypothesis Hsized : forall d r, rule_of d r -> sized k d r.
  Lemma own_group c data rules : Forall2 rule_of data rules -> forall from, exists own, rules_with c from data = Ok own /\
    length own = length (q_patterns (filter (fun e => q_cond (fst e) =? c) (q_numbered from rules))).
  Proof.
    induction 1 as [|d r ds rs Hd _ IH]; intros from; cbn [rules_with q_numbered filter q_patterns map]; [exists []; split; reflexivity|].
    destruct (Hsized _ _ Hd) as (_ & Hc & _). rewrite Hc. cbn [bind fst]. destruct (IH (from + 1)) as (own & -> & HL). cbn [bind].
    destruct (q_cond r =? c); eexists; (split; [reflexivity|]); cbn [length map]; [f_equal|]; exact HL.
  Qed.

Section Rules.
  Variables (data : list (list Z)) (rules : list srule).
  Hypothesis Hrules : Forall2 rule_of data rules.

  Lemma a_rules_at m r : nth_error rules m = Some r -> exists d, zget data (Z.of_nat m) = Ok d /\ rule_of d r.
  Proof. exact (Forall2_zget _ _ _ Hrules m r). Qed.
  (** ** The trees *)
  Hypothesis Hmany : zlen rules <= 254.
  Variable cap : Z.
  Hypothesis Hcap : 1 <= cap.
  Hypothesis Hfit : Forall (fun r => zlen (q_pattern r) <= cap) rules.

  Definition a_trees_ok (l : list (list state * Z * bool)) : Prop :=
    Forall (fun s => good_fit (fst (fst s)) (q_group (snd (fst s)) rules) /\ (headless rules -> blocking (fst (fst s)))) l /\
    Forall (fun r => In (q_cond r) (map (fun s => snd (fst s)) l)) rules.
  (** [tail] elements at the start of the accumulator have already been reported. *)
  Definition a_runs (t : tester) (w : list Z) (tail : Z) : Prop :=
    ts_rules t = data /\ a_trees_ok (map static (ts_trees t)) /\ holds (ts_acc t) w cap /\ ts_tail t = tail.

  Lemma a_frame_runs t t' w w' a b : frame t t' -> a_runs t w a -> holds (ts_acc t') w' cap -> ts_tail t' = b -> a_runs t' w' b.
  Proof. intros (H1 & H2 & _) (R1 & R2 & _) Hh Ht. unfold a_runs. rewrite H1, H2. auto. Qed.

  Lemma a_feed_one i w g : good_fit (d_states (i_tree i)) (q_group (i_cond i) rules) -> fed (d_states (i_tree i)) w = Ok (i_tree i) ->
    exists d, (if d_scanning (i_tree i) then tree_Feed (i_tree i) g else Ok (i_tree i)) = Ok d /\ d_states d = d_states (i_tree i) /\ fed (d_states (i_tree i)) (w ++ [g]) = Ok d.
  Proof.
    intros G F. destruct (G (w ++ [g])) as (d & Hd & Hs & _). exists d. split; [|split; [exact Hs|exact Hd]].
    unfold fed in *. rewrite ofold_app, F in Hd. cbn [bind ofold] in Hd. apply bind_ok in Hd. destruct Hd as (d' & Hd & E). injection E as <-. exact Hd.
  Qed.
  Lemma a_feed_ok t w g : a_trees_ok (map static (ts_trees t)) -> trees_at w (ts_trees t) ->
    exists t', treesFeedUnrestrictedGlyph t g = Ok (t', scanning (ts_trees t')) /\ frame t t' /\ trees_at (w ++ [g]) (ts_trees t') /\ ts_acc t' = ts_acc t /\ ts_tail t' = ts_tail t.
  Proof.
    intros [G _] F. unfold treesFeedUnrestrictedGlyph, feed_trees.
    assert (K : exists l', omap (fun i => if d_scanning (i_tree i) then do d <- tree_Feed (i_tree i) g; Ok (with_tree i d) else Ok i) (ts_trees t) = Ok l' /\
      map static l' = map static (ts_trees t) /\ trees_at (w ++ [g]) l').
    { induction (ts_trees t) as [|i l IH]; cbn [omap map] in *; [exists []; repeat split; constructor|]. inversion G as [|? ? [G1 _] G2]; subst. inversion F as [|? ? F1 F2]; subst.
      destruct (IH G2 F2) as (l' & E & H1 & H2). cbn [static fst snd] in G1. destruct (a_feed_one i w g G1 F1) as (d & Hd & Hs & Hf).
      exists (with_tree i d :: l'). split.
      - destruct (d_scanning (i_tree i)); [rewrite Hd; cbn [bind]; rewrite E; reflexivity|]. injection Hd as <-. cbn [bind]. rewrite E. cbn [bind]. destruct i; reflexivity.
      - cbn [map]. rewrite H1. split; [unfold static at 1; cbn [with_tree i_tree i_cond i_resync]; rewrite Hs; reflexivity|].
        constructor; [cbn [with_tree i_tree]; rewrite Hs; exact Hf|exact H2]. }
    destruct K as (l' & -> & H1 & H2). cbn [bind]. exists (with_trees t l'). split; [reflexivity|]. split; [split; [reflexivity|]; split; [exact H1|]; split; reflexivity|].
    split; [exact H2|]. split; reflexivity.
  Qed.
  (** An element that has already been reported stops all trees. *)
  Lemma a_block_ok t g : a_trees_ok (map static (ts_trees t)) -> headless rules -> trees_at [] (ts_trees t) -> ts_tail t = 1 ->
    exists t', treesFeedHeadGlyph t g = Ok (t', false) /\ frame t t' /\ treesGetBestMatch t' = 255 /\ ts_acc t' = ts_acc t /\ ts_tail t' = 1.
  Proof.
    intros [G _] Hl F Ht. unfold treesFeedHeadGlyph, feed_trees. rewrite Ht.
    assert (K : exists l', omap (fun i => if d_scanning (i_tree i) then do d <- tree_FeedHead (i_tree i) g 1; Ok (with_tree i d) else Ok i) (ts_trees t) = Ok l' /\
      map static l' = map static (ts_trees t) /\ existsb (fun i => d_scanning (i_tree i)) l' = false /\ Forall (fun i => d_best (i_tree i) = 255) l').
    { induction (ts_trees t) as [|i l IH]; cbn [omap map] in *; [exists []; repeat split; constructor|]. inversion G as [|? ? [_ G1] G2]; subst. inversion F as [|? ? F1 F2]; subst.
      destruct (IH G2 F2) as (l' & E & H1 & H2 & H3). cbn [static fst snd] in G1. specialize (G1 Hl). destruct G1 as (st & Hst & Hmax).
      unfold fed in F1. cbn [ofold] in F1. injection F1 as F1.
      assert (E1 : d_scanning (i_tree i) = true /\ d_index (i_tree i) = 0 /\ d_best (i_tree i) = 255) by (rewrite <- F1; repeat split). destruct E1 as (E1 & E2 & E3).
      rewrite E1, E. unfold tree_FeedHead. rewrite E1. cbn [negb]. rewrite E2, Hst. cbn [bind]. unfold SatisfiesMinRequiredHead. rewrite Hmax.
      replace ((1 >=? s_min st) && (1 <=? 0)) with false by (destruct (1 >=? s_min st); reflexivity). cbn [bind].
      eexists. split; [reflexivity|]. cbn [map]. rewrite H1. split; [reflexivity|]. split; [cbn [existsb with_tree i_tree d_scanning orb]; exact H2|]. constructor; [exact E3|exact H3]. }
    destruct K as (l' & -> & H1 & H2 & H3). cbn [bind]. exists (with_trees t l'). rewrite H2. split; [reflexivity|]. split; [split; [reflexivity|]; split; [exact H1|]; split; reflexivity|].
    split; [|split; [reflexivity|exact Ht]]. unfold treesGetBestMatch. cbn [with_trees ts_trees]. clear - H3. induction H3 as [|i l' H _ IH]; cbn [fold_left]; [reflexivity|].
    rewrite H. exact IH.
  Qed.

  Lemma a_min_choice l input : Forall (fun i => best_fit (q_group (i_cond i) rules) input (d_best (i_tree i))) l ->
    Forall (fun r => In (q_cond r) (map i_cond l)) rules ->
    q_by_condition rules input (fold_left (fun best i => if d_best (i_tree i) <? best then d_best (i_tree i) else best) l 255).
  Proof.
    intros HB HC. apply q_min_choice; [exact Hmany|exact HB|exact HC].
  Qed.
  Lemma a_decide t w : a_trees_ok (map static (ts_trees t)) -> trees_at w (ts_trees t) ->
    q_by_condition rules w (treesGetBestMatch t) /\ (scanning (ts_trees t) = false -> forall z, q_by_condition rules (w ++ z) (treesGetBestMatch t)).
  Proof.
    intros [G C] F. rewrite map_static_cond in C. rewrite Forall_map in G. unfold treesGetBestMatch. split.
    - apply a_min_choice; [|exact C]. apply Forall_forall. intros i Hi. pose proof (proj1 (Forall_forall _ _) G i Hi) as [Gi _]. pose proof (proj1 (Forall_forall _ _) F i Hi) as Fi.
      cbn [static fst snd] in Gi. cbv beta in Fi. destruct (Gi w) as (d & Hd & _ & Hb & _). rewrite Fi in Hd. injection Hd as <-. exact Hb.
    - intros Hs z. apply a_min_choice; [|exact C]. apply Forall_forall. intros i Hi. pose proof (proj1 (Forall_forall _ _) G i Hi) as [Gi _]. pose proof (proj1 (Forall_forall _ _) F i Hi) as Fi.
      cbn [static fst snd] in Gi. cbv beta in Fi. destruct (Gi w) as (d & Hd & _ & _ & _ & Hb). rewrite Fi in Hd. injection Hd as <-. apply Hb.
      destruct (d_scanning (i_tree i)) eqn:E; [|reflexivity]. exfalso. assert (scanning (ts_trees t) = true); [|congruence].
      apply existsb_exists. exists i. split; [exact Hi|exact E].
  Qed.
  Lemma a_scanning_short t w : a_trees_ok (map static (ts_trees t)) -> trees_at w (ts_trees t) -> scanning (ts_trees t) = true -> zlen w < cap.
  Proof.
    intros [G _] F Hs. rewrite Forall_map in G. apply existsb_exists in Hs. destruct Hs as (i & Hi & Hs). pose proof (proj1 (Forall_forall _ _) G i Hi) as [Gi _].
    pose proof (proj1 (Forall_forall _ _) F i Hi) as Fi. cbn [static fst snd] in Gi. cbv beta in Fi. destruct (Gi w) as (d & Hd & _ & _ & Hb & _). rewrite Fi in Hd. injection Hd as <-.
    destruct (Hb Hs) as [->|(xs & j & Hin & Hl)]; [rewrite zlen_nil; lia|]. destruct (q_group_in _ _ _ _ Hin) as (_ & r & Hr & E' & _).
    apply nth_error_In in Hr. pose proof (proj1 (Forall_forall _ _) Hfit r Hr) as Hl'. cbv beta in Hl'. rewrite <- E' in Hl'. lia.
  Qed.

  (** ** Applying the choice *)
  Lemma a_choice_rule m w : q_by_condition rules w m -> m <> 255 ->
    exists r h b t rest, nth_error rules (Z.to_nat m) = Some r /\ w = h ++ b ++ t ++ rest /\ elements_of (q_head r) h /\ elements_of (q_body r) b /\ elements_of (q_tail r) t /\ 0 <= m.
  Proof.
    intros [(c & [[E _]|(b0 & xs & b1 & E & (pre & rest & Ew & HF) & _)]) _] Hm; [contradiction|].
    assert (Hin : In (xs, m) (q_group c rules)) by (rewrite E; apply in_or_app; right; left; reflexivity).
    destruct (q_group_in _ _ _ _ Hin) as (Hr & r & Hn & -> & _). unfold q_pattern in HF. apply Forall2_app_inv_l in HF. destruct HF as (h & v & H1 & HF & ->).
    apply Forall2_app_inv_l in HF. destruct HF as (b & tl & H2 & H3 & ->). exists r, h, b, tl, rest. rewrite Ew, <- !app_assoc.
    split; [exact Hn|]. split; [reflexivity|]. split; [exact H1|]. split; [exact H2|]. split; [exact H3|lia].
  Qed.
  Hypothesis Htails : tails_fit rules.
  (** rewriting what follows the first [tail] elements of [w] *)
  Definition goes_on (tail : Z) (w z o : list Z) : Prop := exists u v, w = u ++ v /\ zlen u = tail /\ q_rewriting (q_by_condition rules) rules (v ++ z) o.
  Lemma goes_on_0 w z o : goes_on 0 w z o <-> q_rewriting (q_by_condition rules) rules (w ++ z) o.
  Proof.
    split; [|intros H; exists [], w; auto]. intros (u & v & -> & Hu & H). destruct u; [exact H|]. rewrite zlen_cons in Hu. pose proof (zlen_nonneg u). lia.
  Qed.
  Definition tail_fits (tail : Z) (w : list Z) : Prop := tail = 0 \/ (tail = 1 /\ headless rules /\ w <> []).
  Lemma a_act_ok t w m out : a_runs t w 0 -> q_by_condition rules w m -> w <> [] ->
    exists t' w' o tail, act k t m out = Ok (t', out ++ o) /\ a_runs t' w' tail /\ tail_fits tail w' /\ frame t t' /\ trees_at [] (ts_trees t') /\ zlen w' < zlen w /\
      forall z o', q_by_condition rules (w ++ z) m -> goes_on tail w' z o' -> q_rewriting (q_by_condition rules) rules (w ++ z) (o ++ o').
  Proof.
    intros R Hm Hw. pose proof R as (R1 & R2 & R3 & R4). unfold act. destruct (Z.eqb_spec m 255) as [->|Hne].
    - destruct w as [|x w]; [contradiction|]. destruct (pop_ok _ _ _ _ R3) as (a & E & Ha). unfold popOldestGlyph. rewrite E. cbn [bind]. change (ts_tail (with_acc t a)) with (ts_tail t). rewrite R4. cbn [Z.gtb Z.compare].
      destruct (restart_ok (with_acc t a)) as (t' & E' & Hf & Hat & Hacc & Htl). rewrite E'. cbn [bind]. exists t', w, [x], 0. split; [reflexivity|].
      assert (Hft : frame t t') by (destruct Hf as (F1 & F2 & F3 & F4); repeat split; assumption).
      split; [apply (a_frame_runs t t' (x :: w) w 0); [exact Hft|exact R|rewrite Hacc; exact Ha|rewrite Htl; exact R4]|]. split; [left; reflexivity|]. split; [exact Hft|]. split; [exact Hat|].
      split; [rewrite zlen_cons; lia|]. intros z o' Hc Hr. apply goes_on_0 in Hr. cbn [app] in *. apply q_rewriting_keep; assumption.
    - destruct (a_choice_rule _ _ Hm Hne) as (r & h & b & tl & rest & Hn & -> & Nh & Nb & Nt & Hm0). destruct (a_rules_at _ _ Hn) as (d & Hd & Hp). rewrite Z2Nat.id in Hd by lia.
      apply Hsized in Hp. pose proof (sized_sizes _ _ _ Hp) as (_ & Hbody & _ & _). pose proof Hp as (_ & _ & Hh & Hb & Htl & Ho & _).
      pose proof (Forall2_zlen _ _ _ Nh) as Lh. pose proof (Forall2_zlen _ _ _ Nb) as Lb. pose proof (Forall2_zlen _ _ _ Nt) as Lt. unfold rewrite_match. replace (m =? 255) with false by lia.
      rewrite R1, Hd. cbn [bind]. rewrite Hh, Lh. cbn [bind].
      destruct (head_ok cap h t (b ++ tl ++ rest) out R3 R4) as (a1 & E1 & Ha1). replace (Z.to_nat (zlen h)) with (length h) by (unfold zlen; lia).
      rewrite E1. cbn [bind]. change (ts_tail (with_acc t a1)) with (ts_tail t). rewrite R4. cbn [Z.gtb Z.compare]. rewrite Ho. cbn [bind]. rewrite Hb, Lb. cbn [bind].
      replace (Z.to_nat (zlen b)) with (length b) by (unfold zlen; lia).
      destruct (skip_ok cap b (with_acc t a1) (tl ++ rest) Ha1) as (a2 & -> & Ha2). cbn [bind].
      destruct (restart_ok (with_acc (with_acc t a1) a2)) as (t' & -> & Hf & Hat & Hacc & Htl'). cbn [bind]. rewrite Htl, Lt. cbn [bind].
      assert (Hft : forall n, frame t (with_tail t' n)) by (intros n; destruct Hf as (F1 & F2 & F3 & F4); repeat split; assumption).
      assert (Hb0 : 0 < zlen b) by (rewrite <- Lb; destruct (q_body r) as [|q l]; [contradiction|]; rewrite zlen_cons; pose proof (zlen_nonneg l); lia).
      assert (Hone : tl = [] \/ (exists y, tl = [y]) /\ headless rules).
      { destruct Htails as [T|T]; pose proof (proj1 (Forall_forall _ _) T r (nth_error_In _ _ Hn)) as Hr; cbv beta in Hr.
        - left. rewrite Hr in Nt. inversion Nt. reflexivity.
        - destruct Hr as [_ Hr]. rewrite Lt in Hr. destruct tl as [|y [|y' tl]]; [left; reflexivity|right|rewrite !zlen_cons in Hr; pose proof (zlen_nonneg tl); lia].
          split; [eauto|]. unfold headless. eapply Forall_impl; [|exact T]. cbv beta. tauto. }
      destruct Hone as [->|[(y & ->) Hl]].
      + rewrite zlen_nil. cbn [Z.gtb Z.compare app] in *. exists (with_tail t' 0), rest, (h ++ q_out r), 0. split; [rewrite <- app_assoc; reflexivity|].
        split; [apply (a_frame_runs t (with_tail t' 0) (h ++ b ++ rest) rest 0 0 (Hft 0) R); [cbn [with_tail ts_acc]; rewrite Hacc; exact Ha2|reflexivity]|].
        split; [left; reflexivity|]. split; [apply Hft|]. split; [exact Hat|]. split; [rewrite !zlen_app; pose proof (zlen_nonneg h); lia|].
        intros z o' Hc Hr. apply goes_on_0 in Hr. rewrite <- !app_assoc. rewrite <- !app_assoc in Hc.
        exact (q_rewriting_apply (q_by_condition rules) rules (Z.to_nat m) r h b [] (rest ++ z) o' Hn Nh Nb Nt ltac:(rewrite Z2Nat.id by lia; exact Hc) Hr).
      + change (zlen [y]) with 1. cbn [Z.gtb Z.compare app] in *. change (ts_acc (with_tail t' 1)) with (ts_acc t'). rewrite Hacc. cbn [with_acc ts_acc].
        rewrite (holds_head _ _ _ _ Ha2). cbn [bind]. change (Z.to_nat (1 - 1)) with O. cbn [report_tail].
        exists (with_tail t' 1), (y :: rest), (h ++ q_out r ++ [y]), 1. split; [rewrite <- !app_assoc; reflexivity|].
        split; [apply (a_frame_runs t (with_tail t' 1) (h ++ b ++ y :: rest) (y :: rest) 0 1 (Hft 1) R); [cbn [with_tail ts_acc]; rewrite Hacc; exact Ha2|reflexivity]|].
        split; [right; split; [reflexivity|]; split; [exact Hl|discriminate]|]. split; [apply Hft|]. split; [exact Hat|]. split; [rewrite !zlen_app, !zlen_cons; pose proof (zlen_nonneg h); lia|].
        intros z o' Hc (u & v & E & Hu & Hr). destruct u as [|u0 [|u1 u]]; [rewrite zlen_nil in Hu; lia| |rewrite !zlen_cons in Hu; pose proof (zlen_nonneg u); lia].
        cbn [app] in E. injection E as <- <-. rewrite <- !app_assoc. rewrite <- !app_assoc in Hc. cbn [app] in *.
        exact (q_rewriting_apply (q_by_condition rules) rules (Z.to_nat m) r h b [y] (rest ++ z) o' Hn Nh Nb Nt ltac:(rewrite Z2Nat.id by lia; exact Hc) Hr).
  Qed.

  (** ** Sequences *)
  Notation runs := a_runs.
  Notation rewrites := (q_rewriting (q_by_condition rules) rules).
  (** between two calls: the accumulator holds what the trees have been fed *)
  Definition a_waits (t : tester) (w : list Z) : Prop := runs t w 0 /\ trees_at w (ts_trees t) /\ (w = [] \/ scanning (ts_trees t) = true).
  Notation waits := a_waits.

  Lemma a_runs_acc t w a n : runs t w n -> holds a w cap -> runs (with_acc t a) w n.
  Proof. intros (H1 & H2 & H3 & H4) Ha. exact (conj H1 (conj H2 (conj Ha H4))). Qed.

  Lemma a_stop_ok t u g rest out : runs t (u ++ g :: rest) 0 -> trees_at (u ++ [g]) (ts_trees t) -> scanning (ts_trees t) = false ->
    exists t' o w' n, (do ' (t, out) <- (if treesGetBestMatch t =? 255 then popOldestGlyph (with_acc t (cb_DiscardPeeks (ts_acc t))) out
                                       else rewrite_match k t (treesGetBestMatch t) out);
                     Ok (t, out, negb (cb_IsEmpty (ts_acc t)))) = Ok (t', out ++ o, match w' with [] => false | _ => true end) /\ frame t t' /\
      runs t' w' n /\ tail_fits n w' /\ trees_at [] (ts_trees t') /\ zlen w' < zlen (u ++ g :: rest) /\
      forall z o', goes_on n w' z o' -> rewrites ((u ++ g :: rest) ++ z) (o ++ o').
  Proof.
    intros R At Es. pose proof R as (R1 & R2 & R3 & R4). destruct (a_decide t (u ++ [g]) R2 At) as [_ Hz]. specialize (Hz Es). set (m := treesGetBestMatch t) in *. clearbody m.
    assert (Hc : q_by_condition rules (u ++ g :: rest) m) by (specialize (Hz rest); rewrite <- app_assoc in Hz; exact Hz).
    assert (Hne : u ++ g :: rest <> []) by (destruct u; discriminate).
    set (t0 := if m =? 255 then with_acc t (cb_DiscardPeeks (ts_acc t)) else t).
    assert (R0 : runs t0 (u ++ g :: rest) 0) by (unfold t0; destruct (m =? 255); [apply a_runs_acc; [exact R|exact R3]|exact R]).
    assert (F0 : frame t t0) by (unfold t0; destruct (m =? 255); [apply frame_acc|apply frame_refl]).
    destruct (a_act_ok t0 _ m out R0 Hc Hne) as (t' & w' & o & n & E & R' & Hn & F & At' & Hl & Hrw).
    exists t', o, w', n. split.
    - unfold act, t0 in E. destruct (m =? 255); rewrite E; cbn [bind]; rewrite (holds_empty _ _ _ (proj1 (proj2 (proj2 R')))); destruct w'; reflexivity.
    - split; [exact (frame_trans _ _ _ F0 F)|]. split; [exact R'|]. split; [exact Hn|]. split; [exact At'|]. split; [exact Hl|]. intros z o' Ho. apply Hrw; [|exact Ho].
      specialize (Hz (rest ++ z)). rewrite <- app_assoc in Hz. cbn [app] in Hz. rewrite <- app_assoc. exact Hz.
  Qed.
  Lemma a_rerun_loop_ok : forall n t u g rest depth out, runs t (u ++ g :: rest) 0 -> peeked (ts_acc t) (u ++ g :: rest) cap (length u) ->
    trees_at u (ts_trees t) -> (length rest <= n)%nat -> 0 <= depth ->
    exists t' o again, rerun_loop k n t g depth out = Ok (t', out ++ o, again) /\ frame t t' /\
      ((again = false /\ o = [] /\ waits t' (u ++ g :: rest)) \/
       (exists w' n', runs t' w' n' /\ tail_fits n' w' /\ trees_at [] (ts_trees t') /\ zlen w' < zlen (u ++ g :: rest) /\ again = match w' with [] => false | _ => true end /\
          forall z o', goes_on n' w' z o' -> rewrites ((u ++ g :: rest) ++ z) (o ++ o'))).
  Proof.
    induction n as [|n IH]; intros t u g rest depth out R Pk At Hn Hd.
    all: pose proof R as (R1 & R2 & R3 & R4).
    all: destruct (a_feed_ok t u g R2 At) as (t1 & E1 & F1 & At1 & Ha1 & Ht1).
    all: assert (Rt1 : runs t1 (u ++ g :: rest) 0) by (apply (a_frame_runs t t1 (u ++ g :: rest) _ 0); [exact F1|exact R|rewrite Ha1; exact R3|rewrite Ht1; exact R4]).
    all: cbn [rerun_loop]; unfold treesFeedGlyph; rewrite R4; replace (depth <? 0) with false by lia; rewrite E1; cbn [bind].
    all: destruct (scanning (ts_trees t1)) eqn:Es.
    1, 3: rewrite <- Ha1 in Pk; destruct (peeked_peek _ _ _ _ Pk ltac:(rewrite app_length; cbn [length]; lia)) as (a & Hpk);
      replace (nth_error (u ++ g :: rest) (S (length u))) with (nth_error rest 0) in Hpk by (rewrite nth_error_app2 by lia; replace (S (length u) - length u)%nat with 1%nat by lia; reflexivity).
    - destruct rest as [|g' rest]; [|cbn [length] in Hn; lia]. cbn [nth_error] in Hpk. destruct Hpk as [(x & ->) Hpk]. cbn [bind negb].
      exists (with_acc t1 a), [], false. rewrite app_nil_r. split; [reflexivity|]. split; [exact (frame_trans _ _ _ F1 (frame_acc _ _))|]. left. split; [reflexivity|]. split; [reflexivity|].
      split; [exact (a_runs_acc _ _ _ _ Rt1 (peeked_holds _ _ _ _ Hpk))|]. split; [exact At1|right; exact Es].
    - destruct rest as [|g' rest].
      + cbn [nth_error] in Hpk. destruct Hpk as [(x & ->) Hpk]. cbn [bind negb].
        exists (with_acc t1 a), [], false. rewrite app_nil_r. split; [reflexivity|]. split; [exact (frame_trans _ _ _ F1 (frame_acc _ _))|]. left. split; [reflexivity|]. split; [reflexivity|].
        split; [exact (a_runs_acc _ _ _ _ Rt1 (peeked_holds _ _ _ _ Hpk))|]. split; [exact At1|right; exact Es].
      + cbn [nth_error] in Hpk. destruct Hpk as [-> Hpk]. cbn [bind negb]. cbn [length] in Hn.
        replace (u ++ g :: g' :: rest) with ((u ++ [g]) ++ g' :: rest) in * by (rewrite <- app_assoc; reflexivity).
        destruct (IH (with_acc t1 a) (u ++ [g]) g' rest (u8 (depth + 1)) out) as (t' & o & again & E & F & H).
        * exact (a_runs_acc _ _ _ _ Rt1 (peeked_holds _ _ _ _ Hpk)).
        * rewrite app_length. cbn [length]. replace (length u + 1)%nat with (S (length u)) by lia. exact Hpk.
        * exact At1.
        * lia.
        * unfold u8. lia.
        * exists t', o, again. split; [exact E|]. split; [exact (frame_trans _ _ _ (frame_trans _ _ _ F1 (frame_acc _ _)) F)|exact H].
    - cbv zeta. destruct (a_stop_ok t1 u g rest out Rt1 At1 Es) as (t' & o & w' & n' & E & F & R' & Hf & At' & Hl & Hrw). exists t', o, (match w' with [] => false | _ => true end).
      split; [exact E|]. split; [exact (frame_trans _ _ _ F1 F)|]. right. exists w', n'. auto 8.
    - cbv zeta. destruct (a_stop_ok t1 u g rest out Rt1 At1 Es) as (t' & o & w' & n' & E & F & R' & Hf & At' & Hl & Hrw). exists t', o, (match w' with [] => false | _ => true end).
      split; [exact E|]. split; [exact (frame_trans _ _ _ F1 F)|]. right. exists w', n'. auto 8.
  Qed.
  Lemma a_rerun_ok t w n out : runs t w n -> tail_fits n w -> trees_at [] (ts_trees t) ->
    exists t' o again, rerunDetection k t out = Ok (t', out ++ o, again) /\ frame t t' /\
      ((again = false /\ n = 0 /\ o = [] /\ waits t' w) \/
       (exists w' n', runs t' w' n' /\ tail_fits n' w' /\ trees_at [] (ts_trees t') /\ zlen w' < zlen w /\ again = match w' with [] => false | _ => true end /\
          forall z o', goes_on n' w' z o' -> goes_on n w z (o ++ o'))).
  Proof.
    intros R Hn At. pose proof R as (R1 & R2 & R3 & R4). unfold rerunDetection. rewrite (holds_empty _ _ _ R3). destruct w as [|g rest].
    - destruct Hn as [->|(_ & _ & [])]; [|reflexivity].
      exists t, [], false. rewrite app_nil_r. split; [reflexivity|]. split; [apply frame_refl|]. left. split; [reflexivity|]. split; [reflexivity|]. split; [reflexivity|].
      split; [exact R|]. split; [exact At|left; reflexivity].
    - pose proof (holds_discard _ _ _ R3) as Hd. set (t0 := with_acc t (cb_DiscardPeeks (ts_acc t))).
      assert (R0 : runs t0 (g :: rest) n) by (apply a_runs_acc; [exact R|exact (peeked_holds _ _ _ _ Hd)]).
      rewrite (holds_head (ts_acc t0) g rest cap (proj1 (proj2 (proj2 R0)))). cbn [bind]. rewrite (holds_num _ _ _ (proj1 (proj2 (proj2 R0)))).
      destruct Hn as [->|(-> & Hl & _)].
      + destruct (a_rerun_loop_ok (Z.to_nat (zlen (g :: rest))) t0 [] g rest 0 out R0 Hd At) as (t' & o & again & E & F & H).
        { unfold zlen. cbn [length]. lia. }
        { lia. }
        exists t', o, again. split; [exact E|]. split; [exact (frame_trans _ _ _ (frame_acc _ _) F)|].
        destruct H as [(H1 & H2 & H3)|(w' & n' & H1 & H2 & H3 & H4 & H5 & H6)]; [left; auto|right]. exists w', n'. repeat (split; [assumption|]). intros z o' Ho. apply goes_on_0. exact (H6 z o' Ho).
      + destruct (a_block_ok t0 g R2 Hl At R4) as (t1 & E1 & F1 & Hb & Ha1 & Ht1).
        assert (Rt1 : runs t1 (g :: rest) 1) by (apply (a_frame_runs t0 t1 (g :: rest) _ 1); [exact F1|exact R0|rewrite Ha1; apply R0|exact Ht1]).
        assert (E2 : rerun_loop k (Z.to_nat (zlen (g :: rest))) t0 g 0 out =
          (do ' (t, out) <- popOldestGlyph (with_acc t1 (cb_DiscardPeeks (ts_acc t1))) out; Ok (t, out, negb (cb_IsEmpty (ts_acc t))))).
        { destruct (Z.to_nat (zlen (g :: rest))); cbn [rerun_loop]; unfold treesFeedGlyph; replace (ts_tail t0) with 1 by (symmetry; exact R4); change (0 <? 1) with true; cbv iota;
            rewrite E1; cbn [bind]; cbv zeta; rewrite Hb; change (255 =? 255) with true; cbv iota; reflexivity. }
        rewrite E2. unfold popOldestGlyph. assert (R3' : holds (ts_acc (with_acc t1 (cb_DiscardPeeks (ts_acc t1)))) (g :: rest) cap) by exact (peeked_holds _ _ _ _ (holds_discard _ _ _ (proj1 (proj2 (proj2 Rt1))))).
        destruct (pop_ok _ _ _ _ R3') as (a & -> & Ha). cbn [bind]. cbn [with_acc ts_tail]. rewrite Ht1. cbn [Z.gtb Z.compare].
        change (u8 (1 - 1)) with 0. destruct (restart_ok (with_tail (with_acc (with_acc t1 (cb_DiscardPeeks (ts_acc t1))) a) 0)) as (t2 & E3 & F2 & At2 & Ha2 & Ht2).
        change (with_acc (with_acc t1 (cb_DiscardPeeks (ts_acc t1))) a) with (with_acc t1 a) in *. rewrite E3. cbn [bind].
        assert (F' : frame t t2) by (eapply frame_trans; [apply (frame_acc t (cb_DiscardPeeks (ts_acc t)))|]; eapply frame_trans; [exact F1|]; destruct F2 as (G1 & G2 & G3 & G4); repeat split; assumption).
        assert (Rt2 : runs t2 rest 0) by (apply (a_frame_runs t t2 (g :: rest) _ 1); [exact F'|exact R|rewrite Ha2; exact Ha|exact Ht2]).
        exists t2, [], (match rest with [] => false | _ => true end). rewrite app_nil_r. split; [rewrite (holds_empty _ _ _ (proj1 (proj2 (proj2 Rt2)))); destruct rest; reflexivity|].
        split; [exact F'|]. right. exists rest, 0. split; [exact Rt2|]. split; [left; reflexivity|]. split; [exact At2|]. split; [rewrite zlen_cons; lia|]. split; [reflexivity|].
        intros z o' Ho. apply goes_on_0 in Ho. exists [g], rest. auto.
  Qed.
  Lemma a_rerun_all_ok : forall fuel t w n out, (length w <= fuel)%nat -> runs t w n -> tail_fits n w -> trees_at [] (ts_trees t) ->
    exists t' w' o, rerun_all k fuel t out = Ok (t', out ++ o) /\ frame t t' /\ waits t' w' /\ zlen w' <= zlen w /\
      forall z o', rewrites (w' ++ z) o' -> goes_on n w z (o ++ o').
  Proof.
    induction fuel as [|fuel IH]; intros t w n out Hl R Hn At.
    all: destruct (a_rerun_ok t w n out R Hn At) as (t1 & o1 & again & E1 & F1 & H1); cbn [rerun_all]; rewrite E1; cbn [bind].
    all: destruct H1 as [(-> & -> & -> & W)|(w1 & n1 & R1 & Hn1 & At1 & Hl1 & -> & Hrw)].
    1, 3: exists t1, w, []; split; [reflexivity|]; split; [exact F1|]; split; [exact W|]; split; [lia|]; intros z o' Ho; apply goes_on_0; exact Ho.
    - destruct w; [|cbn [length] in Hl; lia]. rewrite zlen_nil in Hl1. pose proof (zlen_nonneg w1). lia.
    - destruct w1 as [|x w1].
      + destruct Hn1 as [->|(_ & _ & [])]; [|reflexivity].
        exists t1, [], o1. split; [reflexivity|]. split; [exact F1|]. split; [split; [exact R1|]; split; [exact At1|left; reflexivity]|]. split; [lia|].
        intros z o' Ho. apply Hrw. apply goes_on_0. exact Ho.
      + destruct (IH t1 (x :: w1) n1 (out ++ o1)) as (t' & w' & o & E & F & W & Hl' & Hrw'); [unfold zlen in Hl1; lia|exact R1|exact Hn1|exact At1|].
        exists t', w', (o1 ++ o). rewrite E, <- app_assoc. split; [reflexivity|]. split; [exact (frame_trans _ _ _ F1 F)|]. split; [exact W|]. split; [lia|].
        intros z o' Ho. rewrite <- app_assoc. apply Hrw. apply Hrw'. exact Ho.
  Qed.
  Lemma a_advance_ok t w out : runs t w 0 -> q_by_condition rules w (treesGetBestMatch t) -> w <> [] ->
    exists t' w' o, advance k t out = Ok (t', out ++ o) /\ frame t t' /\ waits t' w' /\ zlen w' < zlen w /\
      forall z o', q_by_condition rules (w ++ z) (treesGetBestMatch t) -> rewrites (w' ++ z) o' -> rewrites (w ++ z) (o ++ o').
  Proof.
    intros R Hc Hne. destruct (a_act_ok t w _ out R Hc Hne) as (t1 & w1 & o1 & n1 & E & R1 & Hn1 & F1 & At1 & Hl1 & Hrw1).
    unfold advance. cbv zeta. fold (act k t (treesGetBestMatch t) out). rewrite E. cbn [bind]. rewrite (holds_num _ _ _ (proj1 (proj2 (proj2 R)))).
    destruct (a_rerun_all_ok (Z.to_nat (zlen w)) t1 w1 n1 (out ++ o1)) as (t' & w' & o & E' & F & W & Hl & Hrw); [unfold zlen in *; lia|exact R1|exact Hn1|exact At1|].
    exists t', w', (o1 ++ o). rewrite E', <- app_assoc. split; [reflexivity|]. split; [exact (frame_trans _ _ _ F1 F)|]. split; [exact W|]. split; [lia|].
    intros z o' Hz Ho. rewrite <- app_assoc. apply Hrw1; [exact Hz|]. apply Hrw. exact Ho.
  Qed.

  (** ** Feed and Break *)
  Lemma a_Feed_ok t w g : waits t w -> ts_operating t = true -> tk_feed k g = Ok true ->
    exists t' w' o, Feed k t g = Ok (t', o, None) /\ frame t t' /\ waits t' w' /\ forall z o', rewrites (w' ++ z) o' -> rewrites (w ++ g :: z) (o ++ o').
  Proof.
    intros (R & At & Hs) Hop Hf. pose proof R as (R1 & R2 & R3 & R4). unfold Feed. rewrite Hop, Hf. cbn [negb].
    assert (Hlt : zlen w < cap) by (destruct Hs as [->|Hs]; [rewrite zlen_nil; lia|exact (a_scanning_short t w R2 At Hs)]).
    destruct (holds_push _ _ _ g R3 Hlt) as (a & -> & Ha). cbn [bind].
    destruct (a_feed_ok (with_acc t a) w g R2 At) as (t1 & E1 & F1 & At1 & Ha1 & Ht1). rewrite E1. cbn [bind].
    assert (Rt1 : runs t1 (w ++ [g]) 0).
    { apply (a_frame_runs t t1 w _ 0); [exact (frame_trans _ _ _ (frame_acc _ _) F1)|exact R|rewrite Ha1; exact Ha|rewrite Ht1; exact R4]. }
    assert (R2' : a_trees_ok (map static (ts_trees t1))) by apply Rt1.
    destruct (a_decide t1 (w ++ [g]) R2' At1) as [Hc Hz]. destruct (scanning (ts_trees t1)) eqn:Es.
    - exists t1, (w ++ [g]), []. split; [reflexivity|]. split; [exact (frame_trans _ _ _ (frame_acc _ _) F1)|]. split; [split; [exact Rt1|]; split; [exact At1|right; exact Es]|].
      intros z o' Ho. rewrite <- app_assoc in Ho. exact Ho.
    - destruct (a_advance_ok t1 (w ++ [g]) [] Rt1 Hc ltac:(destruct w; discriminate)) as (t' & w' & o & E & F & W & _ & Hrw). rewrite E. cbn [bind app].
      exists t', w', o. split; [reflexivity|]. split; [exact (frame_trans _ _ _ (frame_trans _ _ _ (frame_acc _ _) F1) F)|]. split; [exact W|].
      intros z o' Ho. specialize (Hrw z o' (Hz eq_refl z) Ho). rewrite <- app_assoc in Hrw. exact Hrw.
  Qed.
  Lemma a_break_loop_ok : forall fuel t w out, (length w <= fuel)%nat -> waits t w ->
    exists t' o, break_loop k fuel t out = Ok (t', out ++ o) /\ frame t t' /\ waits t' [] /\ rewrites w o.
  Proof.
    induction fuel as [|fuel IH]; intros t w out Hl W; pose proof W as ((R1 & R2 & R3 & R4) & At & Hs); cbn [break_loop]; rewrite (holds_num _ _ _ R3), R4.
    - destruct w; [|cbn [length] in Hl; lia]. cbn. exists t, []. rewrite app_nil_r. split; [reflexivity|]. split; [apply frame_refl|]. split; [exact W|constructor].
    - destruct w as [|x w]; [cbn; exists t, []; rewrite app_nil_r; split; [reflexivity|]; split; [apply frame_refl|]; split; [exact W|constructor]|].
      replace (zlen (x :: w) >? 0) with true by (rewrite zlen_cons; pose proof (zlen_nonneg w); lia).
      destruct (a_decide t (x :: w) R2 At) as [Hc _].
      destruct (a_advance_ok t (x :: w) out (proj1 W) Hc ltac:(discriminate)) as (t1 & w1 & o1 & E & F1 & W1 & Hl1 & Hrw). rewrite E. cbn [bind].
      destruct (IH t1 w1 (out ++ o1)) as (t' & o & E' & F & W' & Hw); [unfold zlen in Hl1; lia|exact W1|].
      exists t', (o1 ++ o). rewrite E', <- app_assoc. split; [reflexivity|]. split; [exact (frame_trans _ _ _ F1 F)|]. split; [exact W'|].
      specialize (Hrw [] o). rewrite !app_nil_r in Hrw. apply Hrw; assumption.
  Qed.
  Lemma a_Break_ok t w : waits t w -> ts_operating t = true -> exists t' o, Break k t = Ok (t', o) /\ frame t t' /\ waits t' [] /\ rewrites w o.
  Proof.
    intros W Hop. unfold Break. rewrite Hop. cbn [negb]. rewrite (holds_num _ _ _ (proj1 (proj2 (proj2 (proj1 W))))).
    destruct (a_break_loop_ok (Z.to_nat (zlen w)) t w []) as (t' & o & E & H); [unfold zlen; lia|exact W|]. exists t', o. auto.
  Qed.
End Rules.

  (** ** Sessions *)
  Variables (fine crowded : list srule -> Prop).
  Hypothesis Hcompile : forall data rules c own, Forall2 rule_of data rules -> zlen rules <= 254 -> fine rules -> rules_with c 0 data = Ok own -> own <> [] ->
    (compile (tk_kind k) sets own = Err "DecisionTreeCompiler hit a limit" /\ crowded rules) \/
    exists st, compile (tk_kind k) sets own = Ok st /\ good_fit st (q_group c rules) /\ (headless rules -> blocking st).
  Notation limit := "DecisionTreeCompiler hit a limit"%string.

  Record a_idle (t : tester) (s : session srule) : Prop := {
    a_d_rules : ts_rules t = map fst (s_rules s);
    a_d_plain : Forall (fun e => rule_of (fst e) (snd e)) (s_rules s);
    a_d_many : zlen (s_rules s) <= 254;
    a_d_tail : ts_tail t = 0;
    a_d_operating : ts_operating t = false;
    a_d_pending : ts_recompile t = s_pending s;
    a_d_ascending : ascending (map i_cond (ts_trees t));
    a_d_resync : Forall (fun i => i_resync i = true) (ts_trees t);
    a_d_covered : Forall (fun e => In (q_cond (snd e)) (map i_cond (ts_trees t))) (s_rules s);
    a_d_ready : exists cap, 0 <= cap <= 255 /\ holds (ts_acc t) [] cap /\ (s_room s = true -> 1 <= cap) /\
      (s_pending s = false -> a_trees_ok (map snd (s_rules s)) (map static (ts_trees t)) /\ Forall (fun r => zlen (q_pattern r) <= cap) (map snd (s_rules s))) }.

  Lemma sized_rules_of l : Forall (fun e => rule_of (fst e) (snd e)) l -> Forall2 rule_of (map fst l) (map snd l).
  Proof. induction 1; cbn [map]; constructor; assumption. Qed.

  Lemma a_new_idle : a_idle new_tester new_session.
  Proof.
    constructor; try reflexivity; try constructor; try (cbn; constructor); [discriminate|]. exists 0. split; [lia|]. split; [apply holds_init|]. split; [discriminate|]. intros _.
    repeat constructor.
  Qed.

  Lemma a_add_ok t s d r : a_idle t s -> rule_of d r ->
    match AddRule k t d with Ok t' => a_idle t' (next s (JAdd d r)) | Err _ => a_idle t (next s (JAdd d r)) | _ => False end.
  Proof.
    intros I Hp. unfold AddRule. rewrite (a_d_operating _ _ I). destruct (sized_sizes _ _ _ (Hsized _ _ Hp)) as (Hmin & _). replace (zlen d <? k_min (tk_kind k)) with false by lia.
    cbn [next]. rewrite (a_d_rules _ _ I), zlen_map. destruct (Z.geb_spec (zlen (s_rules s)) 254) as [G|G].
    { replace (zlen (s_rules s) <? 254) with false by lia. exact I. }
    replace (zlen (s_rules s) <? 254) with true by lia. pose proof (Hsized _ _ Hp) as (_ & Hc & _). rewrite Hc. cbn [bind].
    assert (K : exists trees, (do ' (index, found) <- findTreeByCondition (ts_trees t) (q_cond r);
       do trees <- (if (found : bool) then do i <- zget (ts_trees t) index; Ok (upd (ts_trees t) (Z.to_nat index) (with_resync i))
                   else Ok (rev (move_down (rev (ts_trees t)) (new_instance (q_cond r))))); Ok trees) = Ok trees /\
       ascending (map i_cond trees) /\ Forall (fun i => i_resync i = true) trees /\ In (q_cond r) (map i_cond trees) /\
       (forall c, In c (map i_cond (ts_trees t)) -> In c (map i_cond trees))).
    { destruct (find_ok (ts_trees t) (q_cond r) (a_d_ascending _ _ I)) as [(i & x & E & Hx & Hcx)|(i & E & Hn)]; rewrite E; cbn [bind].
      - rewrite Hx. cbn [bind]. eexists. split; [reflexivity|]. rewrite (with_resync_conds _ _ _ Hx). split; [apply I|]. split; [apply with_resync_all; apply I|].
        split; [rewrite <- Hcx; apply in_map; exact (zget_in _ _ _ Hx)|auto].
      - eexists. split; [reflexivity|]. destruct (insert_ok (ts_trees t) (q_cond r) (a_d_ascending _ _ I) Hn) as [H1 H2]. cbv zeta in H1, H2. split; [exact H1|]. split.
        + apply Forall_forall. intros x Hx. apply H2 in Hx. destruct Hx as [->|Hx]; [reflexivity|exact (proj1 (Forall_forall _ _) (a_d_resync _ _ I) x Hx)].
        + split; [apply in_map_iff; exists (new_instance (q_cond r)); split; [reflexivity|apply H2; left; reflexivity]|].
          intros c Hin. apply in_map_iff in Hin. destruct Hin as (x & <- & Hx). apply in_map. apply H2. right. exact Hx. }
    destruct K as (trees & E & H1 & H2 & H3 & H4). destruct (findTreeByCondition (ts_trees t) (q_cond r)) as [[index found]| | |]; cbn [bind] in *; try discriminate.
    destruct (if found then _ else _) as [trees'| | |]; cbn [bind] in *; try discriminate. injection E as ->.
    constructor; cbn [ts_rules ts_trees ts_acc ts_tail ts_recompile ts_operating s_rules s_pending s_room].
    - rewrite map_app. reflexivity.
    - apply Forall_app. split; [apply I|constructor; [exact Hp|constructor]].
    - rewrite zlen_app, zlen_cons, zlen_nil. lia.
    - apply I.
    - first [reflexivity|apply I].
    - reflexivity.
    - exact H1.
    - exact H2.
    - apply Forall_app. split; [|repeat constructor; exact H3]. apply Forall_forall. intros e He. apply H4. exact (proj1 (Forall_forall _ _) (a_d_covered _ _ I) e He).
    - destruct (a_d_ready _ _ I) as (cap & C1 & C2 & C3 & _). exists cap. split; [exact C1|]. split; [exact C2|]. split; [exact C3|discriminate].
  Qed.

  Lemma a_remove_ok t s d : a_idle t s -> exists t' b, RemoveRule t d = Ok (t', b) /\ a_idle t' (next s (JRemove d)).
  Proof.
    intros I. unfold RemoveRule. rewrite (a_d_operating _ _ I), (a_d_rules _ _ I), delete_ok. cbn [bind next]. destruct (without d (s_rules s)) as [l|] eqn:E; [|exists t, false; split; [reflexivity|exact I]].
    destruct (without_in _ _ _ E) as (e & He & <- & Hl & Hsub). pose proof (proj1 (Forall_forall _ _) (a_d_plain _ _ I) e He) as Hp. pose proof (Hsized _ _ Hp) as (_ & Hc & _). rewrite Hc. cbn [bind].
    pose proof (proj1 (Forall_forall _ _) (a_d_covered _ _ I) e He) as Hin. cbv beta in Hin.
    destruct (find_ok (ts_trees t) (q_cond (snd e)) (a_d_ascending _ _ I)) as [(i & x & E1 & Hx & Hcx)|(i & _ & Hn)]; [|contradiction].
    rewrite E1. cbn [bind negb]. rewrite Hx. cbn [bind]. eexists. eexists. split; [reflexivity|].
    constructor; cbn [ts_rules ts_trees ts_acc ts_tail ts_recompile ts_operating s_rules s_pending s_room].
    - reflexivity.
    - apply Forall_forall. intros y Hy. exact (proj1 (Forall_forall _ _) (a_d_plain _ _ I) y (Hsub _ Hy)).
    - pose proof (a_d_many _ _ I). lia.
    - apply I.
    - first [reflexivity|apply I].
    - reflexivity.
    - rewrite (with_resync_conds _ _ _ Hx). apply I.
    - apply with_resync_all. apply I.
    - rewrite (with_resync_conds _ _ _ Hx). apply Forall_forall. intros y Hy. exact (proj1 (Forall_forall _ _) (a_d_covered _ _ I) y (Hsub _ Hy)).
    - destruct (a_d_ready _ _ I) as (cap & C1 & C2 & C3 & _). exists cap. split; [exact C1|]. split; [exact C2|]. split; [exact C3|discriminate].
  Qed.
  Lemma a_remove_all_ok t s : a_idle t s -> exists t', RemoveAllRules t = Ok t' /\ a_idle t' (next s JRemoveAll).
  Proof.
    intros I. unfold RemoveAllRules. rewrite (a_d_operating _ _ I). eexists. split; [reflexivity|]. cbn [next].
    constructor; cbn [ts_rules ts_trees ts_acc ts_tail ts_recompile ts_operating s_rules s_pending s_room map]; try reflexivity; try constructor; try apply I.
    - rewrite zlen_nil. lia.
    - destruct (a_d_ready _ _ I) as (cap & C1 & C2 & C3 & _). exists cap. split; [exact C1|]. split; [exact (clear_holds _ _ C2)|]. split; [exact C3|]. intros _. repeat constructor.
  Qed.

  Lemma a_static_idle t t' s : a_idle t s -> ts_rules t' = ts_rules t -> map static (ts_trees t') = map static (ts_trees t) -> ts_recompile t' = ts_recompile t ->
    ts_operating t' = false -> ts_tail t' = 0 -> (forall cap, holds (ts_acc t) [] cap -> holds (ts_acc t') [] cap) -> a_idle t' s.
  Proof.
    intros I H1 H2 H3 H4 H5 H6. pose proof (conds_of_static _ _ H2) as H7. constructor; try apply I; try congruence.
    - rewrite H1. apply I.
    - rewrite H3. apply I.
    - rewrite H7. apply I.
    - exact (resync_of_static _ _ H2 (a_d_resync _ _ I)).
    - rewrite H7. apply I.
    - destruct (a_d_ready _ _ I) as (cap & C1 & C2 & C3 & C4). exists cap. split; [exact C1|]. split; [auto|]. split; [exact C3|]. rewrite H2. exact C4.
  Qed.
  Lemma a_refresh_ok t s e : a_idle t s -> conditions_known e -> exists t', RefreshConditions e t = Ok t' /\ a_idle t' s.
  Proof.
    intros I He. unfold RefreshConditions. destruct (refresh_trees e (ts_trees t) He) as (l' & -> & H). cbn [bind]. eexists. split; [reflexivity|].
    apply (a_static_idle t); try apply I; try reflexivity; try exact H. auto.
  Qed.

  (** ** Recompiling *)
  Definition a_has (rules : list srule) (c : Z) : bool := match q_group c rules with [] => false | _ => true end.
  Lemma a_covered rules c r : In r rules -> q_cond r = c -> a_has rules c = true.
  Proof.
    intros Hin <-. unfold a_has, q_group. assert (G : forall from, filter (fun e => q_cond (fst e) =? q_cond r) (q_numbered from rules) <> []).
    { induction rules as [|r0 rules IH]; intros from; [destruct Hin|]. cbn [q_numbered filter fst]. destruct Hin as [->|Hin]; [rewrite Z.eqb_refl; discriminate|].
      destruct (_ =? _); [discriminate|]. apply IH. exact Hin. }
    specialize (G 0). unfold q_patterns. destruct (filter _ _); [contradiction|reflexivity].
  Qed.
  Definition a_ready (rules : list srule) (s : list state * Z * bool) : Prop :=
    good_fit (fst (fst s)) (q_group (snd (fst s)) rules) /\ (headless rules -> blocking (fst (fst s))).
  Lemma a_recompile_trees_ok e data rules : conditions_known e -> e_sets e = sets -> Forall2 rule_of data rules -> zlen rules <= 254 -> fine rules ->
    forall trees, Forall (fun i => i_resync i = true) trees ->
    (exists l, recompile_trees k e data false trees = Ok (true, l, Some limit)) /\ crowded rules \/
    exists l, recompile_trees k e data false trees = Ok (false, l, None) /\ Forall (a_ready rules) (map static l) /\
      Forall (fun i => i_resync i = true) l /\ map i_cond l = filter (a_has rules) (map i_cond trees).
  Proof.
    intros He Hse Hp Hm Hfine. induction trees as [|i trees IH]; intros Hr; cbn [recompile_trees].
    - right. exists []. repeat split; constructor.
    - inversion Hr as [|? ? Hi Hr']; subst. specialize (IH Hr').
      assert (K : exists j, (if i_cached i then Ok i else do b <- testCondition e (i_cond i); Ok (with_value i b)) = Ok j /\ static j = static i /\ i_tree j = i_tree i).
      { destruct (i_cached i); [exists i; auto|]. destruct (conditions_ok e (i_cond i) He) as (b & ->). cbn [bind]. eexists. split; [reflexivity|]. split; reflexivity. }
      destruct K as (j & -> & Hj & _). cbn [bind]. injection Hj as Hj1 Hj2 Hj3. rewrite Hj3, Hi. cbn [negb]. rewrite Hj2.
      destruct (own_group (i_cond i) data rules Hp 0) as (own & Eo & HL). fold (q_group (i_cond i) rules) in HL. rewrite Eo. cbn [bind].
      destruct own as [|x own].
      + cbn [compile ofold bind compiler_Begin c_states]. cbn [map filter]. unfold a_has at 1.
        destruct (q_group (i_cond i) rules); [|discriminate]. destruct IH as [[(l & ->) Hcr]|(l & -> & H1 & H2 & H3)]; cbn [bind]; [left; eauto|right]. exists l. auto.
      + assert (Hh : a_has rules (i_cond i) = true) by (unfold a_has; destruct (q_group (i_cond i) rules); [discriminate|reflexivity]). cbn [map filter]. rewrite Hh.
        destruct (Hcompile data rules (i_cond i) (x :: own) Hp Hm Hfine Eo ltac:(discriminate)) as [[Ec Hcr]|(st & Ec & G & Hbl)]; rewrite Ec.
        * left. split; [eexists; reflexivity|exact Hcr].
        * destruct IH as [[(l & ->) Hcr]|(l & -> & H1 & H2 & H3)]; cbn [bind]; [left; eauto|right]. eexists. split; [reflexivity|]. cbn [map]. split; [|split].
          -- constructor; [|exact H1]. unfold a_ready. cbn [static with_tree i_tree d_states i_cond fst snd]. rewrite Hj2. split; assumption.
          -- constructor; [cbn [with_tree i_resync]; congruence|exact H2].
          -- cbn [with_tree i_cond]. rewrite Hj2, H3. reflexivity.
  Qed.
  Lemma a_max_len_ok data rules : Forall2 rule_of data rules -> exists n, max_in_len data = Ok n /\ 0 <= n <= 255 /\ Forall (fun r => zlen (q_pattern r) <= n) rules /\ (rules <> [] -> 1 <= n).
  Proof.
    intros H. unfold max_in_len. assert (G : forall m, 0 <= m <= 255 -> exists n, ofold (fun m r => do n <- rule_InLen r; Ok (Z.max m n)) data m = Ok n /\ m <= n <= 255 /\ Forall (fun r => zlen (q_pattern r) <= n) rules).
    { induction H as [|d r ds rs Hd _ IH]; intros m Hm; cbn [ofold]; [exists m; split; [reflexivity|]; split; [lia|constructor]|].
      destruct (sized_sizes _ _ _ (Hsized _ _ Hd)) as (_ & _ & Hl & Hin). rewrite Hin. cbn [bind]. pose proof (zlen_nonneg (q_pattern r)). destruct (IH (Z.max m (zlen (q_pattern r))) ltac:(lia)) as (n & E & H1 & H2).
      exists n. split; [exact E|]. split; [lia|]. constructor; [lia|exact H2]. }
    destruct (G 0 ltac:(lia)) as (n & E & H1 & H2). exists n. split; [exact E|]. split; [lia|]. split; [exact H2|].
    intros Hne. destruct H as [|d r ds rs Hd _]; [congruence|]. pose proof (Forall_inv H2) as Hl. cbv beta in Hl. pose proof (sized_ne _ _ _ (Hsized _ _ Hd)) as Hp.
    destruct (q_pattern r); [contradiction|]. rewrite zlen_cons in Hl. pose proof (zlen_nonneg l). lia.
  Qed.
  (** The operating flag does not matter for recompiling. *)
  Lemma a_recompile_ok t s e : a_idle t s -> conditions_known e -> e_sets e = sets -> fine (map snd (s_rules s)) ->
    (exists t', recompile k e false (with_operating t true) = Ok (true, t', Some limit)) /\ crowded (map snd (s_rules s)) \/
    exists t', recompile k e false (with_operating t true) = Ok (false, with_operating t' true, None) /\
      recompile k e false t = Ok (false, t', None) /\ a_idle t' (mkSession (s_rules s) false (match s_rules s with [] => false | _ => true end)).
  Proof.
    intros I He Hse Hfine. unfold recompile. cbn [with_operating ts_rules ts_trees ts_acc ts_tail ts_operating]. pose proof (sized_rules_of _ (a_d_plain _ _ I)) as Hp. rewrite <- (a_d_rules _ _ I) in Hp.
    assert (Hm : zlen (map snd (s_rules s)) <= 254) by (rewrite zlen_map; apply I).
    destruct (a_recompile_trees_ok e (ts_rules t) (map snd (s_rules s)) He Hse Hp Hm Hfine (ts_trees t) (a_d_resync _ _ I)) as [[(l & ->) Hcr]|(l & -> & H1 & H2 & H3)]; cbn [bind]; [left; eauto|right].
    destruct (a_max_len_ok _ _ Hp) as (n & -> & Hn & Hfit & Hpos). cbn [bind]. destruct (a_d_ready _ _ I) as (cap & _ & C2 & _).
    destruct (holds_reset _ _ _ n C2 ltac:(lia)) as (a & -> & Ha). cbn [bind]. eexists. split; [|split; [reflexivity|]].
    - unfold with_operating. cbn [ts_rules ts_trees ts_acc ts_tail ts_recompile]. reflexivity.
    - constructor; cbn [ts_rules ts_trees ts_acc ts_tail ts_recompile ts_operating s_rules s_pending s_room]; try apply I; try reflexivity.
      + rewrite H3. apply ascending_filter. apply I.
      + exact H2.
      + apply Forall_forall. intros x Hx. rewrite H3. apply filter_In. split; [exact (proj1 (Forall_forall _ _) (a_d_covered _ _ I) x Hx)|].
        apply (a_covered _ _ (snd x)); [apply in_map; exact Hx|reflexivity].
      + exists n. split; [lia|]. split; [exact Ha|]. split.
        * intros Hroom. apply Hpos. destruct (s_rules s); [discriminate|]. cbn. discriminate.
        * intros _. split; [|exact Hfit]. split; [exact H1|]. rewrite map_static_cond, H3. apply Forall_forall. intros r Hr. apply in_map_iff in Hr. destruct Hr as (x & <- & Hx).
          apply filter_In. split; [exact (proj1 (Forall_forall _ _) (a_d_covered _ _ I) x Hx)|]. apply (a_covered _ _ (snd x)); [apply in_map; exact Hx|reflexivity].
  Qed.
  Lemma a_resync_ok t s e : a_idle t s -> conditions_known e -> e_sets e = sets -> (s_pending s = true -> fine (map snd (s_rules s))) ->
    (exists t', Resync k e false t = Ok (true, t', Some limit)) /\ s_pending s = true /\ crowded (map snd (s_rules s)) \/ exists t', Resync k e false t = Ok (false, t', None) /\ a_idle t' (compiled s).
  Proof.
    intros I He Hse Hfine. unfold Resync, compiled. rewrite (a_d_operating _ _ I), (a_d_pending _ _ I). destruct (s_pending s) eqn:Ep; cbn [negb].
    - destruct (a_recompile_ok t s e I He Hse (Hfine eq_refl)) as [[(t' & E) Hcr]|(t' & _ & E & I')].
      + left. split; [|split; [reflexivity|exact Hcr]]. unfold recompile in *. cbn [with_operating ts_rules ts_trees ts_acc ts_tail ts_operating] in E. destruct (recompile_trees k e (ts_rules t) false (ts_trees t)) as [[[c l] err]| | |]; cbn [bind] in *; try discriminate.
        destruct err as [m|].
        * injection E as -> _ ->. eauto.
        * exfalso. destruct (max_in_len (ts_rules t)); cbn [bind] in E; try discriminate. destruct (cb_SetCapacity 0 (cb_Clear (ts_acc t)) a) as [a' o]. destruct o; discriminate.
      + right. eauto.
    - right. eauto.
  Qed.

  Variable accepted : Z -> bool.
  Hypothesis Hkind : forall g, tk_feed k g = Ok (accepted g) \/ (accepted g = false /\ exists m, tk_feed k g = Err m).


  Section One.
    Variables (data : list (list Z)) (rules : list srule) (cap : Z).
    Hypothesis Hrules : Forall2 rule_of data rules.
    Hypothesis Hmany : zlen rules <= 254.
    Hypothesis Hcap : 1 <= cap.
    Hypothesis Hfit : Forall (fun r => zlen (q_pattern r) <= cap) rules.
    Hypothesis Htails : tails_fit rules.
    Notation rewrites := (q_rewriting (q_by_condition rules) rules).
    Notation waits := (a_waits data rules cap).

    Lemma a_feeds_ok c : forall piece t w, waits t w -> ts_operating t = true ->
      exists t' w' reports, do_calls k (c, t) (map CFeed piece) = Ok (c, t', reports) /\ frame t t' /\ waits t' w' /\
        forall z o', rewrites (w' ++ z) o' -> rewrites (w ++ filter accepted piece ++ z) (concat (map fst reports) ++ o').
    Proof.
      induction piece as [|g piece IH]; intros t w W Hop; cbn [map do_calls].
      - exists t, w, []. split; [reflexivity|]. split; [apply frame_refl|]. split; [exact W|]. auto.
      - destruct (accepted g) eqn:Ea.
        + assert (Hf : tk_feed k g = Ok true) by (destruct (Hkind g) as [H|(H & _)]; congruence).
          destruct (a_Feed_ok data rules Hrules Hmany cap Hcap Hfit Htails t w g W Hop Hf) as (t1 & w1 & o & E & F & W1 & R). cbn [do_call]. rewrite E. cbn [bind].
          destruct (IH t1 w1 W1) as (t' & w' & rs & E' & F' & W' & R'); [destruct F as (_ & _ & _ & ->); exact Hop|]. rewrite E'. cbn [bind].
          exists t', w', ((o, None) :: rs). split; [reflexivity|]. split; [exact (frame_trans _ _ _ F F')|]. split; [exact W'|].
          intros z o' Hz. cbn [filter map concat fst]. rewrite Ea, <- app_assoc. cbn [app]. apply R. apply R'. exact Hz.
        + assert (Hf : exists err, Feed k t g = Ok (t, [], err)).
          { unfold Feed. rewrite Hop. cbn [negb]. destruct (Hkind g) as [H|(_ & m & H)]; rewrite H, ?Ea; eauto. }
          destruct Hf as (err & E). cbn [do_call]. rewrite E. cbn [bind]. destruct (IH t w W Hop) as (t' & w' & rs & E' & F' & W' & R'). rewrite E'. cbn [bind].
          exists t', w', (([], err) :: rs). split; [reflexivity|]. split; [exact F'|]. split; [exact W'|]. intros z o' Hz. cbn [filter map concat fst app]. rewrite Ea. apply R'. exact Hz.
    Qed.
    Lemma a_piece_ok c t piece : waits t [] -> ts_operating t = true ->
      exists t' o, run_piece k (c, t) piece CBreak = Ok (c, t', o) /\ frame t t' /\ waits t' [] /\ rewrites (filter accepted piece) o.
    Proof.
      intros W Hop. unfold run_piece. rewrite do_calls_app. destruct (a_feeds_ok c piece t [] W Hop) as (t1 & w1 & rs & -> & F & W1 & R). cbn [bind do_calls do_call].
      destruct (a_Break_ok data rules Hrules Hmany cap Htails t1 w1 W1) as (t2 & o & -> & F2 & W2 & R2); [destruct F as (_ & _ & _ & ->); exact Hop|]. cbn [bind].
      eexists. eexists. split; [reflexivity|]. split; [exact (frame_trans _ _ _ F F2)|]. split; [exact W2|].
      rewrite map_app, concat_app. cbn [map fst concat app]. rewrite app_nil_r. specialize (R [] o). rewrite !app_nil_r in R. cbn [app] in R. apply R. exact R2.
    Qed.
    Lemma a_last_ok c t piece : waits t [] -> ts_operating t = true ->
      exists t' o, run_piece k (c, t) piece CFinishSequence = Ok (c, with_operating t' false, o) /\ frame t t' /\ waits t' [] /\ rewrites (filter accepted piece) o.
    Proof.
      intros W Hop. destruct (a_piece_ok c t piece W Hop) as (t' & o & E & H). exists t', o. split; [|exact H]. unfold run_piece in *. rewrite do_calls_app in *.
      destruct (do_calls k (c, t) (map CFeed piece)) as [[[c1 t1] rs]| | |]; cbn [bind] in *; try discriminate. cbn [do_calls do_call] in *. unfold FinishSequence.
      destruct (Break k t1) as [[t2 o2]| | |]; cbn [bind] in *; try discriminate. injection E as -> -> E. cbn [map concat fst] in *. rewrite E. reflexivity.
    Qed.
    Lemma a_pieces_ok c : forall pieces t, waits t [] -> ts_operating t = true ->
      exists t' os, run_pieces k (c, t) pieces = Ok (c, t', os) /\ frame t t' /\ waits t' [] /\ Forall2 (fun p o => rewrites (filter accepted p) o) pieces os.
    Proof.
      induction pieces as [|p pieces IH]; intros t W Hop; cbn [run_pieces].
      - exists t, []. split; [reflexivity|]. split; [apply frame_refl|]. split; [exact W|constructor].
      - destruct (a_piece_ok c t p W Hop) as (t1 & o & -> & F & W1 & R). cbn [bind]. destruct (IH t1 W1) as (t' & os & -> & F' & W' & R'); [destruct F as (_ & _ & _ & ->); exact Hop|]. cbn [bind].
        eexists. eexists. split; [reflexivity|]. split; [exact (frame_trans _ _ _ F F')|]. split; [exact W'|]. constructor; assumption.
    Qed.
  End One.

  Lemma a_begin_ok t s e : a_idle t s -> conditions_known e -> e_sets e = sets -> (s_pending s = true -> fine (map snd (s_rules s))) ->
    (exists t', BeginSequence k e false t = Ok (true, t', Some limit)) /\ s_pending s = true /\ crowded (map snd (s_rules s)) \/
    exists t', BeginSequence k e false t = Ok (false, with_operating t' true, None) /\ a_idle t' (compiled s) /\ trees_at [] (ts_trees t').
  Proof.
    intros I He Hse Hfine. unfold BeginSequence. rewrite (a_d_operating _ _ I). cbv zeta. cbn [with_operating ts_recompile]. rewrite (a_d_pending _ _ I). unfold compiled.
    assert (K : forall t1 s1, a_idle t1 s1 -> exists t', (do t2 <- treesRestartDetection (with_operating t1 true); Ok (false, t2, None)) = Ok (false, with_operating t' true, None : option string) /\
      a_idle t' s1 /\ trees_at [] (ts_trees t')).
    { intros t1 s1 I1. destruct (restart_ok (with_operating t1 true)) as (t2 & -> & (F1 & F2 & F3 & F4) & At & A1 & A2). cbn [bind]. exists (with_operating t2 false).
      split; [replace (with_operating (with_operating t2 false) true) with t2; [reflexivity|]; clear - F4; destruct t2 as [x1 x2 x3 x4 x5 x6]; cbn in F4; subst x6; reflexivity|]. split; [|exact At].
      cbn [with_operating ts_rules ts_trees ts_acc ts_tail ts_recompile ts_operating] in *. apply (a_static_idle t1); try assumption; try reflexivity.
      - cbn. rewrite A2. apply I1.
      - cbn. rewrite A1. auto. }
    destruct (s_pending s).
    - fold (with_operating t true). destruct (a_recompile_ok t s e I He Hse (Hfine eq_refl)) as [[(t' & ->) Hcr]|(t' & -> & _ & I')]; cbn [bind]; [left; eauto|right]. apply K. exact I'.
    - right. cbn [bind]. apply K. exact I.
  Qed.

  Definition a_legal_for := legal (rule_of).
  Definition a_fits (rules : list srule) (pieces outs : list (list Z)) : Prop :=
    Forall2 (fun p o => q_rewriting (q_by_condition rules) rules (filter accepted p) o) pieces outs.
  Lemma a_sequence_ok t s e pieces last : a_idle t s -> conditions_known e -> e_sets e = sets -> (s_pending s = true -> fine (map snd (s_rules s))) -> (s_rules s = [] -> s_pending s = false /\ s_room s = true) -> tails_fit (map snd (s_rules s)) ->
    run_job k (false, t) (@JSequence srule e pieces last) = Err limit /\ s_pending s = true /\ crowded (map snd (s_rules s)) \/
    exists t' os, run_job k (false, t) (@JSequence srule e pieces last) = Ok (false, t', Some os) /\ a_idle t' (compiled s) /\ a_fits (map snd (s_rules s)) (pieces ++ [last]) os.
  Proof.
    intros I He Hse Hfine Hroom Htails. cbn [run_job do_call]. destruct (a_begin_ok t s e I He Hse Hfine) as [[(t' & ->) Hcr]|(t1 & -> & I1 & At)]; cbn [bind checked snd]; [left; split; [reflexivity|exact Hcr]|right].
    assert (Es : s_rules (compiled s) = s_rules s) by (unfold compiled; destruct (s_pending s); reflexivity).
    assert (Ep : s_pending (compiled s) = false) by (unfold compiled; destruct (s_pending s) eqn:E; [reflexivity|exact E]).
    assert (Er : s_room (compiled s) = true \/ s_rules s <> []).
    { destruct (s_rules s) eqn:E; [left|right; discriminate]. destruct (Hroom eq_refl) as [H1 H2]. unfold compiled. rewrite H1. exact H2. }
    destruct (a_d_ready _ _ I1) as (cap & C1 & C2 & C3 & C4). specialize (C4 Ep). destruct C4 as [C4 C5].
    pose proof (sized_rules_of _ (a_d_plain _ _ I1)) as Hp. rewrite Es in *.
    assert (Hcap : 1 <= cap).
    { destruct Er as [Er|Er]; [exact (C3 Er)|]. destruct (s_rules s) as [|x l]; [contradiction|]. cbn [map] in C5, Hp. pose proof (Forall_inv C5) as Hx. cbv beta in Hx.
      inversion Hp as [|? ? ? ? Hx' _]; subst. pose proof (sized_ne _ _ _ (Hsized _ _ Hx')). destruct (q_pattern (snd x)); [contradiction|]. rewrite zlen_cons in Hx. pose proof (zlen_nonneg l0). lia. }
    assert (Hm : zlen (map snd (s_rules s)) <= 254) by (rewrite zlen_map, <- Es; apply I1).
    assert (W : a_waits (map fst (s_rules s)) (map snd (s_rules s)) cap (with_operating t1 true) []).
    { split; [|split; [exact At|left; reflexivity]]. split; [cbn; rewrite <- Es; apply I1|]. split; [exact C4|]. split; [exact C2|]. exact (a_d_tail _ _ I1). }
    destruct (a_pieces_ok _ _ cap Hp Hm Hcap C5 Htails false pieces _ W eq_refl) as (t2 & os & -> & F2 & W2 & R2). cbn [bind].
    destruct (a_last_ok _ _ cap Hp Hm Hcap C5 Htails false t2 last W2) as (t3 & o & -> & F3 & W3 & R3); [destruct F2 as (_ & _ & _ & ->); reflexivity|]. cbn [bind].
    eexists. eexists. split; [reflexivity|]. split.
    - pose proof (frame_trans _ _ _ F2 F3) as (G1 & G2 & G3 & G4). destruct W3 as ((_ & _ & A & B) & _). constructor; try apply I1; cbn [with_operating ts_rules ts_trees ts_acc ts_tail ts_recompile ts_operating] in *.
      + rewrite G1. apply I1.
      + exact B.
      + reflexivity.
      + rewrite G3. apply I1.
      + rewrite (conds_of_static _ _ G2). apply I1.
      + exact (resync_of_static _ _ G2 (a_d_resync _ _ I1)).
      + rewrite (conds_of_static _ _ G2). apply I1.
      + exists cap. split; [exact C1|]. split; [exact A|]. split; [intros _; exact Hcap|]. intros _. rewrite G2, Es. split; assumption.
    - apply Forall2_app; [exact R2|]. constructor; [exact R3|constructor].
  Qed.

  Lemma a_jobs_ok : forall js t s, a_idle t s -> all_legal (rule_of) s js -> same_sets sets js -> Forall (fun e => tails_fit (fst e)) (expected s js) -> Forall fine (compilations s js) ->
    run_jobs k (false, t) js = Err limit /\ Exists crowded (compilations s js) \/
    exists w os, run_jobs k (false, t) js = Ok (w, os) /\ Forall2 (fun e o => a_fits (fst e) (snd e) o) (expected s js) os.
  Proof.
    induction js as [|j js IH]; intros t s I L Ss Ht Hf; cbn [run_jobs].
    - right. eexists. eexists. split; [reflexivity|]. constructor.
    - destruct L as [L1 L2]. inversion Ss as [|? ? Ss1 Ss2]; subst.
      assert (Ht' : Forall (fun e => tails_fit (fst e)) (expected (next s j) js)) by (destruct j; cbn [expected] in Ht; try exact Ht; exact (Forall_inv_tail Ht)).
      assert (Hf' : Forall fine (compilations (next s j) js)) by (cbn [compilations] in Hf; destruct j; try (apply Forall_app in Hf; exact (proj2 Hf)); exact Hf).
      assert (K : run_job k (false, t) j = Err limit /\ Exists crowded (compilations s (j :: js)) \/ exists t' o, run_job k (false, t) j = Ok (false, t', o) /\ a_idle t' (next s j) /\
        match o with
        | None => expected s (j :: js) = expected (next s j) js
        | Some l => exists rules pieces, expected s (j :: js) = (rules, pieces) :: expected (next s j) js /\ a_fits rules pieces l
        end).
      { destruct j as [d r|d| |e|e|e pieces last]; cbn [run_job do_call legal] in *.
        - right. pose proof (a_add_ok t s d r I L1) as H. destruct (AddRule k t d) as [t'|m| |]; try contradiction; cbn [bind]; eexists; exists None; split; try reflexivity; auto.
        - right. destruct (a_remove_ok t s d I) as (t' & b & -> & H). cbn [bind]. exists t', None. auto.
        - right. destruct (a_remove_all_ok t s I) as (t' & -> & H). cbn [bind]. exists t', None. auto.
        - assert (Hfj : s_pending s = true -> fine (map snd (s_rules s))) by (intros Ep; cbn [compilations] in Hf; rewrite Ep in Hf; exact (Forall_inv Hf)).
          destruct (a_resync_ok t s e I L1 Ss1 Hfj) as [[(t' & ->) [Hpe Hcr]]|(t' & -> & H)]; cbn [bind checked snd]; [left; split; [reflexivity|cbn [compilations]; rewrite Hpe; constructor; exact Hcr]|right]. exists t', None. auto.
        - right. destruct (a_refresh_ok t s e I L1) as (t' & -> & H). cbn [bind]. exists t', None. auto.
        - assert (Hfj : s_pending s = true -> fine (map snd (s_rules s))) by (intros Ep; cbn [compilations] in Hf; rewrite Ep in Hf; exact (Forall_inv Hf)).
          destruct L1 as [L1 L3]. destruct (a_sequence_ok t s e pieces last I L1 Ss1 Hfj L3 (Forall_inv Ht)) as [[E [Hpe Hcr]]|(t' & os & E & I' & F)]; [left; split; [exact E|cbn [compilations]; rewrite Hpe; constructor; exact Hcr]|right].
          exists t', (Some os). split; [exact E|]. split; [exact I'|]. exists (map snd (s_rules s)), (pieces ++ [last]). split; [reflexivity|exact F]. }
      destruct K as [[-> Hcr]|(t' & o & -> & I' & H)]; cbn [bind]; [left; split; [reflexivity|exact Hcr]|].
      destruct (IH t' (next s j) I' L2 Ss2 Ht' Hf') as [[-> Hcr]|(w & os & -> & F)]; cbn [bind]; [left; split; [reflexivity|cbn [compilations]; apply Exists_app; right; exact Hcr]|right].
      destruct o as [l|].
      + destruct H as (rules & pieces & -> & Hl). eexists. eexists. split; [reflexivity|]. constructor; assumption.
      + rewrite H. eexists. eexists. split; [reflexivity|]. exact F.
  Qed.
End Any.
