(** Proofs about the rewrite testers: choosing a rule and applying it. *)
From Verif Require Import Base BaseFacts Model_Helpers Model_Font Model_Rewrites Model_Scanner Model_CircularBuffer Spec_CircularBuffer
  Proofs_CircularBuffer Model_Tree Spec_Tree Proofs_Tree Proofs_Tree2 Proofs_Tree3 Proofs_Tree4 Model_Tester Spec_Tester Proofs_Tester.

(** ** Numbered rules *)
Lemma numbered_in rules : forall from r i, In (r, i) (numbered from rules) -> from <= i < from + zlen rules /\ nth_error rules (Z.to_nat (i - from)) = Some r.
Proof.
  induction rules as [|r0 rules IH]; intros from r i; cbn [numbered]; [intros []|]. rewrite zlen_cons. pose proof (zlen_nonneg rules). intros [[= <- <-]|Hin].
  - split; [lia|]. replace (from - from) with 0 by lia. reflexivity.
  - destruct (IH _ _ _ Hin) as [H1 H2]. split; [lia|]. replace (Z.to_nat (i - from)) with (S (Z.to_nat (i - (from + 1)))) by lia. exact H2.
Qed.
Lemma group_in c rules xs i : In (xs, i) (group c rules) -> 0 <= i < zlen rules /\ exists r, nth_error rules (Z.to_nat i) = Some r /\ xs = pattern r /\ r_cond r = c.
Proof.
  unfold group, patterns. intros Hin. apply in_map_iff in Hin. destruct Hin as ([r j] & E & Hin). cbn [fst snd] in E. injection E as <- <-.
  apply filter_In in Hin. destruct Hin as [Hin Hc]. cbn [fst] in Hc. destruct (numbered_in _ _ _ _ Hin) as [H1 H2]. split; [lia|]. exists r.
  replace (j - 0) with j in H2 by lia. split; [exact H2|]. split; [reflexivity|lia].
Qed.
Lemma numbered_cond rules c : forall from, (forall r, In r rules -> r_cond r <> c) -> filter (fun e => r_cond (fst e) =? c) (numbered from rules) = [].
Proof.
  induction rules as [|r rules IH]; intros from H; cbn [numbered filter fst]; [reflexivity|]. pose proof (H r (or_introl eq_refl)).
  replace (r_cond r =? c) with false by lia. apply IH. intros r' Hin. apply H. right. exact Hin.
Qed.
Lemma numbered_increasing rules c : forall from, from + zlen rules <= 255 -> increasing from (map snd (patterns (filter (fun e => r_cond (fst e) =? c) (numbered from rules)))).
Proof.
  induction rules as [|r rules IH]; intros from H; cbn [numbered filter fst]; [exact I|]. rewrite zlen_cons in H. pose proof (zlen_nonneg rules).
  assert (Hw : forall l a b, a <= b -> increasing b l -> increasing a l).
  { intros l. destruct l as [|x l]; intros a b Hab; cbn [increasing]; [auto|]. intros [? ?]. split; [lia|assumption]. }
  destruct (r_cond r =? c).
  - cbn [patterns map snd increasing]. split; [lia|]. apply IH. lia.
  - apply (Hw _ _ (from + 1)); [lia|]. apply IH. lia.
Qed.

(** ** The best match is one *)
Lemma best_unique P input m m' : best_match P input m -> best_match P input m' -> m = m'.
Proof.
  intros [[-> H]|(a & xs & b & E & H1 & H2 & H3)] [[-> H']|(a' & xs' & b' & E' & H1' & H2' & H3')]; [reflexivity|exfalso..|].
  - apply (H xs' m'); [rewrite E'; apply in_or_app; right; left; reflexivity|exact H1'].
  - apply (H' xs m); [rewrite E; apply in_or_app; right; left; reflexivity|exact H1].
  - assert (Hin : In (xs, m) P) by (rewrite E; apply in_or_app; right; left; reflexivity).
    assert (Hin' : In (xs', m') P) by (rewrite E'; apply in_or_app; right; left; reflexivity).
    pose proof (H2 _ _ Hin' H1'). pose proof (H2' _ _ Hin H1).
    rewrite E in E'. clear - E' H3 H3' H1 H1' H H0. revert a' E' H3 H3'. induction a as [|e a IH]; intros a' E' H3 H3'; destruct a' as [|e' a']; cbn [app] in E'.
    + injection E' as _ -> _. reflexivity.
    + injection E' as <- _. specialize (H3' xs m (or_introl eq_refl) H1). lia.
    + injection E' as -> _. specialize (H3 xs' m' (or_introl eq_refl) H1'). lia.
    + injection E' as _ E'. apply (IH a' E').
      * intros ys r Hin. apply (H3 ys r). right. exact Hin.
      * intros ys r Hin. apply (H3' ys r). right. exact Hin.
Qed.
Lemma best_range P input m : (forall xs i, In (xs, i) P -> 0 <= i < 255) -> best_match P input m -> 0 <= m <= 255.
Proof.
  intros H [[-> _]|(a & xs & b & E & _)]; [lia|]. specialize (H xs m). rewrite E in H. specialize (H ltac:(apply in_or_app; right; left; reflexivity)). lia.
Qed.
Lemma best_nil input : best_match [] input 255.
Proof. left. split; [reflexivity|]. intros xs r []. Qed.

(** ** The rules a tester is given *)
Definition plain (k : tester_kind) (d : list Z) (r : rrule) : Prop :=
  bytes d /\ rule_Condition d = Ok (r_cond r) /\ rule_HeadLen d = Ok (zlen (r_head r)) /\ rule_BodyLen d = Ok (zlen (r_body r)) /\ rule_TailLen d = Ok 0 /\
  zget d 4 = Ok 1 /\ tk_out k d = Ok (r_out r) /\
  scan (tk_kind k) d = Ok (map Single (pattern r)) /\ Forall (fun x => x < k_succ (tk_kind k) x) (pattern r).

Lemma scan_checks k d es : scan k d = Ok es -> k_min k <= zlen d /\ exists o h b t, zget d 4 = Ok o /\ zget d 1 = Ok h /\ zget d 2 = Ok b /\ zget d 3 = Ok t /\
  o <> 0 /\ o <= b /\ h <= u8 (h + b) /\ t <= u8 (u8 (h + b) + t).
Proof.
  unfold scan. intros H. apply bind_ok in H. destruct H as (s & H & _). unfold Start in H. apply bind_ok in H. destruct H as (s' & H & _).
  unfold startChecks in H. destruct (Z.ltb_spec (zlen d) (k_min k)); [discriminate|]. split; [assumption|]. apply bind_ok in H. destruct H as (o & Ho & H).
  destruct (Z.eqb_spec o 0); [discriminate|]. apply bind_ok in H. destruct H as (h & Hh & H). apply bind_ok in H. destruct H as (b & Hb & H).
  apply bind_ok in H. destruct H as (t & Ht & H). cbv zeta in H. destruct (Z.gtb_spec h (u8 (h + b))); [discriminate|].
  destruct (Z.gtb_spec t (u8 (u8 (h + b) + t))); [discriminate|]. destruct (Z.ltb_spec b o); [discriminate|]. exists o, h, b, t. auto 10.
Qed.
Lemma plain_sizes k d r : plain k d r -> k_min (tk_kind k) <= zlen d /\ r_body r <> [] /\ zlen (pattern r) <= 255 /\ rule_InLen d = Ok (zlen (pattern r)).
Proof.
  intros (Hby & _ & Hh & Hb & Ht & Ho & _ & Hs & _). destruct (scan_checks _ _ _ Hs) as (Hm & o & h & b & t & Ho' & Hh' & Hb' & Ht' & H1 & H2 & H3 & H4).
  unfold rule_HeadLen, rule_BodyLen, rule_TailLen in *. rewrite Ho in Ho'. injection Ho' as <-. rewrite Hh in Hh'. injection Hh' as <-. rewrite Hb in Hb'. injection Hb' as <-.
  split; [exact Hm|]. assert (Hb255 : byte (zlen (r_body r))) by (apply (proj1 (Forall_forall _ _) Hby); exact (zget_in _ _ _ Hb)).
  assert (Hh255 : byte (zlen (r_head r))) by (apply (proj1 (Forall_forall _ _) Hby); exact (zget_in _ _ _ Hh)). unfold byte in *.
  assert (Hsum : zlen (r_head r) + zlen (r_body r) <= 255) by (revert H3; unfold u8; lia).
  split; [intros E; rewrite E, zlen_nil in H2; lia|]. unfold pattern. rewrite zlen_app. split; [exact Hsum|].
  unfold rule_InLen. rewrite Hh, Hb, Ht. cbn [bind]. f_equal. unfold u8. lia.
Qed.
Lemma plain_pattern_ne k d r : plain k d r -> pattern r <> [].
Proof. intros H. destruct (plain_sizes _ _ _ H) as (_ & H1 & _). unfold pattern. destruct (r_head r); [exact H1|discriminate]. Qed.

Lemma Forall2_zlen {A B} (R : A -> B -> Prop) l l' : Forall2 R l l' -> zlen l = zlen l'.
Proof. induction 1 as [|x y l l' _ _ IH]; [reflexivity|]. rewrite !zlen_cons, IH. reflexivity. Qed.
Lemma Forall2_zget {A B} (R : A -> B -> Prop) l l' : Forall2 R l l' -> forall m y, nth_error l' m = Some y -> exists x, zget l (Z.of_nat m) = Ok x /\ R x y.
Proof.
  intros H m y. unfold zget. replace (Z.of_nat m <? 0) with false by lia. rewrite Nat2Z.id. revert m. induction H as [|d r0 ds rs Hd _ IH]; intros m; [destruct m; discriminate|].
  destruct m as [|m]; cbn [nth_error]; [intros [= <-]; eauto|apply IH].
Qed.
Lemma rules_with_own k sets c data rules : Forall2 (plain k) data rules -> forall from, 0 <= from -> from + zlen rules <= 254 ->
  exists own, rules_with c from data = Ok own /\ Forall2 (@pattern_of elements (tk_kind k) sets) own (patterns (filter (fun e => r_cond (fst e) =? c) (numbered from rules))).
Proof.
  induction 1 as [|d r ds rs Hd _ IH]; intros from H0 H; cbn [rules_with numbered filter patterns map]; [eauto|].
  rewrite zlen_cons in H. pose proof (zlen_nonneg rs). pose proof (plain_pattern_ne _ _ _ Hd) as Hp. destruct Hd as (_ & Hc & _ & _ & _ & _ & _ & Hs & Hx). rewrite Hc. cbn [bind].
  destruct (IH (from + 1) ltac:(lia) ltac:(lia)) as (own & -> & HF). cbn [bind fst]. destruct (r_cond r =? c).
  - eexists. split; [reflexivity|]. cbn [patterns map]. constructor; [|exact HF]. unfold pattern_of. cbn [fst snd]. rewrite u8_id by (unfold byte; lia). split; [|auto].
    exists (map Single (pattern r)). split; [exact Hs|]. apply singles_stand. intros x Hin. apply in_map_iff in Hin. destruct Hin as (y & [= ->] & Hin). exact (proj1 (Forall_forall _ _) Hx x Hin).
  - eexists. split; [reflexivity|exact HF].
Qed.

Lemma group_range rules c xs i : zlen rules <= 254 -> In (xs, i) (group c rules) -> 0 <= i < 255.
Proof. intros Hl Hin. destruct (group_in _ _ _ _ Hin) as [H _]. lia. Qed.
Lemma min_choice rules l input : zlen rules <= 254 -> Forall (fun i => best_match (group (i_cond i) rules) input (d_best (i_tree i))) l ->
  Forall (fun r => In (r_cond r) (map i_cond l)) rules ->
  by_condition rules input (fold_left (fun best i => if d_best (i_tree i) <? best then d_best (i_tree i) else best) l 255).
Proof.
  intros Hmany HB HC.
  assert (G : forall l best, let m := fold_left (fun best i => if d_best (i_tree i) <? best then d_best (i_tree i) else best) l best in
    m <= best /\ (forall i, In i l -> m <= d_best (i_tree i)) /\ (m = best \/ exists i, In i l /\ m = d_best (i_tree i))).
  { clear. induction l as [|i l IH]; intros best; cbn [fold_left].
    - split; [lia|]. split; [intros i []|left; reflexivity].
    - specialize (IH (if d_best (i_tree i) <? best then d_best (i_tree i) else best)). cbv zeta in *. destruct IH as (H1 & H2 & H3).
      destruct (Z.ltb_spec (d_best (i_tree i)) best).
      + split; [lia|]. split; [intros j [<-|Hj]; [exact H1|exact (H2 j Hj)]|]. right. destruct H3 as [H3|(j & Hj & H3)]; [exists i; split; [left; reflexivity|exact H3]|].
        exists j. split; [right; exact Hj|exact H3].
      + split; [exact H1|]. split; [intros j [<-|Hj]; [lia|exact (H2 j Hj)]|]. destruct H3 as [H3|(j & Hj & H3)]; [left; exact H3|]. right. exists j. split; [right; exact Hj|exact H3]. }
  specialize (G l 255). cbv zeta in G. set (m := fold_left _ l 255) in *. clearbody m. destruct G as (H1 & H2 & H3).
  assert (Hmin : forall c m', best_match (group c rules) input m' -> m <= m').
  { intros c m' Hm'. destruct (in_dec Z.eq_dec c (map i_cond l)) as [Hin|Hin].
    - apply in_map_iff in Hin. destruct Hin as (i & <- & Hi). pose proof (proj1 (Forall_forall _ _) HB i Hi) as Hb. cbv beta in Hb.
      rewrite (best_unique _ _ _ _ Hm' Hb). exact (H2 i Hi).
    - replace (group c rules) with (@nil (list Z * Z)) in Hm'.
      + rewrite (best_unique _ _ _ _ Hm' (best_nil input)). exact H1.
      + unfold group. rewrite numbered_cond; [reflexivity|]. intros r Hr E. apply Hin. rewrite <- E. exact (proj1 (Forall_forall _ _) HC r Hr). }
  split; [|exact Hmin]. destruct H3 as [->|(i & Hi & ->)].
  - destruct l as [|i l].
    + exists 0. destruct rules as [|r rs]; [apply best_nil|]. inversion HC as [|? ? [] ?].
    + pose proof (Forall_inv HB) as Hb. cbv beta in Hb. pose proof (H2 i (or_introl eq_refl)) as Hge.
      pose proof (best_range _ _ _ (fun xs j => group_range _ _ xs j Hmany) Hb) as Hr. exists (i_cond i). replace 255 with (d_best (i_tree i)) by lia. exact Hb.
  - exists (i_cond i). exact (proj1 (Forall_forall _ _) HB i Hi).
Qed.
Section Rules.
  Variables (k : tester_kind) (data : list (list Z)) (rules : list rrule).
  Hypothesis Hrules : Forall2 (plain k) data rules.

  Lemma rules_len : zlen data = zlen rules.
  Proof. exact (Forall2_zlen _ _ _ Hrules). Qed.
  Lemma rules_at m r : nth_error rules m = Some r -> exists d, zget data (Z.of_nat m) = Ok d /\ plain k d r.
  Proof. exact (Forall2_zget _ _ _ Hrules m r). Qed.
  Lemma rules_with_group sets c : zlen rules <= 254 -> exists own, rules_with c 0 data = Ok own /\ Forall2 (@pattern_of elements (tk_kind k) sets) own (group c rules).
  Proof. intros Hl. apply (rules_with_own k sets c data rules Hrules 0); lia. Qed.

  (** ** The trees *)
  Hypothesis Hmany : zlen rules <= 254.
  Variable cap : Z.
  Hypothesis Hcap : 1 <= cap.
  Hypothesis Hfit : Forall (fun r => zlen (pattern r) <= cap) rules.

  Definition static (i : instance) : list state * Z * bool := (d_states (i_tree i), i_cond i, i_resync i).
  Definition trees_ok (l : list (list state * Z * bool)) : Prop :=
    Forall (fun s => good (fst (fst s)) (group (snd (fst s)) rules)) l /\ Forall (fun r => In (r_cond r) (map (fun s => snd (fst s)) l)) rules.
  Definition trees_at (w : list Z) (l : list instance) : Prop := Forall (fun i => fed (d_states (i_tree i)) w = Ok (i_tree i)) l.
  Definition scanning (l : list instance) : bool := existsb (fun i => d_scanning (i_tree i)) l.
  (** what no call of a sequence changes *)
  Definition frame (t t' : tester) : Prop :=
    ts_rules t' = ts_rules t /\ map static (ts_trees t') = map static (ts_trees t) /\ ts_recompile t' = ts_recompile t /\ ts_operating t' = ts_operating t.
  Definition runs (t : tester) (w : list Z) : Prop :=
    ts_rules t = data /\ trees_ok (map static (ts_trees t)) /\ holds (ts_acc t) w cap /\ ts_tail t = 0.

  Lemma frame_refl t : frame t t.
  Proof. repeat split. Qed.
  Lemma frame_trans a b c : frame a b -> frame b c -> frame a c.
  Proof. intros (H1 & H2 & H3 & H4) (G1 & G2 & G3 & G4). unfold frame. rewrite G1, G2, G3, G4. auto. Qed.
  Lemma frame_runs t t' w w' : frame t t' -> runs t w -> holds (ts_acc t') w' cap -> ts_tail t' = 0 -> runs t' w'.
  Proof. intros (H1 & H2 & _) (R1 & R2 & _) Hh Ht. unfold runs. rewrite H1, H2. auto. Qed.

  Lemma restart_one i : exists d, restart_tree i = Ok (with_tree i d) /\ d = mkTree (d_states (i_tree i)) 0 255 true.
  Proof.
    unfold restart_tree, tree_BreakSequence. eexists. split; [|reflexivity]. destruct (d_scanning (i_tree i)) eqn:E; cbn [negb bind].
    - reflexivity.
    - unfold tree_BeginSequence. rewrite E. reflexivity.
  Qed.
  Lemma restart_ok t : exists t', treesRestartDetection t = Ok t' /\ frame t t' /\ trees_at [] (ts_trees t') /\ ts_acc t' = ts_acc t /\ ts_tail t' = ts_tail t.
  Proof.
    unfold treesRestartDetection. assert (G : forall l, exists l', omap restart_tree l = Ok l' /\ map static l' = map static l /\ trees_at [] l').
    { induction l as [|i l (l' & E & H1 & H2)]; cbn [omap map]; [exists []; repeat split; constructor|]. destruct (restart_one i) as (d & -> & Ed). cbn [bind].
      rewrite E. cbn [bind]. eexists. split; [reflexivity|]. cbn [map]. rewrite H1. split; [rewrite Ed; reflexivity|]. constructor; [rewrite Ed; reflexivity|exact H2]. }
    destruct (G (ts_trees t)) as (l' & -> & H1 & H2). cbn [bind]. eexists. split; [reflexivity|]. split; [split; [reflexivity|]; split; [exact H1|]; split; reflexivity|].
    split; [exact H2|]. split; reflexivity.
  Qed.

  Lemma feed_one i w g : good (d_states (i_tree i)) (group (i_cond i) rules) -> fed (d_states (i_tree i)) w = Ok (i_tree i) ->
    exists d, (if d_scanning (i_tree i) then tree_Feed (i_tree i) g else Ok (i_tree i)) = Ok d /\ d_states d = d_states (i_tree i) /\ fed (d_states (i_tree i)) (w ++ [g]) = Ok d.
  Proof.
    intros G F. destruct (G (w ++ [g])) as (d & Hd & Hs & _). exists d. split; [|split; [exact Hs|exact Hd]].
    unfold fed in *. rewrite ofold_app, F in Hd. cbn [bind ofold] in Hd. apply bind_ok in Hd. destruct Hd as (d' & Hd & E). injection E as <-. exact Hd.
  Qed.
  Lemma feed_ok t w g : trees_ok (map static (ts_trees t)) -> trees_at w (ts_trees t) ->
    exists t', treesFeedUnrestrictedGlyph t g = Ok (t', scanning (ts_trees t')) /\ frame t t' /\ trees_at (w ++ [g]) (ts_trees t') /\ ts_acc t' = ts_acc t /\ ts_tail t' = ts_tail t.
  Proof.
    intros [G _] F. unfold treesFeedUnrestrictedGlyph, feed_trees.
    assert (K : exists l', omap (fun i => if d_scanning (i_tree i) then do d <- tree_Feed (i_tree i) g; Ok (with_tree i d) else Ok i) (ts_trees t) = Ok l' /\
      map static l' = map static (ts_trees t) /\ trees_at (w ++ [g]) l').
    { induction (ts_trees t) as [|i l IH]; cbn [omap map] in *; [exists []; repeat split; constructor|]. inversion G as [|? ? G1 G2]; subst. inversion F as [|? ? F1 F2]; subst.
      destruct (IH G2 F2) as (l' & E & H1 & H2). cbn [static fst snd] in G1. destruct (feed_one i w g G1 F1) as (d & Hd & Hs & Hf).
      exists (with_tree i d :: l'). split.
      - destruct (d_scanning (i_tree i)); [rewrite Hd; cbn [bind]; rewrite E; reflexivity|]. injection Hd as <-. cbn [bind]. rewrite E. cbn [bind]. destruct i; reflexivity.
      - cbn [map]. rewrite H1. split; [unfold static at 1; cbn [with_tree i_tree i_cond i_resync]; rewrite Hs; reflexivity|].
        constructor; [cbn [with_tree i_tree]; rewrite Hs; exact Hf|exact H2]. }
    destruct K as (l' & -> & H1 & H2). cbn [bind]. exists (with_trees t l'). split; [reflexivity|]. split; [split; [reflexivity|]; split; [exact H1|]; split; reflexivity|].
    split; [exact H2|]. split; reflexivity.
  Qed.

  Lemma map_static_cond l : map (fun s : list state * Z * bool => snd (fst s)) (map static l) = map i_cond l.
  Proof. rewrite map_map. reflexivity. Qed.
  Lemma decide t w : trees_ok (map static (ts_trees t)) -> trees_at w (ts_trees t) ->
    by_condition rules w (treesGetBestMatch t) /\ (scanning (ts_trees t) = false -> forall z, by_condition rules (w ++ z) (treesGetBestMatch t)).
  Proof.
    intros [G C] F. rewrite map_static_cond in C. rewrite Forall_map in G. unfold treesGetBestMatch. split.
    - apply min_choice; [exact Hmany|..]; [|exact C]. apply Forall_forall. intros i Hi. pose proof (proj1 (Forall_forall _ _) G i Hi) as Gi. pose proof (proj1 (Forall_forall _ _) F i Hi) as Fi.
      cbn [static fst snd] in Gi. cbv beta in Fi. destruct (Gi w) as (d & Hd & _ & Hb & _). rewrite Fi in Hd. injection Hd as <-. exact Hb.
    - intros Hs z. apply min_choice; [exact Hmany|..]; [|exact C]. apply Forall_forall. intros i Hi. pose proof (proj1 (Forall_forall _ _) G i Hi) as Gi. pose proof (proj1 (Forall_forall _ _) F i Hi) as Fi.
      cbn [static fst snd] in Gi. cbv beta in Fi. destruct (Gi w) as (d & Hd & _ & _ & _ & Hb). rewrite Fi in Hd. injection Hd as <-. apply Hb.
      destruct (d_scanning (i_tree i)) eqn:E; [|reflexivity]. exfalso. assert (scanning (ts_trees t) = true); [|congruence].
      apply existsb_exists. exists i. split; [exact Hi|exact E].
  Qed.
  Lemma scanning_short t w : trees_ok (map static (ts_trees t)) -> trees_at w (ts_trees t) -> scanning (ts_trees t) = true -> zlen w < cap.
  Proof.
    intros [G _] F Hs. rewrite Forall_map in G. apply existsb_exists in Hs. destruct Hs as (i & Hi & Hs). pose proof (proj1 (Forall_forall _ _) G i Hi) as Gi.
    pose proof (proj1 (Forall_forall _ _) F i Hi) as Fi. cbn [static fst snd] in Gi. cbv beta in Fi. destruct (Gi w) as (d & Hd & _ & _ & Hb & _). rewrite Fi in Hd. injection Hd as <-.
    destruct (Hb Hs) as [->|(xs & j & q & Hin & -> & Hq)]; [rewrite zlen_nil; lia|]. destruct (group_in _ _ _ _ Hin) as (_ & r & Hr & E & _).
    pose proof (proj1 (Forall_forall _ _) Hfit r (nth_error_In _ _ Hr)) as Hl. cbv beta in Hl. rewrite <- E, zlen_app in Hl.
    destruct q as [|y q]; [contradiction|]. rewrite zlen_cons in Hl. pose proof (zlen_nonneg q). lia.
  Qed.

  (** ** Applying the choice *)
  Lemma pop_ok t x w : holds (ts_acc t) (x :: w) cap -> exists a, pop t = Ok (with_acc t a, x) /\ holds a w cap.
  Proof. intros H. destruct (holds_pop _ _ _ _ H) as (a & E & Ha). exists a. unfold pop. rewrite E. cbn [bind]. auto. Qed.
  Lemma skip_ok : forall l t w, holds (ts_acc t) (l ++ w) cap -> exists a, skip_body (length l) t = Ok (with_acc t a) /\ holds a w cap.
  Proof.
    induction l as [|x l IH]; intros t w H; cbn [length skip_body app] in *; [exists (ts_acc t); split; [destruct t; reflexivity|exact H]|].
    destruct (pop_ok _ _ _ H) as (a & -> & Ha). cbn [bind]. destruct (IH (with_acc t a) w Ha) as (a' & -> & Ha'). exists a'. split; [reflexivity|exact Ha'].
  Qed.
  Lemma head_ok : forall l t w out, holds (ts_acc t) (l ++ w) cap -> ts_tail t = 0 ->
    exists a, report_head (length l) t out = Ok (with_acc t a, out ++ l) /\ holds a w cap.
  Proof.
    induction l as [|x l IH]; intros t w out H Ht; cbn [length report_head app] in *; [exists (ts_acc t); rewrite app_nil_r; split; [destruct t; reflexivity|exact H]|].
    rewrite Ht. cbn [Z.gtb Z.compare]. destruct (pop_ok _ _ _ H) as (a & -> & Ha). cbn [bind]. destruct (IH (with_acc t a) w (out ++ [x]) Ha Ht) as (a' & -> & Ha').
    exists a'. rewrite <- app_assoc. split; [reflexivity|exact Ha'].
  Qed.
  Lemma choice_rule m w : by_condition rules w m -> m <> 255 -> exists r rest, nth_error rules (Z.to_nat m) = Some r /\ w = pattern r ++ rest /\ 0 <= m.
  Proof.
    intros [(c & [[E _]|(a & xs & b & E & (rest & H) & _)]) _] Hm; [contradiction|].
    assert (Hin : In (xs, m) (group c rules)) by (rewrite E; apply in_or_app; right; left; reflexivity).
    destruct (group_in _ _ _ _ Hin) as (Hr & r & Hn & -> & _). exists r, rest. split; [exact Hn|]. split; [exact H|lia].
  Qed.
  Definition act (t : tester) (m : Z) (out : list Z) := if m =? 255 then popOldestGlyph t out else rewrite_match k t m out.
  Lemma act_ok t w m out : runs t w -> by_condition rules w m -> w <> [] ->
    exists t' w' o, act t m out = Ok (t', out ++ o) /\ runs t' w' /\ frame t t' /\ trees_at [] (ts_trees t') /\ zlen w' < zlen w /\
      forall z o', by_condition rules (w ++ z) m -> rewriting (by_condition rules) rules (w' ++ z) o' -> rewriting (by_condition rules) rules (w ++ z) (o ++ o').
  Proof.
    intros R Hm Hw. pose proof R as (R1 & R2 & R3 & R4). unfold act. destruct (Z.eqb_spec m 255) as [->|Hne].
    - destruct w as [|x w]; [contradiction|]. destruct (pop_ok _ _ _ R3) as (a & E & Ha). unfold popOldestGlyph. rewrite E. cbn [bind]. change (ts_tail (with_acc t a)) with (ts_tail t). rewrite R4. cbn [Z.gtb Z.compare].
      destruct (restart_ok (with_acc t a)) as (t' & E' & Hf & Hat & Hacc & Htl). rewrite E'. cbn [bind]. exists t', w, [x]. split; [reflexivity|].
      assert (Hft : frame t t') by (destruct Hf as (F1 & F2 & F3 & F4); repeat split; assumption).
      split; [apply (frame_runs t t' (x :: w)); [exact Hft|exact R|rewrite Hacc; exact Ha|rewrite Htl; exact R4]|]. split; [exact Hft|]. split; [exact Hat|].
      split; [rewrite zlen_cons; lia|]. intros z o' Hc Hr. cbn [app] in *. apply rewriting_keep; assumption.
    - destruct (choice_rule _ _ Hm Hne) as (r & rest & Hn & -> & Hm0). destruct (rules_at _ _ Hn) as (d & Hd & Hp). rewrite Z2Nat.id in Hd by lia.
      pose proof (plain_sizes _ _ _ Hp) as (_ & Hbody & _ & _). pose proof Hp as (_ & _ & Hh & Hb & Htl & _ & Ho & _). unfold rewrite_match. replace (m =? 255) with false by lia.
      rewrite R1, Hd. cbn [bind]. rewrite Hh. cbn [bind]. unfold pattern in R3. rewrite <- app_assoc in R3.
      destruct (head_ok (r_head r) t (r_body r ++ rest) out R3 R4) as (a1 & E1 & Ha1). replace (Z.to_nat (zlen (r_head r))) with (length (r_head r)) by (unfold zlen; lia).
      rewrite E1. cbn [bind]. change (ts_tail (with_acc t a1)) with (ts_tail t). rewrite R4. cbn [Z.gtb Z.compare]. rewrite Ho. cbn [bind]. rewrite Hb. cbn [bind].
      replace (Z.to_nat (zlen (r_body r))) with (length (r_body r)) by (unfold zlen; lia).
      destruct (skip_ok (r_body r) (with_acc t a1) rest Ha1) as (a2 & -> & Ha2). cbn [bind].
      destruct (restart_ok (with_acc (with_acc t a1) a2)) as (t' & -> & Hf & Hat & Hacc & Htl'). cbn [bind]. rewrite Htl. cbn [bind Z.gtb Z.compare].
      exists (with_tail t' 0), rest, (r_head r ++ r_out r). split; [rewrite <- app_assoc; reflexivity|].
      assert (Hft : frame t (with_tail t' 0)) by (destruct Hf as (F1 & F2 & F3 & F4); repeat split; assumption).
      split; [apply (frame_runs t (with_tail t' 0) (pattern r ++ rest)); [exact Hft| |cbn [with_tail ts_acc]; rewrite Hacc; exact Ha2|reflexivity]|].
      { exact R. }
      split; [exact Hft|]. split; [exact Hat|]. split.
      + rewrite zlen_app. unfold pattern. rewrite zlen_app. pose proof (zlen_nonneg (r_head r)). destruct (r_body r); [contradiction|]. rewrite zlen_cons. pose proof (zlen_nonneg l). lia.
      + intros z o' Hc Hr. rewrite <- !app_assoc. rewrite <- app_assoc in Hc. apply (rewriting_apply _ _ (Z.to_nat m)); [exact Hn|rewrite Z2Nat.id by lia; exact Hc|exact Hr].
  Qed.
End Rules.
