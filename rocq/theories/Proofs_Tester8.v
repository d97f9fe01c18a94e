(** Proofs about the rewrite testers with rules that may have sets which are ranges, and tails:
    choosing a rule and applying it. *)
From Verif Require Import Base BaseFacts Model_Helpers Model_Font Model_Rewrites Model_Scanner Model_CircularBuffer Spec_CircularBuffer
  Proofs_CircularBuffer Model_Tree Spec_Tree Proofs_Tree Proofs_Tree2 Proofs_Tree3 Proofs_Tree4 Model_Tester Spec_Tester Proofs_Tester Proofs_Tester2 Proofs_Tester7.

(** A rule whose elements are letters *)
Record nrule := mkN { n_cond : Z; n_head : list Z; n_body : list Z; n_tail : list Z; n_out : list Z }.
Definition n_pattern (r : nrule) : list Z := n_head r ++ n_body r ++ n_tail r.
(** its pattern in place of the body *)
Definition flattened (r : nrule) : rrule := mkRule (n_cond r) [] (n_pattern r) (n_out r).
Lemma flattened_pattern r : pattern (flattened r) = n_pattern r.
Proof. reflexivity. Qed.
Definition n_group (c : Z) (rules : list nrule) : list (list Z * Z) := group c (map flattened rules).
Definition n_choice (rules : list nrule) (input : list Z) (m : Z) : Prop := by_condition (map flattened rules) input m.
(** No rule has a tail, or no rule has a head and tails have one element at most. *)
Definition n_tails (rules : list nrule) : Prop :=
  Forall (fun r => n_tail r = []) rules \/ Forall (fun r => n_head r = [] /\ zlen (n_tail r) <= 1) rules.
Definition headless (rules : list nrule) : Prop := Forall (fun r => n_head r = []) rules.

Section Named.
Context {AB : alphabet}.
Inductive n_rewriting (rules : list nrule) : list Z -> list Z -> Prop :=
| n_rewriting_end : n_rewriting rules [] []
| n_rewriting_keep x rest out : n_choice rules (map name (x :: rest)) 255 -> n_rewriting rules rest out -> n_rewriting rules (x :: rest) (x :: out)
| n_rewriting_apply m r h b t rest out : nth_error rules m = Some r -> map name h = n_head r -> map name b = n_body r -> map name t = n_tail r ->
    n_choice rules (map name (h ++ b ++ t ++ rest)) (Z.of_nat m) ->
    n_rewriting rules rest out -> n_rewriting rules (h ++ b ++ t ++ rest) (h ++ n_out r ++ t ++ out).

(** ** The rules a tester is given *)
Definition lettered_rule (k : tester_kind) (sets : set_reader) (d : list Z) (r : nrule) : Prop :=
  bytes d /\ rule_Condition d = Ok (n_cond r) /\ rule_HeadLen d = Ok (zlen (n_head r)) /\ rule_BodyLen d = Ok (zlen (n_body r)) /\ rule_TailLen d = Ok (zlen (n_tail r)) /\
  tk_out k d = Ok (n_out r) /\ exists es, scan (tk_kind k) d = Ok es /\ Forall2 (stands (tk_kind k) sets) es (n_pattern r).

Lemma lettered_sizes k sets d r : lettered_rule k sets d r -> k_min (tk_kind k) <= zlen d /\ n_body r <> [] /\ zlen (n_pattern r) <= 255 /\ rule_InLen d = Ok (zlen (n_pattern r)).
Proof.
  intros (Hby & _ & Hh & Hb & Ht & _ & es & Hs & _). destruct (scan_checks _ _ _ Hs) as (Hm & o & h & b & t & Ho' & Hh' & Hb' & Ht' & H1 & H2 & H3 & H4).
  unfold rule_HeadLen, rule_BodyLen, rule_TailLen in *. rewrite Hh in Hh'. injection Hh' as <-. rewrite Hb in Hb'. injection Hb' as <-. rewrite Ht in Ht'. injection Ht' as <-.
  split; [exact Hm|]. assert (K : forall i x, zget d i = Ok x -> byte x) by (intros i x E; exact (proj1 (Forall_forall _ _) Hby x (zget_in _ _ _ E))).
  pose proof (K _ _ Hb). pose proof (K _ _ Hh). pose proof (K _ _ Ht). pose proof (K _ _ Ho'). unfold byte in *.
  assert (Hsum : zlen (n_head r) + zlen (n_body r) <= 255) by (revert H3; unfold u8; lia).
  assert (Hsum' : zlen (n_head r) + zlen (n_body r) + zlen (n_tail r) <= 255) by (revert H4; unfold u8; lia).
  split; [intros E; rewrite E, zlen_nil in H2; lia|]. unfold n_pattern. rewrite !zlen_app. split; [lia|].
  unfold rule_InLen. rewrite Hh, Hb, Ht. cbn [bind]. f_equal. unfold u8. lia.
Qed.
Lemma lettered_ne k sets d r : lettered_rule k sets d r -> n_pattern r <> [].
Proof. intros H. destruct (lettered_sizes _ _ _ _ H) as (_ & H1 & _). unfold n_pattern. destruct (n_head r); [|discriminate]. destruct (n_body r); [contradiction|discriminate]. Qed.

Lemma lettered_own k sets c data rules : Forall2 (lettered_rule k sets) data rules -> forall from, 0 <= from -> from + zlen rules <= 254 ->
  exists own, rules_with c from data = Ok own /\ Forall2 (pattern_of (tk_kind k) sets) own (patterns (filter (fun e => r_cond (fst e) =? c) (numbered from (map flattened rules)))) /\
    (headless rules -> Forall (fun d => zget (fst d) 1 = Ok 0) own).
Proof.
  induction 1 as [|d r ds rs Hd _ IH]; intros from H0 H; cbn [rules_with numbered filter patterns map].
  { exists []. split; [reflexivity|]. split; constructor. }
  rewrite zlen_cons in H. pose proof (zlen_nonneg rs). pose proof (lettered_ne _ _ _ _ Hd) as Hp. destruct Hd as (_ & Hc & Hh & _ & _ & _ & es & Hs & Hx). rewrite Hc. cbn [bind].
  destruct (IH (from + 1) ltac:(lia) ltac:(lia)) as (own & -> & HF & HH). cbn [bind fst flattened r_cond]. destruct (n_cond r =? c).
  - eexists. split; [reflexivity|]. split.
    + cbn [patterns map]. constructor; [|exact HF]. unfold pattern_of. cbn [fst snd]. rewrite flattened_pattern. rewrite u8_id by (unfold byte; lia). split; [|auto]. eauto.
    + intros Hl. inversion Hl as [|? ? Hl1 Hl2]; subst. constructor; [|exact (HH Hl2)]. cbn [fst]. unfold rule_HeadLen in Hh. rewrite Hh, Hl1. reflexivity.
  - eexists. split; [reflexivity|]. split; [exact HF|]. intros Hl. inversion Hl; subst. auto.
Qed.

(** A tree that lets no element of a head pass *)
Definition blocking (states : list state) : Prop := exists st, zget states 0 = Ok st /\ s_max st = 0.

Section Rules.
  Variables (k : tester_kind) (sets : set_reader) (data : list (list Z)) (rules : list nrule).
  Hypothesis Hrules : Forall2 (lettered_rule k sets) data rules.

  Lemma n_rules_at m r : nth_error rules m = Some r -> exists d, zget data (Z.of_nat m) = Ok d /\ lettered_rule k sets d r.
  Proof. exact (Forall2_zget _ _ _ Hrules m r). Qed.
  Lemma n_rules_with c : zlen rules <= 254 -> exists own, rules_with c 0 data = Ok own /\ Forall2 (pattern_of (tk_kind k) sets) own (n_group c rules) /\
    (headless rules -> Forall (fun d => zget (fst d) 1 = Ok 0) own).
  Proof. intros Hl. apply (lettered_own k sets c data rules Hrules 0); lia. Qed.

  (** ** The trees *)
  Hypothesis Hmany : zlen rules <= 254.
  Variable cap : Z.
  Hypothesis Hcap : 1 <= cap.
  Hypothesis Hfit : Forall (fun r => zlen (n_pattern r) <= cap) rules.

  Definition n_trees_ok (l : list (list state * Z * bool)) : Prop :=
    Forall (fun s => good_named (fst (fst s)) (n_group (snd (fst s)) rules) /\ (headless rules -> blocking (fst (fst s)))) l /\
    Forall (fun r => In (n_cond r) (map (fun s => snd (fst s)) l)) rules.
  (** [tail] elements at the start of the accumulator have already been reported. *)
  Definition n_runs (t : tester) (w : list Z) (tail : Z) : Prop :=
    ts_rules t = data /\ n_trees_ok (map static (ts_trees t)) /\ holds (ts_acc t) w cap /\ ts_tail t = tail.

  Lemma n_frame_runs t t' w w' a b : frame t t' -> n_runs t w a -> holds (ts_acc t') w' cap -> ts_tail t' = b -> n_runs t' w' b.
  Proof. intros (H1 & H2 & _) (R1 & R2 & _) Hh Ht. unfold n_runs. rewrite H1, H2. auto. Qed.

  Lemma n_feed_one i w g : good_named (d_states (i_tree i)) (n_group (i_cond i) rules) -> fed (d_states (i_tree i)) w = Ok (i_tree i) ->
    exists d, (if d_scanning (i_tree i) then tree_Feed (i_tree i) g else Ok (i_tree i)) = Ok d /\ d_states d = d_states (i_tree i) /\ fed (d_states (i_tree i)) (w ++ [g]) = Ok d.
  Proof.
    intros G F. destruct (G (w ++ [g])) as (d & Hd & Hs & _). exists d. split; [|split; [exact Hs|exact Hd]].
    unfold fed in *. rewrite ofold_app, F in Hd. cbn [bind ofold] in Hd. apply bind_ok in Hd. destruct Hd as (d' & Hd & E). injection E as <-. exact Hd.
  Qed.
  Lemma n_feed_ok t w g : n_trees_ok (map static (ts_trees t)) -> trees_at w (ts_trees t) ->
    exists t', treesFeedUnrestrictedGlyph t g = Ok (t', scanning (ts_trees t')) /\ frame t t' /\ trees_at (w ++ [g]) (ts_trees t') /\ ts_acc t' = ts_acc t /\ ts_tail t' = ts_tail t.
  Proof.
    intros [G _] F. unfold treesFeedUnrestrictedGlyph, feed_trees.
    assert (K : exists l', omap (fun i => if d_scanning (i_tree i) then do d <- tree_Feed (i_tree i) g; Ok (with_tree i d) else Ok i) (ts_trees t) = Ok l' /\
      map static l' = map static (ts_trees t) /\ trees_at (w ++ [g]) l').
    { induction (ts_trees t) as [|i l IH]; cbn [omap map] in *; [exists []; repeat split; constructor|]. inversion G as [|? ? [G1 _] G2]; subst. inversion F as [|? ? F1 F2]; subst.
      destruct (IH G2 F2) as (l' & E & H1 & H2). cbn [static fst snd] in G1. destruct (n_feed_one i w g G1 F1) as (d & Hd & Hs & Hf).
      exists (with_tree i d :: l'). split.
      - destruct (d_scanning (i_tree i)); [rewrite Hd; cbn [bind]; rewrite E; reflexivity|]. injection Hd as <-. cbn [bind]. rewrite E. cbn [bind]. destruct i; reflexivity.
      - cbn [map]. rewrite H1. split; [unfold static at 1; cbn [with_tree i_tree i_cond i_resync]; rewrite Hs; reflexivity|].
        constructor; [cbn [with_tree i_tree]; rewrite Hs; exact Hf|exact H2]. }
    destruct K as (l' & -> & H1 & H2). cbn [bind]. exists (with_trees t l'). split; [reflexivity|]. split; [split; [reflexivity|]; split; [exact H1|]; split; reflexivity|].
    split; [exact H2|]. split; reflexivity.
  Qed.
  (** An element that has already been reported stops all trees. *)
  Lemma n_block_ok t g : n_trees_ok (map static (ts_trees t)) -> headless rules -> trees_at [] (ts_trees t) -> ts_tail t = 1 ->
    exists t', treesFeedHeadGlyph t g = Ok (t', false) /\ frame t t' /\ treesGetBestMatch t' = 255 /\ ts_acc t' = ts_acc t /\ ts_tail t' = 1.
  Proof.
    intros [G _] Hl F Ht. unfold treesFeedHeadGlyph, feed_trees. rewrite Ht.
    assert (K : exists l', omap (fun i => if d_scanning (i_tree i) then do d <- tree_FeedHead (i_tree i) g 1; Ok (with_tree i d) else Ok i) (ts_trees t) = Ok l' /\
      map static l' = map static (ts_trees t) /\ existsb (fun i => d_scanning (i_tree i)) l' = false /\ Forall (fun i => d_best (i_tree i) = 255) l').
    { induction (ts_trees t) as [|i l IH]; cbn [omap map] in *; [exists []; repeat split; constructor|]. inversion G as [|? ? [_ G1] G2]; subst. inversion F as [|? ? F1 F2]; subst.
      destruct (IH G2 F2) as (l' & E & H1 & H2 & H3). cbn [static fst snd] in G1. specialize (G1 Hl). destruct G1 as (st & Hst & Hmax).
      unfold fed in F1. cbn [ofold] in F1. injection F1 as F1.
      assert (E1 : d_scanning (i_tree i) = true /\ d_index (i_tree i) = 0 /\ d_best (i_tree i) = 255) by (rewrite <- F1; repeat split). destruct E1 as (E1 & E2 & E3).
      rewrite E1, E. unfold tree_FeedHead. rewrite E1. cbn [negb]. rewrite E2, Hst. cbn [bind]. unfold SatisfiesMinRequiredHead. rewrite Hmax.
      replace ((1 >=? s_min st) && (1 <=? 0)) with false by (destruct (1 >=? s_min st); reflexivity). cbn [bind].
      eexists. split; [reflexivity|]. cbn [map]. rewrite H1. split; [reflexivity|]. split; [cbn [existsb with_tree i_tree d_scanning orb]; exact H2|]. constructor; [exact E3|exact H3]. }
    destruct K as (l' & -> & H1 & H2 & H3). cbn [bind]. exists (with_trees t l'). rewrite H2. split; [reflexivity|]. split; [split; [reflexivity|]; split; [exact H1|]; split; reflexivity|].
    split; [|split; [reflexivity|exact Ht]]. unfold treesGetBestMatch. cbn [with_trees ts_trees]. clear - H3. induction H3 as [|i l' H _ IH]; cbn [fold_left]; [reflexivity|].
    rewrite H. exact IH.
  Qed.

  Lemma n_group_range c xs i : In (xs, i) (n_group c rules) -> 0 <= i < 255.
  Proof. intros Hin. destruct (group_in _ _ _ _ Hin) as [H _]. rewrite zlen_map in H. lia. Qed.
  Lemma n_min_choice l input : Forall (fun i => best_match (n_group (i_cond i) rules) input (d_best (i_tree i))) l ->
    Forall (fun r => In (n_cond r) (map i_cond l)) rules ->
    n_choice rules input (fold_left (fun best i => if d_best (i_tree i) <? best then d_best (i_tree i) else best) l 255).
  Proof.
    intros HB HC. apply min_choice; [rewrite zlen_map; exact Hmany|exact HB|]. apply Forall_map. exact HC.
  Qed.
  Lemma n_decide t w : n_trees_ok (map static (ts_trees t)) -> trees_at w (ts_trees t) ->
    n_choice rules (map name w) (treesGetBestMatch t) /\ (scanning (ts_trees t) = false -> forall z, n_choice rules (map name (w ++ z)) (treesGetBestMatch t)).
  Proof.
    intros [G C] F. rewrite map_static_cond in C. rewrite Forall_map in G. unfold treesGetBestMatch. split.
    - apply n_min_choice; [|exact C]. apply Forall_forall. intros i Hi. pose proof (proj1 (Forall_forall _ _) G i Hi) as [Gi _]. pose proof (proj1 (Forall_forall _ _) F i Hi) as Fi.
      cbn [static fst snd] in Gi. cbv beta in Fi. destruct (Gi w) as (d & Hd & _ & Hb & _). rewrite Fi in Hd. injection Hd as <-. exact Hb.
    - intros Hs z. apply n_min_choice; [|exact C]. apply Forall_forall. intros i Hi. pose proof (proj1 (Forall_forall _ _) G i Hi) as [Gi _]. pose proof (proj1 (Forall_forall _ _) F i Hi) as Fi.
      cbn [static fst snd] in Gi. cbv beta in Fi. destruct (Gi w) as (d & Hd & _ & _ & _ & Hb). rewrite Fi in Hd. injection Hd as <-. apply Hb.
      destruct (d_scanning (i_tree i)) eqn:E; [|reflexivity]. exfalso. assert (scanning (ts_trees t) = true); [|congruence].
      apply existsb_exists. exists i. split; [exact Hi|exact E].
  Qed.
  Lemma n_scanning_short t w : n_trees_ok (map static (ts_trees t)) -> trees_at w (ts_trees t) -> scanning (ts_trees t) = true -> zlen w < cap.
  Proof.
    intros [G _] F Hs. rewrite Forall_map in G. apply existsb_exists in Hs. destruct Hs as (i & Hi & Hs). pose proof (proj1 (Forall_forall _ _) G i Hi) as [Gi _].
    pose proof (proj1 (Forall_forall _ _) F i Hi) as Fi. cbn [static fst snd] in Gi. cbv beta in Fi. destruct (Gi w) as (d & Hd & _ & _ & Hb & _). rewrite Fi in Hd. injection Hd as <-.
    destruct (Hb Hs) as [->|(xs & j & q & Hin & E & Hq)]; [rewrite zlen_nil; lia|]. destruct (group_in _ _ _ _ Hin) as (_ & r & Hr & E' & _).
    apply nth_error_In in Hr. apply in_map_iff in Hr. destruct Hr as (r' & <- & Hr). rewrite flattened_pattern in E'.
    pose proof (proj1 (Forall_forall _ _) Hfit r' Hr) as Hl. cbv beta in Hl. rewrite <- E', E, zlen_app, zlen_map in Hl.
    destruct q as [|y q]; [contradiction|]. rewrite zlen_cons in Hl. pose proof (zlen_nonneg q). lia.
  Qed.

  (** ** Applying the choice *)
  Lemma map_app_inv (f : Z -> Z) : forall a w b, map f w = a ++ b -> exists u v, w = u ++ v /\ map f u = a /\ map f v = b.
  Proof.
    induction a as [|x a IH]; intros w b E; [exists [], w; auto|]. destruct w as [|y w]; [discriminate|]. cbn [map app] in E. injection E as E1 E2.
    destruct (IH _ _ E2) as (u & v & -> & H1 & H2). exists (y :: u), v. cbn [map app]. rewrite H1, E1. auto.
  Qed.
  Lemma n_choice_rule m w : n_choice rules (map name w) m -> m <> 255 ->
    exists r h b t rest, nth_error rules (Z.to_nat m) = Some r /\ w = h ++ b ++ t ++ rest /\ map name h = n_head r /\ map name b = n_body r /\ map name t = n_tail r /\ 0 <= m.
  Proof.
    intros H Hm. destruct (choice_rule _ _ _ H Hm) as (r & rest & Hn & E & H0). rewrite nth_error_map in Hn. destruct (nth_error rules (Z.to_nat m)) as [r'|]; [|discriminate].
    injection Hn as <-. rewrite flattened_pattern in E. unfold n_pattern in E. rewrite <- !app_assoc in E.
    destruct (map_app_inv _ _ _ _ E) as (h & v & -> & H1 & H2). destruct (map_app_inv _ _ _ _ H2) as (b & v' & -> & H3 & H4). destruct (map_app_inv _ _ _ _ H4) as (t & z & -> & H5 & _).
    exists r', h, b, t, z. auto 8.
  Qed.
  Hypothesis Htails : n_tails rules.
  (** rewriting what follows the first [tail] elements of [w] *)
  Definition goes_on (tail : Z) (w z o : list Z) : Prop := exists u v, w = u ++ v /\ zlen u = tail /\ n_rewriting rules (v ++ z) o.
  Lemma goes_on_0 w z o : goes_on 0 w z o <-> n_rewriting rules (w ++ z) o.
  Proof.
    split; [|intros H; exists [], w; auto]. intros (u & v & -> & Hu & H). destruct u; [exact H|]. rewrite zlen_cons in Hu. pose proof (zlen_nonneg u). lia.
  Qed.
  Definition tail_fits (tail : Z) (w : list Z) : Prop := tail = 0 \/ (tail = 1 /\ headless rules /\ w <> []).
  Lemma n_act_ok t w m out : n_runs t w 0 -> n_choice rules (map name w) m -> w <> [] ->
    exists t' w' o tail, act k t m out = Ok (t', out ++ o) /\ n_runs t' w' tail /\ tail_fits tail w' /\ frame t t' /\ trees_at [] (ts_trees t') /\ zlen w' < zlen w /\
      forall z o', n_choice rules (map name (w ++ z)) m -> goes_on tail w' z o' -> n_rewriting rules (w ++ z) (o ++ o').
  Proof.
    intros R Hm Hw. pose proof R as (R1 & R2 & R3 & R4). unfold act. destruct (Z.eqb_spec m 255) as [->|Hne].
    - destruct w as [|x w]; [contradiction|]. destruct (pop_ok _ _ _ _ R3) as (a & E & Ha). unfold popOldestGlyph. rewrite E. cbn [bind]. change (ts_tail (with_acc t a)) with (ts_tail t). rewrite R4. cbn [Z.gtb Z.compare].
      destruct (restart_ok (with_acc t a)) as (t' & E' & Hf & Hat & Hacc & Htl). rewrite E'. cbn [bind]. exists t', w, [x], 0. split; [reflexivity|].
      assert (Hft : frame t t') by (destruct Hf as (F1 & F2 & F3 & F4); repeat split; assumption).
      split; [apply (n_frame_runs t t' (x :: w) w 0); [exact Hft|exact R|rewrite Hacc; exact Ha|rewrite Htl; exact R4]|]. split; [left; reflexivity|]. split; [exact Hft|]. split; [exact Hat|].
      split; [rewrite zlen_cons; lia|]. intros z o' Hc Hr. apply goes_on_0 in Hr. cbn [app] in *. apply n_rewriting_keep; assumption.
    - destruct (n_choice_rule _ _ Hm Hne) as (r & h & b & tl & rest & Hn & -> & Nh & Nb & Nt & Hm0). destruct (n_rules_at _ _ Hn) as (d & Hd & Hp). rewrite Z2Nat.id in Hd by lia.
      pose proof (lettered_sizes _ _ _ _ Hp) as (_ & Hbody & _ & _). pose proof Hp as (_ & _ & Hh & Hb & Htl & Ho & _). unfold rewrite_match. replace (m =? 255) with false by lia.
      rewrite R1, Hd. cbn [bind]. rewrite Hh, <- Nh, zlen_map. cbn [bind].
      destruct (head_ok cap h t (b ++ tl ++ rest) out R3 R4) as (a1 & E1 & Ha1). replace (Z.to_nat (zlen h)) with (length h) by (unfold zlen; lia).
      rewrite E1. cbn [bind]. change (ts_tail (with_acc t a1)) with (ts_tail t). rewrite R4. cbn [Z.gtb Z.compare]. rewrite Ho. cbn [bind]. rewrite Hb, <- Nb, zlen_map. cbn [bind].
      replace (Z.to_nat (zlen b)) with (length b) by (unfold zlen; lia).
      destruct (skip_ok cap b (with_acc t a1) (tl ++ rest) Ha1) as (a2 & -> & Ha2). cbn [bind].
      destruct (restart_ok (with_acc (with_acc t a1) a2)) as (t' & -> & Hf & Hat & Hacc & Htl'). cbn [bind]. rewrite Htl, <- Nt, zlen_map. cbn [bind].
      assert (Hft : forall n, frame t (with_tail t' n)) by (intros n; destruct Hf as (F1 & F2 & F3 & F4); repeat split; assumption).
      assert (Hb0 : 0 < zlen b) by (rewrite <- Nb in Hbody; destruct b; [contradiction|]; rewrite zlen_cons; pose proof (zlen_nonneg b); lia).
      assert (Hone : tl = [] \/ (exists y, tl = [y]) /\ headless rules).
      { destruct Htails as [T|T]; pose proof (proj1 (Forall_forall _ _) T r (nth_error_In _ _ Hn)) as Hr; cbv beta in Hr.
        - left. rewrite Hr in Nt. destruct tl; [reflexivity|discriminate].
        - destruct Hr as [_ Hr]. rewrite <- Nt, zlen_map in Hr. destruct tl as [|y [|y' tl]]; [left; reflexivity|right|rewrite !zlen_cons in Hr; pose proof (zlen_nonneg tl); lia].
          split; [eauto|]. unfold headless. eapply Forall_impl; [|exact T]. cbv beta. tauto. }
      destruct Hone as [->|[(y & ->) Hl]].
      + rewrite zlen_nil. cbn [Z.gtb Z.compare app] in *. exists (with_tail t' 0), rest, (h ++ n_out r), 0. split; [rewrite <- app_assoc; reflexivity|].
        split; [apply (n_frame_runs t (with_tail t' 0) (h ++ b ++ rest) rest 0 0 (Hft 0) R); [cbn [with_tail ts_acc]; rewrite Hacc; exact Ha2|reflexivity]|].
        split; [left; reflexivity|]. split; [apply Hft|]. split; [exact Hat|]. split; [rewrite !zlen_app; pose proof (zlen_nonneg h); lia|].
        intros z o' Hc Hr. apply goes_on_0 in Hr. rewrite <- !app_assoc. rewrite <- !app_assoc in Hc.
        exact (n_rewriting_apply rules (Z.to_nat m) r h b [] (rest ++ z) o' Hn Nh Nb Nt ltac:(rewrite Z2Nat.id by lia; exact Hc) Hr).
      + change (zlen [y]) with 1. cbn [Z.gtb Z.compare app] in *. change (ts_acc (with_tail t' 1)) with (ts_acc t'). rewrite Hacc. cbn [with_acc ts_acc].
        rewrite (holds_head _ _ _ _ Ha2). cbn [bind]. change (Z.to_nat (1 - 1)) with O. cbn [report_tail].
        exists (with_tail t' 1), (y :: rest), (h ++ n_out r ++ [y]), 1. split; [rewrite <- !app_assoc; reflexivity|].
        split; [apply (n_frame_runs t (with_tail t' 1) (h ++ b ++ y :: rest) (y :: rest) 0 1 (Hft 1) R); [cbn [with_tail ts_acc]; rewrite Hacc; exact Ha2|reflexivity]|].
        split; [right; split; [reflexivity|]; split; [exact Hl|discriminate]|]. split; [apply Hft|]. split; [exact Hat|]. split; [rewrite !zlen_app, !zlen_cons; pose proof (zlen_nonneg h); lia|].
        intros z o' Hc (u & v & E & Hu & Hr). destruct u as [|u0 [|u1 u]]; [rewrite zlen_nil in Hu; lia| |rewrite !zlen_cons in Hu; pose proof (zlen_nonneg u); lia].
        cbn [app] in E. injection E as <- <-. rewrite <- !app_assoc. rewrite <- !app_assoc in Hc. cbn [app] in *.
        exact (n_rewriting_apply rules (Z.to_nat m) r h b [y] (rest ++ z) o' Hn Nh Nb Nt ltac:(rewrite Z2Nat.id by lia; exact Hc) Hr).
  Qed.
End Rules.
End Named.
