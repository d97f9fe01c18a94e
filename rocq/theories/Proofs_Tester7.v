(** Decision trees of rules without heads: no state lets an element of a head pass. *)
From Verif Require Import Base BaseFacts Model_Helpers Model_Scanner Model_Tree Spec_Tree Proofs_Tree Proofs_Tree2 Proofs_Tree3 Proofs_Tree4.

Definition flat (c : compiler) : Prop := Forall (fun s => s_max s = 0) (c_states c).
Definition keeps (o : outcome compiler) : Prop := forall c, o = Ok c -> flat c.
Definition keeps2 {A} (o : outcome (compiler * A)) : Prop := forall c a, o = Ok (c, a) -> flat c.

Lemma keeps_ok c : flat c -> keeps (Ok c).
Proof. intros H c' [= <-]. exact H. Qed.
Lemma keeps2_ok {A} c (a : A) : flat c -> keeps2 (Ok (c, a)).
Proof. intros H c' a' [= <- _]. exact H. Qed.
Lemma keeps_bind {A} (o : outcome A) k : (forall a, o = Ok a -> keeps (k a)) -> keeps (bind o k).
Proof. intros H c E. apply bind_ok in E. destruct E as (a & E1 & E2). exact (H a E1 c E2). Qed.
Lemma keeps2_bind {A B} (o : outcome A) (k : A -> outcome (compiler * B)) : (forall a, o = Ok a -> keeps2 (k a)) -> keeps2 (bind o k).
Proof. intros H c b E. apply bind_ok in E. destruct E as (a & E1 & E2). exact (H a E1 c b E2). Qed.
Lemma keeps_not (o : outcome compiler) : (forall c, o <> Ok c) -> keeps o.
Proof. intros H c E. destruct (H c E). Qed.
Lemma keeps2_not {A} (o : outcome (compiler * A)) : (forall c, o <> Ok c) -> keeps2 o.
Proof. intros H c a E. destruct (H _ E). Qed.
Ltac keep :=
  lazymatch goal with
  | |- keeps (if ?b then _ else _) => destruct b; keep
  | |- keeps2 (if ?b then _ else _) => destruct b; keep
  | |- keeps (Ok _) => apply keeps_ok; try assumption
  | |- keeps2 (Ok _) => apply keeps2_ok; try assumption
  | |- keeps (Err _) => apply keeps_not; discriminate
  | |- keeps Panic => apply keeps_not; discriminate
  | |- keeps Hang => apply keeps_not; discriminate
  | |- keeps2 (Err _) => apply keeps2_not; discriminate
  | |- keeps2 Panic => apply keeps2_not; discriminate
  | |- keeps2 Hang => apply keeps2_not; discriminate
  | |- keeps hit_limits => apply keeps_not; discriminate
  | |- keeps2 hit_limits => apply keeps2_not; discriminate
  | |- keeps not_modelled => apply keeps_not; discriminate
  | |- keeps2 not_modelled => apply keeps2_not; discriminate
  | |- _ => idtac
  end.

Lemma flat_get c i st : flat c -> zget (c_states c) i = Ok st -> s_max st = 0.
Proof. intros H E. exact (proj1 (Forall_forall _ _) H st (zget_in _ _ _ E)). Qed.
Lemma flat_set c i st states : flat c -> s_max st = 0 -> zset (c_states c) i st = Ok states -> flat (with_states c states).
Proof.
  unfold flat. cbn [c_states with_states]. intros H Hs E. unfold zset in E. destruct (_ && _); [|discriminate]. injection E as <-.
  revert H. generalize (Z.to_nat i). induction (c_states c) as [|x l IH]; intros n H; [destruct n; exact H|]. inversion H; subst.
  destruct n; cbn [upd]; constructor; auto.
Qed.
Section Flat.
  Variable k : kind.
  Lemma set_transition_flat c i j f : flat c -> keeps (set_transition c i j f).
  Proof.
    intros H. unfold set_transition. apply keeps_bind. intros st E1. apply keeps_bind. intros t _. apply keeps_bind. intros ts _. apply keeps_bind. intros states E2.
    apply keeps_ok. refine (flat_set _ _ _ _ H _ E2). exact (flat_get c _ _ H E1).
  Qed.
  Lemma insert_flat c i a b : flat c -> keeps2 (unsafeInsertUninitializedTransition c i a b).
  Proof.
    intros H. unfold unsafeInsertUninitializedTransition. keep. apply keeps2_bind. intros st E1. keep. apply keeps2_bind. intros n _. apply keeps2_bind. intros states E2.
    apply keeps2_ok. refine (flat_set _ _ _ _ H _ E2). exact (flat_get c _ _ H E1).
  Qed.
  Lemma fetch_flat c : flat c -> keeps2 (fetchFreedOrNewState c).
  Proof.
    intros H. unfold fetchFreedOrNewState. destruct (c_freed c); keep. unfold flat. cbn. apply Forall_app. split; [exact H|repeat constructor].
  Qed.
  Lemma states_flat c c' : flat c -> c_states c' = c_states c -> flat c'.
  Proof. unfold flat. intros H ->. exact H. Qed.
  Lemma uses_flat c i d : flat c -> keeps (adjustStateUseCount c i d).
  Proof.
    intros H. unfold adjustStateUseCount. keep. apply keeps_bind. intros [uses result] _. keep. apply keeps_bind. intros u _. apply keeps_ok. exact H.
  Qed.
  Lemma round_flat c i : flat c -> keeps (appendStateToNextRound c i).
  Proof. intros H. unfold appendStateToNextRound. apply keeps_bind. intros t _. apply keeps_ok. exact H. Qed.
  Lemma rules_ref_flat c i r : flat c -> keeps (initializeStateRulesWithRef c i r).
  Proof.
    intros H. unfold initializeStateRulesWithRef. keep. do 4 (apply keeps_bind; intros ? _). apply keeps_bind. intros ? _. apply keeps_bind. intros ? _. apply keeps_ok. exact H.
  Qed.
  Lemma rules_flat c i : flat c -> keeps (initializeStateRules c i).
  Proof. intros H. unfold initializeStateRules. keep. do 2 (apply keeps_bind; intros ? _). apply keeps_ok. exact H. Qed.
  Lemma register_flat c i : flat c -> keeps (registerNewStateAtDepth c i).
  Proof. intros H. unfold registerNewStateAtDepth. do 4 (apply keeps_bind; intros ? _). apply keeps_ok. exact H. Qed.
  Lemma linker_flat c r n : flat c -> keeps2 (stateLinker c r n).
  Proof.
    intros H. unfold stateLinker. apply keeps2_bind. intros reusable _. apply keeps2_bind. intros [c1 result] E1.
    assert (H1 : flat c1).
    { revert E1. destruct (reusable =? 255); [|intros [= <- _]; exact H]. revert c1 result. change (keeps2 (do ' (c, result) <- fetchFreedOrNewState c;
         do c <- (if negb (r =? 255) then do other <- zget (c_states c) r; do states <- zset (c_states c) result other; initializeStateRulesWithRef (with_states c states) result r
                  else do states <- zset (c_states c) result state_empty; initializeStateRules (with_states c states) result);
         do c <- registerNewStateAtDepth c result; Ok (c, result))).
      apply keeps2_bind. intros [c0 i] E0. pose proof (fetch_flat _ H _ _ E0) as H0. apply keeps2_bind. intros c1 E1.
      assert (H1 : flat c1).
      { revert c1 E1. change (keeps (if negb (r =? 255) then do other <- zget (c_states c0) r; do states <- zset (c_states c0) i other; initializeStateRulesWithRef (with_states c0 states) i r
          else do states <- zset (c_states c0) i state_empty; initializeStateRules (with_states c0 states) i)). keep.
        - apply keeps_bind. intros other E. apply keeps_bind. intros states E'. apply rules_ref_flat. exact (flat_set _ _ _ _ H0 (flat_get _ _ _ H0 E) E').
        - apply keeps_bind. intros states E'. apply rules_flat. exact (flat_set _ _ state_empty _ H0 eq_refl E'). }
      apply keeps2_bind. intros c2 E2. apply keeps2_ok. exact (register_flat _ _ H1 _ E2). }
    apply keeps2_bind. intros c2 E2. pose proof (round_flat _ _ H1 _ E2) as H2. apply keeps2_bind. intros c3 E3. pose proof (uses_flat _ _ _ H2 _ E3) as H3. keep.
    apply keeps2_bind. intros c4 E4. apply keeps2_ok. exact (uses_flat _ _ _ H3 _ E4).
  Qed.
  Lemma new_transition_flat c i a b m n : flat c -> keeps (insertNewTransition c i a b m n).
  Proof.
    intros H. unfold insertNewTransition. apply keeps_bind. intros [c1 j] E1. pose proof (insert_flat _ _ _ _ H _ _ E1) as H1. keep.
    - apply keeps_bind. intros [c2 s] E2. apply set_transition_flat. exact (linker_flat _ _ _ H1 _ _ E2).
    - apply set_transition_flat. exact H1.
  Qed.
  Lemma link_flat c i j m n : flat c -> keeps (Link c i j m n).
  Proof.
    intros H. unfold Link. do 2 (apply keeps_bind; intros ? _). keep; [apply set_transition_flat; exact H|]. apply keeps_bind. intros [c2 s] E2. apply set_transition_flat. exact (linker_flat _ _ _ H _ _ E2).
  Qed.
  Lemma split_at_flat c i j x : flat c -> keeps (splitTransitionAt k c i j x).
  Proof.
    intros H. unfold splitTransitionAt. do 2 (apply keeps_bind; intros ? _). keep. apply keeps_bind. intros c1 E1. pose proof (set_transition_flat _ _ _ _ H _ E1) as H1.
    apply keeps_bind. intros [c2 n] E2. pose proof (insert_flat _ _ _ _ H1 _ _ E2) as H2. keep. do 2 (apply keeps_bind; intros ? _). apply set_transition_flat. exact H2.
  Qed.
  Lemma split_by_flat c i j a b : flat c -> keeps (splitTransitionBy k c i j a b).
  Proof. intros H. unfold splitTransitionBy. apply keeps_bind. intros c1 E1. apply split_at_flat. exact (split_at_flat _ _ _ _ H _ E1). Qed.
  Lemma append_loop_flat fuel : forall c i a b m x, flat c -> keeps (append_loop k fuel c i a b m x).
  Proof.
    induction fuel as [|n IH]; intros c i a b m x H; cbn [append_loop]; apply keeps_bind; intros st _; keep; try (apply new_transition_flat; exact H).
    apply keeps_bind. intros t _. destruct (confrontRanges k (t_first t, t_last t) (a, b)) as [[] [u v]].
    - apply keeps_bind. intros c1 E1. apply IH. exact (new_transition_flat _ _ _ _ _ _ H _ E1).
    - apply keeps_bind. intros c1 E1. apply link_flat. exact (split_at_flat _ _ _ _ H _ E1).
    - apply keeps_bind. intros c1 E1. apply IH. exact (link_flat _ _ _ _ _ H _ E1).
    - apply keeps_bind. intros c1 E1. apply link_flat. exact (split_by_flat _ _ _ _ _ H _ E1).
    - apply keeps_bind. intros c1 E1. apply keeps_bind. intros c2 E2. apply IH. exact (link_flat _ _ _ _ _ (split_by_flat _ _ _ _ _ H _ E1) _ E2).
    - apply IH. exact H.
  Qed.
  Lemma append_flat c i a b m : flat c -> keeps (AppendRange k c i a b m).
  Proof. intros H. unfold AppendRange. apply keeps_bind. intros st _. apply keeps_bind. intros [x y] _. apply append_loop_flat. exact H. Qed.

  Context {AB : alphabet}.
  Variable sets : set_reader.
  Lemma feed_state_flat e a m c i : stands k sets e a -> flat c -> keeps (feed_state k sets 0 e m c i).
  Proof.
    intros S H. unfold feed_state. apply keeps_bind. intros st E1. apply keeps_bind. intros states E2.
    assert (H1 : flat (with_states c states)).
    { apply (flat_set _ _ _ _ H) with (2 := E2). unfold UpdateHeadLen. cbn [s_max]. rewrite (flat_get _ _ _ H E1). reflexivity. }
    destruct e as [s|x]; [|apply append_flat; exact H1]. keep. destruct S as (_ & _ & _ & S). rewrite S. unfold append_callback. cbn [fst bind]. apply append_flat. exact H1.
  Qed.
  Lemma next_round_flat c : flat c -> keeps2 (next_round c).
  Proof.
    intros H. unfold next_round. apply keeps2_bind. intros c1 E1. assert (H1 : flat c1).
    { revert E1. unfold freeUnusedStates. destruct (c_depth c =? 0); [intros [= <-]; exact H|]. intros E. apply bind_ok in E. destruct E as (l & _ & E). apply bind_ok in E. destruct E as ([free kept] & _ & E).
      apply bind_ok in E. destruct E as (d & _ & E). injection E as <-. exact H. }
    keep.
  Qed.
  Lemma feed_states_flat e a m : stands k sets e a -> forall from c, flat c -> keeps (ofold (feed_state k sets 0 e m) from c).
  Proof.
    intros S. induction from as [|i from IH]; intros c H; cbn [ofold]; [keep|]. apply keeps_bind. intros c1 E1. apply IH. exact (feed_state_flat _ _ _ _ _ S H _ E1).
  Qed.
  Lemma feed_loop_flat fuel : forall s es xs c from, scan_loop fuel k s = Ok es -> Forall2 (stands k sets) es xs -> flat c -> keeps (feed_loop k sets fuel 0 s c from).
  Proof.
    induction fuel as [|n IH]; intros s es xs c from E HF H; cbn [feed_loop scan_loop] in *; [keep|]. destruct (HasNext s); [|keep].
    apply bind_ok in E. destruct E as ([s1 e] & E1 & E). apply bind_ok in E. destruct E as (es' & E2 & E). injection E as <-.
    rewrite E1. cbn [bind]. inversion HF as [|? a ? xs' S HF']; subst. apply keeps_bind. intros c1 E3. apply keeps_bind. intros [c2 from2] E4.
    apply (IH s1 es' xs'); [exact E2|exact HF'|]. exact (next_round_flat _ (feed_states_flat _ _ _ S _ _ H _ E3) _ _ E4).
  Qed.
  Lemma compiler_flat c d i P : pattern_of k sets (d, i) P -> zget d 1 = Ok 0 -> flat c -> keeps (compiler_Feed k sets c d i).
  Proof.
    intros ((es & Hs & HF) & _) Hh H. unfold compiler_Feed. cbv zeta. cbn [fst] in Hs. unfold scan in Hs. apply bind_ok in Hs. destruct Hs as (s & -> & Hs). cbn [bind]. rewrite Hh. cbn [bind].
    apply (feed_loop_flat _ _ es (fst P)); [exact Hs|exact HF|]. destruct (c_states c) eqn:E; [repeat constructor|]. unfold flat. cbn [c_states]. rewrite <- E. exact H.
  Qed.
  Lemma compile_flat rules P states : Forall2 (pattern_of k sets) rules P -> Forall (fun d => zget (fst d) 1 = Ok 0) rules ->
    compile k sets rules = Ok states -> Forall (fun s => s_max s = 0) states.
  Proof.
    intros HF HH E. unfold compile in E. apply bind_ok in E. destruct E as (c & E & E'). injection E' as <-.
    assert (G : forall c0, flat c0 -> keeps (ofold (fun c r => compiler_Feed k sets c (fst r) (snd r)) rules c0)).
    { clear E. induction HF as [|[d i] p ds ps Hd _ IH]; intros c0 H; cbn [ofold]; [keep|]. inversion HH as [|? ? Hh HH']; subst.
      apply keeps_bind. intros c1 E1. apply (IH HH'). exact (compiler_flat _ _ _ _ Hd Hh H _ E1). }
    exact (G compiler_Begin (Forall_nil _) c E).
  Qed.
End Flat.
