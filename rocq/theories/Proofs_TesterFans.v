(** The rewrite testers with rules that have any sets, no two of which can start with the same element:
    what the trees answer while they are fed. *)
From Verif Require Import Base BaseFacts Spec_Helpers Model_Helpers Spec_Layout Model_Font Model_Rewrites Proofs_Rewrites Model_Scanner Spec_Scanner Proofs_Scanner2 Proofs_Scanner3 Model_CircularBuffer
  Model_Tree Spec_Tree Spec_TreeSets Proofs_Tree Proofs_Tree2 Proofs_Tree3 Proofs_Tree4 Proofs_Tree5 Model_Tester Spec_Tester Spec_Session Proofs_Tester Proofs_Tester2 Proofs_Tester4 Proofs_Tester5 Proofs_Tester7 Spec_TesterSets
  Proofs_Tester8 Proofs_Tester10 Proofs_Tester11 Proofs_Tester12 Spec_Fans Proofs_Fans Proofs_Fans2 Proofs_Any Spec_TesterFans.

(** ** Matching and feeding *)
Lemma feed_same d g d' : feed d g = Ok d' -> d_states d' = d_states d.
Proof.
  unfold feed, tree_Feed. destruct (d_scanning d) eqn:E; [|intros [= <-]; reflexivity]. cbn [negb]. intros H. apply bind_ok in H. destruct H as (st & _ & H).
  apply bind_ok in H. destruct H as ([m next] & _ & H). injection H as <-. reflexivity.
Qed.
Lemma feeds_same w : forall d d', ofold feed w d = Ok d' -> d_states d' = d_states d.
Proof.
  induction w as [|g w IH]; intros d d'; cbn [ofold]; [intros [= <-]; reflexivity|]. intros H. apply bind_ok in H. destruct H as (d1 & H1 & H).
  rewrite (IH _ _ H). exact (feed_same _ _ _ H1).
Qed.
Lemma feeds_stopped w : forall d, d_scanning d = false -> ofold feed w d = Ok d.
Proof. induction w as [|g w IH]; intros d E; cbn [ofold]; [reflexivity|]. unfold feed at 1. rewrite E. cbn [bind]. apply IH. exact E. Qed.
Lemma match_feeds w : forall d, d_scanning d = true -> match_loop d w = (do d <- ofold feed w d; Ok (d_best d)).
Proof.
  induction w as [|g w IH]; intros d E; cbn [match_loop ofold].
  - unfold tree_BreakSequence. rewrite E. reflexivity.
  - unfold feed at 1. rewrite E. destruct (tree_Feed d g) as [d1| | |]; cbn [bind]; try reflexivity. destruct (d_scanning d1) eqn:E1; cbn [negb]; [apply IH; exact E1|].
    rewrite (feeds_stopped w d1 E1). reflexivity.
Qed.
Lemma good_of_match states Q : (forall input, exists m, tree_Match (mkTree states 0 255 false) input = Ok m /\ best_fit Q input m) ->
  (forall w d, fed states w = Ok d -> d_scanning d = true -> w = [] \/ exists xs j, In (xs, j) Q /\ zlen w < zlen xs) -> good_fit states Q.
Proof.
  intros HM HS w. unfold tree_Match, tree_BeginSequence in HM. cbn [d_scanning bind d_states] in HM.
  assert (K : forall w, exists d, fed states w = Ok d /\ best_fit Q w (d_best d)).
  { intros v. destruct (HM v) as (m & E & B). rewrite match_feeds in E by reflexivity. apply bind_ok in E. destruct E as (d & E & E'). injection E' as <-. exists d. split; assumption. }
  destruct (K w) as (d & E & B). exists d. split; [exact E|]. split; [exact (feeds_same _ _ _ E)|]. split; [exact B|]. split; [exact (HS w d E)|].
  intros Hn z. destruct (K (w ++ z)) as (d' & E' & B'). unfold fed in E, E'. rewrite Proofs_Fans2.ofold_app, E in E'. cbn [bind] in E'. rewrite (feeds_stopped z d Hn) in E'. injection E' as <-. exact B'.
Qed.

Section Letters.
  Context {AB : alphabet}.
  Lemma chain_fed states r : 0 <= r < 255 -> forall Ns N st j b w d, zget states j = Ok st -> leads N (chain states Ns r) (s_trans st) ->
    ofold feed w (mkTree states j b true) = Ok d -> d_scanning d = true -> (length w < S (length Ns))%nat.
  Proof.
    intros Hr. induction Ns as [|N' Ns IH]; intros N st j b w d Hst (Ho & Hz & Hl) E Hs; (destruct w as [|x w]; [cbn [length]; lia|]); cbn [ofold] in E; unfold feed at 1, tree_Feed in E;
      cbn [d_scanning d_states d_index d_best negb] in E; rewrite Hst in E; cbn [bind] in E; rewrite Trigger_spec in E by assumption; specialize (Hl (name x));
      (destruct (lookup (s_trans st) (name x)) as [t|]; cbn [bind] in E).
    - destruct Hl as (_ & H2 & _). rewrite H2, Z.eqb_refl in E. cbn [negb] in E. rewrite feeds_stopped in E by reflexivity. injection E as <-. discriminate.
    - rewrite Z.eqb_refl in E. cbn [negb] in E. rewrite feeds_stopped in E by reflexivity. injection E as <-. discriminate.
    - destruct Hl as (_ & H2 & H3 & st' & H4 & H5). rewrite H2, Z.eqb_refl in E. replace (t_next t =? 255) with false in E by lia. cbn [negb] in E.
      specialize (IH N' st' _ _ w d H4 H5 E Hs). cbn [length]. lia.
    - rewrite Z.eqb_refl in E. cbn [negb] in E. rewrite feeds_stopped in E by reflexivity. injection E as <-. discriminate.
  Qed.
  Lemma planted_fed c P r : planted c P r -> (forall Ns i, In (Ns, i) P -> 0 <= i < 255) -> forall w d, fed (c_states c) w = Ok d -> d_scanning d = true ->
    w = [] \/ exists Ns i, In (Ns, i) P /\ zlen w < zlen Ns.
  Proof.
    intros (B & st & Hst & Ho & Hz & Hz' & Hl) HP w d E Hs. destruct w as [|x w]; [left; reflexivity|right]. unfold fed in E. cbn [ofold] in E. unfold feed at 1, tree_Feed in E.
    cbn [d_scanning d_states d_index d_best negb] in E. rewrite Hst in E. cbn [bind] in E. rewrite Trigger_spec in E by (try assumption; lia). specialize (Hl (name x)).
    destruct (lookup (s_trans st) (name x)) as [t|]; cbn [bind] in E.
    - destruct Hl as (N & Ns & i & H1 & _ & H3). exists (N :: Ns), i. split; [exact H1|]. destruct Ns as [|N' Ns].
      + destruct H3 as [H3 _]. rewrite H3, Z.eqb_refl in E. cbn [negb] in E. rewrite feeds_stopped in E by reflexivity. injection E as <-. discriminate.
      + destruct H3 as (H3 & H4 & st' & H5 & H6). rewrite H3, Z.eqb_refl in E. replace (t_next t =? 255) with false in E by lia. cbn [negb] in E.
        pose proof (chain_fed (c_states c) i (HP _ _ H1) Ns N' st' _ _ w d H5 H6 E Hs) as L. unfold zlen. cbn [length]. lia.
    - rewrite Z.eqb_refl in E. cbn [negb] in E. rewrite feeds_stopped in E by reflexivity. injection E as <-. discriminate.
  Qed.
  Lemma fans_fed k sets data P states : Forall2 (fan_of k sets) data P -> data <> [] -> increasing 0 (map snd P) -> NoDup (fan_heads P) -> compile k sets data = Ok states ->
    forall w d, fed states w = Ok d -> d_scanning d = true -> w = [] \/ exists Ns i, In (Ns, i) P /\ zlen w < zlen Ns.
  Proof.
    intros H Hne Hinc Hnd. unfold compile.
    assert (Hne' : P = [] -> c_states compiler_Begin <> []) by (intros ->; inversion H; subst; congruence).
    assert (H0 : planted (rooted compiler_Begin) [] 0).
    { split.
      - constructor; cbn [rooted compiler_Begin c_states c_uses c_rules c_freed c_depths with_states]; rewrite ?zlen_cons, ?zlen_nil; try lia; try reflexivity.
        intros n l Hn. exfalso. unfold zget in Hn. destruct (n <? 0); [discriminate|]. destruct (Z.to_nat n); discriminate.
      - exists state_empty. split; [reflexivity|]. split; [split; constructor|]. split; [reflexivity|]. split; [unfold fan_heads; cbn [map concat]; rewrite zlen_nil; lia|]. intros y. cbn. auto. }
    destruct (compile_planted k sets data P compiler_Begin [] 0 H Hinc ltac:(lia) H0 Hne' Hnd) as [[-> _]|(c & r & -> & Hs & Hp & _)]; [discriminate|].
    cbn [app bind] in *. intros [= <-].
    assert (Hroot : rooted c = c) by (unfold rooted; destruct (c_states c) eqn:E; [contradiction|]; rewrite <- E; destruct c; reflexivity).
    rewrite Hroot in *. apply (planted_fed c P r Hp). intros Ns i Hin.
    assert (K : forall l a, 0 <= a -> increasing a l -> forall i, In i l -> 0 <= i < 255).
    { clear. induction l as [|y l IH]; intros a Ha H i; [intros []|]. cbn [increasing] in H. destruct H as [H1 H2]. intros [->|Hin]; [lia|]. apply (IH (y + 1) ltac:(lia) H2 i Hin). }
    apply (K _ 0 ltac:(lia) Hinc). apply in_map_iff. exists (Ns, i). auto.
  Qed.
End Letters.

(** ** Rules without heads *)
Section Flat.
  Variables (k : kind) (sets : set_reader).
  Definition reads_ranges (e : element) : Prop :=
    match e with
    | Single _ => True
    | InSet s => exists rs, forall state m c, sets s (append_callback k state m) c = ofold (fun c r => AppendRange k c state (fst r) (snd r) m) rs c
    end.
  Lemma appends_flat state m rs : forall c, flat c -> keeps (ofold (fun c r => AppendRange k c state (fst r) (snd r) m) rs c).
  Proof. induction rs as [|r rs IH]; intros c H; cbn [ofold]; [keep|]. apply keeps_bind. intros c1 E1. apply IH. exact (append_flat k _ _ _ _ _ H _ E1). Qed.
  Lemma f_state_flat e m c i : reads_ranges e -> flat c -> keeps (feed_state k sets 0 e m c i).
  Proof.
    intros S H. unfold feed_state. apply keeps_bind. intros st E1. apply keeps_bind. intros states E2.
    assert (H1 : flat (with_states c states)).
    { apply (flat_set _ _ _ _ H) with (2 := E2). unfold UpdateHeadLen. cbn [s_max]. rewrite (flat_get _ _ _ H E1). reflexivity. }
    destruct e as [s|x]; [|apply append_flat; exact H1]. keep. destruct S as (rs & S). rewrite S. apply appends_flat. exact H1.
  Qed.
  Lemma f_states_flat e m : reads_ranges e -> forall from c, flat c -> keeps (ofold (feed_state k sets 0 e m) from c).
  Proof.
    intros S. induction from as [|i from IH]; intros c H; cbn [ofold]; [keep|]. apply keeps_bind. intros c1 E1. apply IH. exact (f_state_flat _ _ _ _ S H _ E1).
  Qed.
  Lemma f_loop_flat fuel : forall s es c from, scan_loop fuel k s = Ok es -> Forall reads_ranges es -> flat c -> keeps (feed_loop k sets fuel 0 s c from).
  Proof.
    induction fuel as [|n IH]; intros s es c from E HF H; cbn [feed_loop scan_loop] in *; [keep|]. destruct (HasNext s); [|keep].
    apply bind_ok in E. destruct E as ([s1 e] & E1 & E). apply bind_ok in E. destruct E as (es' & E2 & E). injection E as <-.
    rewrite E1. cbn [bind]. inversion HF as [|? ? S HF']; subst. apply keeps_bind. intros c1 E3. apply keeps_bind. intros [c2 from2] E4.
    apply (IH s1 es'); [exact E2|exact HF'|]. exact (next_round_flat _ (f_states_flat _ _ S _ _ H _ E3) _ _ E4).
  Qed.
  Lemma f_compile_flat rules states : Forall (fun d => (exists es, scan k (fst d) = Ok es /\ Forall reads_ranges es) /\ zget (fst d) 1 = Ok 0) rules ->
    compile k sets rules = Ok states -> Forall (fun s => s_max s = 0) states.
  Proof.
    intros HF E. unfold compile in E. apply bind_ok in E. destruct E as (c & E & E'). injection E' as <-.
    assert (G : forall c0, flat c0 -> keeps (ofold (fun c r => compiler_Feed k sets c (fst r) (snd r)) rules c0)).
    { clear E. induction HF as [|[d i] ds ((es & Hs & Hr) & Hh) _ IH]; intros c0 H; cbn [ofold]; [keep|]. apply keeps_bind. intros c1 E1. apply IH. revert c1 E1.
      change (keeps (compiler_Feed k sets c0 d i)). cbn [fst] in *. unfold compiler_Feed. cbv zeta. unfold scan in Hs. apply bind_ok in Hs. destruct Hs as (s & -> & Hs). cbn [bind]. rewrite Hh. cbn [bind].
      apply (f_loop_flat _ _ es); [exact Hs|exact Hr|]. destruct (c_states c0) eqn:E; [repeat constructor|]. unfold flat. cbn [c_states]. rewrite <- E. exact H. }
    exact (G compiler_Begin (Forall_nil _) c E).
  Qed.
End Flat.
