(** Proofs about the rewrite testers with rules that may have sets which are ranges, and tails: sequences. *)
From Verif Require Import Base BaseFacts Model_Helpers Model_Font Model_Rewrites Model_Scanner Model_CircularBuffer Spec_CircularBuffer
  Proofs_CircularBuffer Model_Tree Spec_Tree Proofs_Tree Proofs_Tree2 Proofs_Tree3 Proofs_Tree4 Model_Tester Spec_Tester Proofs_Tester Proofs_Tester2 Proofs_Tester3
  Proofs_Tester7 Proofs_Tester8.

Section Sequence.
  Context {AB : alphabet}.
  Variables (k : tester_kind) (sets : set_reader) (data : list (list Z)) (rules : list nrule).
  Hypothesis Hrules : Forall2 (lettered_rule k sets) data rules.
  Hypothesis Hmany : zlen rules <= 254.
  Variable cap : Z.
  Hypothesis Hcap : 1 <= cap.
  Hypothesis Hfit : Forall (fun r => zlen (n_pattern r) <= cap) rules.
  Hypothesis Htails : n_tails rules.
  Notation runs := (n_runs data rules cap).
  Notation rewrites := (n_rewriting rules).
  Notation goes_on := (goes_on rules).
  (** between two calls: the accumulator holds what the trees have been fed *)
  Definition n_waits (t : tester) (w : list Z) : Prop := runs t w 0 /\ trees_at w (ts_trees t) /\ (w = [] \/ scanning (ts_trees t) = true).
  Notation waits := n_waits.

  Lemma n_runs_acc t w a n : runs t w n -> holds a w cap -> runs (with_acc t a) w n.
  Proof. intros (H1 & H2 & H3 & H4) Ha. exact (conj H1 (conj H2 (conj Ha H4))). Qed.

  Lemma n_stop_ok t u g rest out : runs t (u ++ g :: rest) 0 -> trees_at (u ++ [g]) (ts_trees t) -> scanning (ts_trees t) = false ->
    exists t' o w' n, (do ' (t, out) <- (if treesGetBestMatch t =? 255 then popOldestGlyph (with_acc t (cb_DiscardPeeks (ts_acc t))) out
                                       else rewrite_match k t (treesGetBestMatch t) out);
                     Ok (t, out, negb (cb_IsEmpty (ts_acc t)))) = Ok (t', out ++ o, match w' with [] => false | _ => true end) /\ frame t t' /\
      runs t' w' n /\ tail_fits rules n w' /\ trees_at [] (ts_trees t') /\ zlen w' < zlen (u ++ g :: rest) /\
      forall z o', goes_on n w' z o' -> rewrites ((u ++ g :: rest) ++ z) (o ++ o').
  Proof.
    intros R At Es. pose proof R as (R1 & R2 & R3 & R4). destruct (n_decide rules Hmany t (u ++ [g]) R2 At) as [_ Hz]. specialize (Hz Es). set (m := treesGetBestMatch t) in *. clearbody m.
    assert (Hc : n_choice rules (map name (u ++ g :: rest)) m) by (specialize (Hz rest); rewrite <- app_assoc in Hz; exact Hz).
    assert (Hne : u ++ g :: rest <> []) by (destruct u; discriminate).
    set (t0 := if m =? 255 then with_acc t (cb_DiscardPeeks (ts_acc t)) else t).
    assert (R0 : runs t0 (u ++ g :: rest) 0) by (unfold t0; destruct (m =? 255); [apply n_runs_acc; [exact R|exact R3]|exact R]).
    assert (F0 : frame t t0) by (unfold t0; destruct (m =? 255); [apply frame_acc|apply frame_refl]).
    destruct (n_act_ok k sets data rules Hrules cap Htails t0 _ m out R0 Hc Hne) as (t' & w' & o & n & E & R' & Hn & F & At' & Hl & Hrw).
    exists t', o, w', n. split.
    - unfold act, t0 in E. destruct (m =? 255); rewrite E; cbn [bind]; rewrite (holds_empty _ _ _ (proj1 (proj2 (proj2 R')))); destruct w'; reflexivity.
    - split; [exact (frame_trans _ _ _ F0 F)|]. split; [exact R'|]. split; [exact Hn|]. split; [exact At'|]. split; [exact Hl|]. intros z o' Ho. apply Hrw; [|exact Ho].
      specialize (Hz (rest ++ z)). rewrite <- app_assoc in Hz. cbn [app] in Hz. rewrite <- app_assoc. exact Hz.
  Qed.
  Lemma n_rerun_loop_ok : forall n t u g rest depth out, runs t (u ++ g :: rest) 0 -> peeked (ts_acc t) (u ++ g :: rest) cap (length u) ->
    trees_at u (ts_trees t) -> (length rest <= n)%nat -> 0 <= depth ->
    exists t' o again, rerun_loop k n t g depth out = Ok (t', out ++ o, again) /\ frame t t' /\
      ((again = false /\ o = [] /\ waits t' (u ++ g :: rest)) \/
       (exists w' n', runs t' w' n' /\ tail_fits rules n' w' /\ trees_at [] (ts_trees t') /\ zlen w' < zlen (u ++ g :: rest) /\ again = match w' with [] => false | _ => true end /\
          forall z o', goes_on n' w' z o' -> rewrites ((u ++ g :: rest) ++ z) (o ++ o'))).
  Proof.
    induction n as [|n IH]; intros t u g rest depth out R Pk At Hn Hd.
    all: pose proof R as (R1 & R2 & R3 & R4).
    all: destruct (n_feed_ok rules t u g R2 At) as (t1 & E1 & F1 & At1 & Ha1 & Ht1).
    all: assert (Rt1 : runs t1 (u ++ g :: rest) 0) by (apply (n_frame_runs data rules cap t t1 (u ++ g :: rest) _ 0); [exact F1|exact R|rewrite Ha1; exact R3|rewrite Ht1; exact R4]).
    all: cbn [rerun_loop]; unfold treesFeedGlyph; rewrite R4; replace (depth <? 0) with false by lia; rewrite E1; cbn [bind].
    all: destruct (scanning (ts_trees t1)) eqn:Es.
    1, 3: rewrite <- Ha1 in Pk; destruct (peeked_peek _ _ _ _ Pk ltac:(rewrite app_length; cbn [length]; lia)) as (a & Hpk);
      replace (nth_error (u ++ g :: rest) (S (length u))) with (nth_error rest 0) in Hpk by (rewrite nth_error_app2 by lia; replace (S (length u) - length u)%nat with 1%nat by lia; reflexivity).
    - destruct rest as [|g' rest]; [|cbn [length] in Hn; lia]. cbn [nth_error] in Hpk. destruct Hpk as [(x & ->) Hpk]. cbn [bind negb].
      exists (with_acc t1 a), [], false. rewrite app_nil_r. split; [reflexivity|]. split; [exact (frame_trans _ _ _ F1 (frame_acc _ _))|]. left. split; [reflexivity|]. split; [reflexivity|].
      split; [exact (n_runs_acc _ _ _ _ Rt1 (peeked_holds _ _ _ _ Hpk))|]. split; [exact At1|right; exact Es].
    - destruct rest as [|g' rest].
      + cbn [nth_error] in Hpk. destruct Hpk as [(x & ->) Hpk]. cbn [bind negb].
        exists (with_acc t1 a), [], false. rewrite app_nil_r. split; [reflexivity|]. split; [exact (frame_trans _ _ _ F1 (frame_acc _ _))|]. left. split; [reflexivity|]. split; [reflexivity|].
        split; [exact (n_runs_acc _ _ _ _ Rt1 (peeked_holds _ _ _ _ Hpk))|]. split; [exact At1|right; exact Es].
      + cbn [nth_error] in Hpk. destruct Hpk as [-> Hpk]. cbn [bind negb]. cbn [length] in Hn.
        replace (u ++ g :: g' :: rest) with ((u ++ [g]) ++ g' :: rest) in * by (rewrite <- app_assoc; reflexivity).
        destruct (IH (with_acc t1 a) (u ++ [g]) g' rest (u8 (depth + 1)) out) as (t' & o & again & E & F & H).
        * exact (n_runs_acc _ _ _ _ Rt1 (peeked_holds _ _ _ _ Hpk)).
        * rewrite app_length. cbn [length]. replace (length u + 1)%nat with (S (length u)) by lia. exact Hpk.
        * exact At1.
        * lia.
        * unfold u8. lia.
        * exists t', o, again. split; [exact E|]. split; [exact (frame_trans _ _ _ (frame_trans _ _ _ F1 (frame_acc _ _)) F)|exact H].
    - cbv zeta. destruct (n_stop_ok t1 u g rest out Rt1 At1 Es) as (t' & o & w' & n' & E & F & R' & Hf & At' & Hl & Hrw). exists t', o, (match w' with [] => false | _ => true end).
      split; [exact E|]. split; [exact (frame_trans _ _ _ F1 F)|]. right. exists w', n'. auto 8.
    - cbv zeta. destruct (n_stop_ok t1 u g rest out Rt1 At1 Es) as (t' & o & w' & n' & E & F & R' & Hf & At' & Hl & Hrw). exists t', o, (match w' with [] => false | _ => true end).
      split; [exact E|]. split; [exact (frame_trans _ _ _ F1 F)|]. right. exists w', n'. auto 8.
  Qed.
  Lemma n_rerun_ok t w n out : runs t w n -> tail_fits rules n w -> trees_at [] (ts_trees t) ->
    exists t' o again, rerunDetection k t out = Ok (t', out ++ o, again) /\ frame t t' /\
      ((again = false /\ n = 0 /\ o = [] /\ waits t' w) \/
       (exists w' n', runs t' w' n' /\ tail_fits rules n' w' /\ trees_at [] (ts_trees t') /\ zlen w' < zlen w /\ again = match w' with [] => false | _ => true end /\
          forall z o', goes_on n' w' z o' -> goes_on n w z (o ++ o'))).
  Proof.
    intros R Hn At. pose proof R as (R1 & R2 & R3 & R4). unfold rerunDetection. rewrite (holds_empty _ _ _ R3). destruct w as [|g rest].
    - destruct Hn as [->|(_ & _ & [])]; [|reflexivity].
      exists t, [], false. rewrite app_nil_r. split; [reflexivity|]. split; [apply frame_refl|]. left. split; [reflexivity|]. split; [reflexivity|]. split; [reflexivity|].
      split; [exact R|]. split; [exact At|left; reflexivity].
    - pose proof (holds_discard _ _ _ R3) as Hd. set (t0 := with_acc t (cb_DiscardPeeks (ts_acc t))).
      assert (R0 : runs t0 (g :: rest) n) by (apply n_runs_acc; [exact R|exact (peeked_holds _ _ _ _ Hd)]).
      rewrite (holds_head (ts_acc t0) g rest cap (proj1 (proj2 (proj2 R0)))). cbn [bind]. rewrite (holds_num _ _ _ (proj1 (proj2 (proj2 R0)))).
      destruct Hn as [->|(-> & Hl & _)].
      + destruct (n_rerun_loop_ok (Z.to_nat (zlen (g :: rest))) t0 [] g rest 0 out R0 Hd At) as (t' & o & again & E & F & H).
        { unfold zlen. cbn [length]. lia. }
        { lia. }
        exists t', o, again. split; [exact E|]. split; [exact (frame_trans _ _ _ (frame_acc _ _) F)|].
        destruct H as [(H1 & H2 & H3)|(w' & n' & H1 & H2 & H3 & H4 & H5 & H6)]; [left; auto|right]. exists w', n'. repeat (split; [assumption|]). intros z o' Ho. apply goes_on_0. exact (H6 z o' Ho).
      + destruct (n_block_ok rules t0 g R2 Hl At R4) as (t1 & E1 & F1 & Hb & Ha1 & Ht1).
        assert (Rt1 : runs t1 (g :: rest) 1) by (apply (n_frame_runs data rules cap t0 t1 (g :: rest) _ 1); [exact F1|exact R0|rewrite Ha1; apply R0|exact Ht1]).
        assert (E2 : rerun_loop k (Z.to_nat (zlen (g :: rest))) t0 g 0 out =
          (do ' (t, out) <- popOldestGlyph (with_acc t1 (cb_DiscardPeeks (ts_acc t1))) out; Ok (t, out, negb (cb_IsEmpty (ts_acc t))))).
        { destruct (Z.to_nat (zlen (g :: rest))); cbn [rerun_loop]; unfold treesFeedGlyph; replace (ts_tail t0) with 1 by (symmetry; exact R4); change (0 <? 1) with true; cbv iota;
            rewrite E1; cbn [bind]; cbv zeta; rewrite Hb; change (255 =? 255) with true; cbv iota; reflexivity. }
        rewrite E2. unfold popOldestGlyph. assert (R3' : holds (ts_acc (with_acc t1 (cb_DiscardPeeks (ts_acc t1)))) (g :: rest) cap) by exact (peeked_holds _ _ _ _ (holds_discard _ _ _ (proj1 (proj2 (proj2 Rt1))))).
        destruct (pop_ok _ _ _ _ R3') as (a & -> & Ha). cbn [bind]. cbn [with_acc ts_tail]. rewrite Ht1. cbn [Z.gtb Z.compare].
        change (u8 (1 - 1)) with 0. destruct (restart_ok (with_tail (with_acc (with_acc t1 (cb_DiscardPeeks (ts_acc t1))) a) 0)) as (t2 & E3 & F2 & At2 & Ha2 & Ht2).
        change (with_acc (with_acc t1 (cb_DiscardPeeks (ts_acc t1))) a) with (with_acc t1 a) in *. rewrite E3. cbn [bind].
        assert (F' : frame t t2) by (eapply frame_trans; [apply (frame_acc t (cb_DiscardPeeks (ts_acc t)))|]; eapply frame_trans; [exact F1|]; destruct F2 as (G1 & G2 & G3 & G4); repeat split; assumption).
        assert (Rt2 : runs t2 rest 0) by (apply (n_frame_runs data rules cap t t2 (g :: rest) _ 1); [exact F'|exact R|rewrite Ha2; exact Ha|exact Ht2]).
        exists t2, [], (match rest with [] => false | _ => true end). rewrite app_nil_r. split; [rewrite (holds_empty _ _ _ (proj1 (proj2 (proj2 Rt2)))); destruct rest; reflexivity|].
        split; [exact F'|]. right. exists rest, 0. split; [exact Rt2|]. split; [left; reflexivity|]. split; [exact At2|]. split; [rewrite zlen_cons; lia|]. split; [reflexivity|].
        intros z o' Ho. apply goes_on_0 in Ho. exists [g], rest. auto.
  Qed.
  Lemma n_rerun_all_ok : forall fuel t w n out, (length w <= fuel)%nat -> runs t w n -> tail_fits rules n w -> trees_at [] (ts_trees t) ->
    exists t' w' o, rerun_all k fuel t out = Ok (t', out ++ o) /\ frame t t' /\ waits t' w' /\ zlen w' <= zlen w /\
      forall z o', rewrites (w' ++ z) o' -> goes_on n w z (o ++ o').
  Proof.
    induction fuel as [|fuel IH]; intros t w n out Hl R Hn At.
    all: destruct (n_rerun_ok t w n out R Hn At) as (t1 & o1 & again & E1 & F1 & H1); cbn [rerun_all]; rewrite E1; cbn [bind].
    all: destruct H1 as [(-> & -> & -> & W)|(w1 & n1 & R1 & Hn1 & At1 & Hl1 & -> & Hrw)].
    1, 3: exists t1, w, []; split; [reflexivity|]; split; [exact F1|]; split; [exact W|]; split; [lia|]; intros z o' Ho; apply goes_on_0; exact Ho.
    - destruct w; [|cbn [length] in Hl; lia]. rewrite zlen_nil in Hl1. pose proof (zlen_nonneg w1). lia.
    - destruct w1 as [|x w1].
      + destruct Hn1 as [->|(_ & _ & [])]; [|reflexivity].
        exists t1, [], o1. split; [reflexivity|]. split; [exact F1|]. split; [split; [exact R1|]; split; [exact At1|left; reflexivity]|]. split; [lia|].
        intros z o' Ho. apply Hrw. apply goes_on_0. exact Ho.
      + destruct (IH t1 (x :: w1) n1 (out ++ o1)) as (t' & w' & o & E & F & W & Hl' & Hrw'); [unfold zlen in Hl1; lia|exact R1|exact Hn1|exact At1|].
        exists t', w', (o1 ++ o). rewrite E, <- app_assoc. split; [reflexivity|]. split; [exact (frame_trans _ _ _ F1 F)|]. split; [exact W|]. split; [lia|].
        intros z o' Ho. rewrite <- app_assoc. apply Hrw. apply Hrw'. exact Ho.
  Qed.
  Lemma n_advance_ok t w out : runs t w 0 -> n_choice rules (map name w) (treesGetBestMatch t) -> w <> [] ->
    exists t' w' o, advance k t out = Ok (t', out ++ o) /\ frame t t' /\ waits t' w' /\ zlen w' < zlen w /\
      forall z o', n_choice rules (map name (w ++ z)) (treesGetBestMatch t) -> rewrites (w' ++ z) o' -> rewrites (w ++ z) (o ++ o').
  Proof.
    intros R Hc Hne. destruct (n_act_ok k sets data rules Hrules cap Htails t w _ out R Hc Hne) as (t1 & w1 & o1 & n1 & E & R1 & Hn1 & F1 & At1 & Hl1 & Hrw1).
    unfold advance. cbv zeta. fold (act k t (treesGetBestMatch t) out). rewrite E. cbn [bind]. rewrite (holds_num _ _ _ (proj1 (proj2 (proj2 R)))).
    destruct (n_rerun_all_ok (Z.to_nat (zlen w)) t1 w1 n1 (out ++ o1)) as (t' & w' & o & E' & F & W & Hl & Hrw); [unfold zlen in *; lia|exact R1|exact Hn1|exact At1|].
    exists t', w', (o1 ++ o). rewrite E', <- app_assoc. split; [reflexivity|]. split; [exact (frame_trans _ _ _ F1 F)|]. split; [exact W|]. split; [lia|].
    intros z o' Hz Ho. rewrite <- app_assoc. apply Hrw1; [exact Hz|]. apply Hrw. exact Ho.
  Qed.

  (** ** Feed and Break *)
  Lemma n_Feed_ok t w g : waits t w -> ts_operating t = true -> tk_feed k g = Ok true ->
    exists t' w' o, Feed k t g = Ok (t', o, None) /\ frame t t' /\ waits t' w' /\ forall z o', rewrites (w' ++ z) o' -> rewrites (w ++ g :: z) (o ++ o').
  Proof.
    intros (R & At & Hs) Hop Hf. pose proof R as (R1 & R2 & R3 & R4). unfold Feed. rewrite Hop, Hf. cbn [negb].
    assert (Hlt : zlen w < cap) by (destruct Hs as [->|Hs]; [rewrite zlen_nil; lia|exact (n_scanning_short rules cap Hcap Hfit t w R2 At Hs)]).
    destruct (holds_push _ _ _ g R3 Hlt) as (a & -> & Ha). cbn [bind].
    destruct (n_feed_ok rules (with_acc t a) w g R2 At) as (t1 & E1 & F1 & At1 & Ha1 & Ht1). rewrite E1. cbn [bind].
    assert (Rt1 : runs t1 (w ++ [g]) 0).
    { apply (n_frame_runs data rules cap t t1 w _ 0); [exact (frame_trans _ _ _ (frame_acc _ _) F1)|exact R|rewrite Ha1; exact Ha|rewrite Ht1; exact R4]. }
    assert (R2' : n_trees_ok rules (map static (ts_trees t1))) by apply Rt1.
    destruct (n_decide rules Hmany t1 (w ++ [g]) R2' At1) as [Hc Hz]. destruct (scanning (ts_trees t1)) eqn:Es.
    - exists t1, (w ++ [g]), []. split; [reflexivity|]. split; [exact (frame_trans _ _ _ (frame_acc _ _) F1)|]. split; [split; [exact Rt1|]; split; [exact At1|right; exact Es]|].
      intros z o' Ho. rewrite <- app_assoc in Ho. exact Ho.
    - destruct (n_advance_ok t1 (w ++ [g]) [] Rt1 Hc ltac:(destruct w; discriminate)) as (t' & w' & o & E & F & W & _ & Hrw). rewrite E. cbn [bind app].
      exists t', w', o. split; [reflexivity|]. split; [exact (frame_trans _ _ _ (frame_trans _ _ _ (frame_acc _ _) F1) F)|]. split; [exact W|].
      intros z o' Ho. specialize (Hrw z o' (Hz eq_refl z) Ho). rewrite <- app_assoc in Hrw. exact Hrw.
  Qed.
  Lemma n_break_loop_ok : forall fuel t w out, (length w <= fuel)%nat -> waits t w ->
    exists t' o, break_loop k fuel t out = Ok (t', out ++ o) /\ frame t t' /\ waits t' [] /\ rewrites w o.
  Proof.
    induction fuel as [|fuel IH]; intros t w out Hl W; pose proof W as ((R1 & R2 & R3 & R4) & At & Hs); cbn [break_loop]; rewrite (holds_num _ _ _ R3), R4.
    - destruct w; [|cbn [length] in Hl; lia]. cbn. exists t, []. rewrite app_nil_r. split; [reflexivity|]. split; [apply frame_refl|]. split; [exact W|constructor].
    - destruct w as [|x w]; [cbn; exists t, []; rewrite app_nil_r; split; [reflexivity|]; split; [apply frame_refl|]; split; [exact W|constructor]|].
      replace (zlen (x :: w) >? 0) with true by (rewrite zlen_cons; pose proof (zlen_nonneg w); lia).
      destruct (n_decide rules Hmany t (x :: w) R2 At) as [Hc _].
      destruct (n_advance_ok t (x :: w) out (proj1 W) Hc ltac:(discriminate)) as (t1 & w1 & o1 & E & F1 & W1 & Hl1 & Hrw). rewrite E. cbn [bind].
      destruct (IH t1 w1 (out ++ o1)) as (t' & o & E' & F & W' & Hw); [unfold zlen in Hl1; lia|exact W1|].
      exists t', (o1 ++ o). rewrite E', <- app_assoc. split; [reflexivity|]. split; [exact (frame_trans _ _ _ F1 F)|]. split; [exact W'|].
      specialize (Hrw [] o). rewrite !app_nil_r in Hrw. apply Hrw; assumption.
  Qed.
  Lemma n_Break_ok t w : waits t w -> ts_operating t = true -> exists t' o, Break k t = Ok (t', o) /\ frame t t' /\ waits t' [] /\ rewrites w o.
  Proof.
    intros W Hop. unfold Break. rewrite Hop. cbn [negb]. rewrite (holds_num _ _ _ (proj1 (proj2 (proj2 (proj1 W))))).
    destruct (n_break_loop_ok (Z.to_nat (zlen w)) t w []) as (t' & o & E & H); [unfold zlen; lia|exact W|]. exists t', o. auto.
  Qed.
End Sequence.
