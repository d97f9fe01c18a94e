(** Proofs about the rewrite testers: the accumulator, and decision trees fed one element at a
    time. *)
From Verif Require Import Base BaseFacts Model_Helpers Model_Font Model_Rewrites Model_Scanner Model_CircularBuffer Spec_CircularBuffer
  Proofs_CircularBuffer Model_Tree Spec_Tree Proofs_Tree Proofs_Tree2 Proofs_Tree3 Proofs_Tree4 Model_Tester Spec_Tester.

(** ** The accumulator *)
(** It holds [w], whatever has been peeked. *)
Definition holds (a : cbuf Z) (w : list Z) (cap : Z) : Prop := cb_rep (with_peeks a 0) (mkQ w cap 0).
(** It holds [w], and [n] elements after the head have been peeked. *)
Definition peeked (a : cbuf Z) (w : list Z) (cap : Z) (n : nat) : Prop := cb_rep a (mkQ w cap n).

Lemma peeked_holds a w cap n : peeked a w cap n -> holds a w cap.
Proof.
  intros (Hok & H1 & H2 & H3 & H4). cbn [q_cap q_cursor q_items] in *. unfold holds, cb_rep. cbn [q_cap q_cursor q_items].
  split; [|cbn; repeat split; try assumption; auto]. unfold cb_ok in *. cbn [with_peeks cb_buffer cb_capacity cb_head cb_num cb_peeks]. lia.
Qed.
Lemma holds_discard a w cap : holds a w cap -> peeked (cb_DiscardPeeks a) w cap 0.
Proof. intros H. exact H. Qed.
Lemma holds_num a w cap : holds a w cap -> cb_num a = zlen w.
Proof. intros (_ & _ & _ & H & _). symmetry. exact H. Qed.
Lemma holds_empty a w cap : holds a w cap -> cb_IsEmpty a = match w with [] => true | _ => false end.
Proof.
  intros H. unfold cb_IsEmpty. rewrite (holds_num _ _ _ H). destruct w; [reflexivity|]. rewrite zlen_cons. pose proof (zlen_nonneg w). lia.
Qed.
Lemma push_peeks (a : cbuf Z) x : with_peeks (fst (cb_Push a x)) 0 = fst (cb_Push (with_peeks a 0) x) /\ snd (cb_Push a x) = snd (cb_Push (with_peeks a 0) x).
Proof.
  unfold cb_Push, unsafeLastElemIndex. cbn [with_peeks with_num cb_buffer cb_capacity cb_head cb_num cb_peeks].
  destruct (cb_num a >=? cb_capacity a); [split; reflexivity|]. destruct (zset _ _ _); split; reflexivity.
Qed.
Lemma holds_push a w cap x : holds a w cap -> zlen w < cap -> exists a', cb_Push a x = (a', Ok tt) /\ holds a' (w ++ [x]) cap.
Proof.
  intros H Hlt. destruct (push_rep 0 _ _ x H) as [H1 H2]. cbn [q_step] in *. fold (zlen w) in *. replace (zlen w <? cap) with true in * by lia.
  cbn [fst snd] in *. destruct (push_peeks a x) as [E1 E2]. rewrite <- E1 in H1. rewrite <- E2 in H2.
  destruct (cb_Push a x) as [a' o]. cbn [fst snd] in *. exists a'. split; [|exact H1]. destruct o as [[]| | |]; try discriminate. reflexivity.
Qed.
Lemma pop_peeks (a : cbuf Z) : with_peeks (fst (cb_PopHead a)) 0 = fst (cb_PopHead (with_peeks a 0)) /\ snd (cb_PopHead a) = snd (cb_PopHead (with_peeks a 0)).
Proof.
  unfold cb_PopHead, cb_IsEmpty. cbn [with_peeks with_num with_head cb_buffer cb_capacity cb_head cb_num cb_peeks].
  destruct (cb_num a =? 0); [split; reflexivity|]. destruct (zget _ _); [|split; reflexivity..]. destruct (_ =? _); split; reflexivity.
Qed.
Lemma holds_pop a x w cap : holds a (x :: w) cap -> exists a', cb_PopHead a = (a', Ok x) /\ holds a' w cap.
Proof.
  intros H. destruct (pophead_rep 0 _ _ H (or_introl eq_refl)) as [H1 H2]. cbn [q_step fst snd] in *.
  destruct (pop_peeks a) as [E1 E2]. rewrite <- E1 in H1. rewrite <- E2 in H2.
  destruct (cb_PopHead a) as [a' o]. cbn [fst snd] in *. exists a'. split; [|exact H1]. destruct o as [y| | |]; try discriminate. cbn [obs_of] in H2. congruence.
Qed.
Lemma holds_head a x w cap : holds a (x :: w) cap -> cb_Head a = Ok x.
Proof.
  intros H. pose proof (head_rep _ _ H) as E. cbn [q_items] in E. unfold cb_Head, cb_IsEmpty in *. cbn [with_peeks cb_num cb_buffer cb_head] in E.
  destruct (if cb_num a =? 0 then Panic else _); try discriminate. cbn [obs_of] in E. congruence.
Qed.
Lemma peeked_peek a w cap n : peeked a w cap n -> (n < length w)%nat ->
  exists a', match nth_error w (S n) with
  | Some x => cb_PeekAhead 0 a = (a', Ok (x, true)) /\ peeked a' w cap (S n)
  | None => (exists x, cb_PeekAhead 0 a = (a', Ok (x, false))) /\ peeked a' w cap n
  end.
Proof.
  intros H Hn. destruct (peek_rep 0 _ _ H) as [H1 H2]. cbn [q_step] in *. destruct (cb_PeekAhead 0 a) as [a' o]. cbn [fst snd] in *. exists a'.
  destruct (nth_error w (S n)) as [x|].
  - cbn [fst snd] in *. split; [|exact H1]. destruct o as [[y b]| | |]; try discriminate. cbn [obs_of fst snd] in H2. congruence.
  - destruct (nth_error w n) as [x|] eqn:E; [|apply nth_error_None in E; lia]. cbn [fst snd] in *. split; [|exact H1].
    destruct o as [[y b]| | |]; try discriminate. cbn [obs_of fst snd] in H2. exists x. congruence.
Qed.
Lemma holds_reset a w cap c : holds a w cap -> 0 <= c <= 255 ->
  exists a', cb_SetCapacity 0 (cb_Clear a) c = (a', Ok true) /\ holds a' [] c.
Proof.
  intros H Hc. assert (R : cb_rep (cb_Clear a) (mkQ [] cap 0)).
  { destruct H as (Hok & H1 & H2 & H3 & H4). unfold cb_ok in Hok. cbn [q_cap q_cursor q_items with_peeks cb_buffer cb_capacity cb_head cb_num cb_peeks] in *.
    unfold cb_rep, cb_ok, cb_Clear. cbn [with_peeks with_num with_head q_cap q_cursor q_items cb_buffer cb_capacity cb_head cb_num cb_peeks].
    split; [lia|]. split; [exact H1|]. split; [reflexivity|]. split; [reflexivity|]. intros i Hi. lia. }
  destruct (setcap_rep 0 _ _ c R ltac:(lia)) as [H1 H2]; [cbn; lia|]. unfold q_setcap in *. cbn [q_items length q_cursor] in *.
  replace (c <? Z.of_nat 0) with false in * by lia. cbn [fst snd] in *. destruct (cb_SetCapacity 0 (cb_Clear a) c) as [a' o]. cbn [fst snd] in *.
  exists a'. split; [destruct o as [b| | |]; try discriminate; cbn in H2; congruence|]. exact (peeked_holds _ _ _ _ H1).
Qed.
Lemma holds_init : holds cb_init [] 0.
Proof. exact (init_rep (T := Z)). Qed.

(** ** Trees fed one element at a time *)
Definition feed (d : tree) (g : Z) : outcome tree := if d_scanning d then tree_Feed d g else Ok d.
Definition fed (states : list state) (w : list Z) : outcome tree := ofold feed w (mkTree states 0 255 true).
(** While a tree is scanning some pattern goes on; when it is not, its match is final. *)
Definition good (states : list state) (P : list (list Z * Z)) : Prop :=
  forall w, exists d, fed states w = Ok d /\ d_states d = states /\ best_match P w (d_best d) /\
    (d_scanning d = true -> w = [] \/ exists xs r t, In (xs, r) P /\ xs = w ++ t /\ t <> []) /\
    (d_scanning d = false -> forall z, best_match P (w ++ z) (d_best d)).

Lemma walk_app P a b : forall p best, walk P p best (a ++ b) = walk P (p ++ a) (walk P p best a) b.
Proof.
  induction a as [|x a IH]; intros p best; cbn [app walk]; [rewrite app_nil_r; reflexivity|]. rewrite IH, <- app_assoc. reflexivity.
Qed.
Lemma pext_down P p x : pext P (p ++ [x]) -> pext P p.
Proof. intros (xs & r & q & Hin & -> & _). exists ((p ++ [x]) ++ q), r, (x :: q). split; [exact Hin|]. split; [rewrite <- app_assoc; reflexivity|discriminate]. Qed.
Section Letters.
Context {AB : alphabet}.
Definition good_named (states : list state) (P : list (list Z * Z)) : Prop :=
  forall w, exists d, fed states w = Ok d /\ d_states d = states /\ best_match P (map name w) (d_best d) /\
    (d_scanning d = true -> w = [] \/ exists xs r t, In (xs, r) P /\ xs = map name w ++ t /\ t <> []) /\
    (d_scanning d = false -> forall z, best_match P (map name (w ++ z)) (d_best d)).
Lemma compile_named k sets rules P states : Forall2 (pattern_of k sets) rules P -> rules <> [] -> increasing 0 (map snd P) ->
  compile k sets rules = Ok states -> good_named states P.
Proof.
  intros H Hne Hinc. unfold compile.
  assert (Hne' : P = [] -> c_states compiler_Begin <> []) by (intros ->; inversion H; subst; congruence).
  destruct (compile_settled k sets rules P compiler_Begin [] 0 H Hinc ltac:(lia) ltac:(intros xs r []) (Begin_settled 0 ltac:(lia)) Hne')
    as [[-> _]|(c & r & -> & Hs & (L & T & N) & Hidx)]; [discriminate|]. cbn [app bind] in *. intros [= <-].
  assert (Hroot : rooted c = c) by (unfold rooted; destruct (c_states c) eqn:E; [contradiction|]; rewrite <- E; destruct c; reflexivity).
  rewrite Hroot in *.
  assert (Hpne : forall xs r0, In (xs, r0) P -> xs <> []).
  { intros xs i Hin. clear - H Hin. induction H as [|d e ds es (_ & _ & Hn) _ IH]; [destruct Hin|]. destruct Hin as [->|Hin]; [exact Hn|exact (IH Hin)]. }
  assert (W : forall w, exists d, fed (c_states c) w = Ok d /\ d_states d = c_states c /\ d_best d = walk P [] 255 (map name w) /\
    (d_scanning d = true -> L (map name w) = Some (d_index d) /\ (w = [] \/ pext P (map name w))) /\ (d_scanning d = false -> ~ pext P (map name w))).
  { induction w as [|x w IH] using rev_ind.
    - exists (mkTree (c_states c) 0 255 true). cbn. split; [reflexivity|]. split; [reflexivity|]. split; [reflexivity|]. split; [|discriminate].
      intros _. split; [apply T|left; reflexivity].
    - destruct IH as (d & Hd & Hst & Hb & Hs1 & Hs2). unfold fed in *. rewrite ofold_app, Hd. cbn [bind ofold]. unfold feed at 1. rewrite map_app. cbn [map]. rewrite walk_app. cbn [app walk].
      destruct (d_scanning d) eqn:Es.
      + destruct (Hs1 eq_refl) as [Hp _]. destruct (N _ _ Hp) as (st & Hst' & (Ho & Hl & Hn)). unfold tree_Feed. rewrite Es, Hst, Hst'. cbn [negb bind].
        rewrite Trigger_spec by assumption. specialize (Hn (name x)). destruct (lookup (s_trans st) (name x)) as [t|]; cbn [bind].
        * destruct Hn as (H1 & H2 & H3). eexists. split; [reflexivity|]. cbn [d_states d_best d_scanning d_index]. split; [reflexivity|].
          split; [rewrite H2, Hb; destruct (_ =? _); reflexivity|]. destruct H3 as [[H3 H4]|[H3 H4]].
          -- rewrite H3, Z.eqb_refl. cbn [negb]. split; [discriminate|]. intros _. exact H4.
          -- pose proof (live_range _ _ _ _ _ _ T H3). pose proof (k_len _ _ _ _ T). replace (t_next t =? 255) with false by lia. cbn [negb]. split; [|discriminate].
             intros _. split; [exact H3|right; exact H4].
        * eexists. split; [reflexivity|]. cbn [d_states d_best d_scanning d_index negb Z.eqb]. rewrite (no_ext_first _ Hidx _ Hn), Z.eqb_refl. split; [reflexivity|].
          split; [exact Hb|]. split; [discriminate|]. intros _ (xs & i & q & Hin & E & _). apply Hn. exists xs, i. split; [exact Hin|exists q; exact E].
      + exists d. specialize (Hs2 eq_refl). split; [reflexivity|]. split; [exact Hst|].
        assert (Hx : ~ ext P (map name w ++ [name x])).
        { intros (xs & i & Hin & q & E). apply Hs2. exists xs, i, (name x :: q). split; [exact Hin|]. split; [rewrite E, <- app_assoc; reflexivity|discriminate]. }
        split; [rewrite (no_ext_first _ Hidx _ Hx), Z.eqb_refl; exact Hb|]. split; [congruence|]. intros _ Hp. exact (Hs2 (pext_down _ _ _ Hp)). }
  intros w. destruct (W w) as (d & Hd & Hst & Hb & Hs1 & Hs2). exists d. split; [exact Hd|]. split; [exact Hst|]. rewrite Hb. split; [apply walk_right; assumption|]. split.
  - intros Es. destruct (Hs1 Es) as [_ [->|(xs & i & q & Hin & E & Hq)]]; [left; reflexivity|right; eauto 6].
  - intros Es z. replace (walk P [] 255 (map name w)) with (walk P [] 255 (map name (w ++ z))); [apply walk_right; assumption|].
    rewrite map_app, walk_app. cbn [app]. apply walk_dead; [assumption|exact (Hs2 Es)].
Qed.
End Letters.
Lemma compile_good k sets rules P states : Forall2 (@pattern_of elements k sets) rules P -> rules <> [] -> increasing 0 (map snd P) ->
  compile k sets rules = Ok states -> good states P.
Proof.
  intros H Hne Hi E w. destruct (compile_named k sets rules P states H Hne Hi E w) as (d & H1 & H2 & H3 & H4 & H5). exists d. rewrite elements_name in *.
  repeat (split; [assumption|]). intros Hs z. specialize (H5 Hs z). rewrite elements_name in H5. exact H5.
Qed.
