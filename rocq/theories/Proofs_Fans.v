(** Decision trees of rules no two of which can start with the same element, with any sets: C49, C50. *)
From Verif Require Import Base BaseFacts Spec_Helpers Model_Helpers Proofs_Helpers Spec_Layout Model_Font Model_Rewrites Proofs_Rewrites
  Model_Scanner Model_Tree Spec_Tree Spec_TreeSets Proofs_Tree Proofs_Tree2 Proofs_Tree3 Proofs_Tree4 Proofs_Tree5 Spec_Fans.

(** ** The bookkeeping: no state is ever freed, each belongs to one rule; states at distances from
    [e] on do not belong to rule [r]. *)
Record book (c : compiler) (r e : Z) : Prop := {
  b_len : 1 <= zlen (c_states c) <= 254;
  b_uses : zlen (c_uses c) = zlen (c_states c) - 1;
  b_rules : zlen (c_rules c) = zlen (c_states c) - 1;
  b_freed : c_freed c = [];
  b_depth : forall n l, zget (c_depths c) n = Ok l -> forall j, In j l -> 1 <= j < zlen (c_states c) /\
    (exists u, zget (c_uses c) (j - 1) = Ok u /\ 1 <= u) /\
    exists q, zget (c_rules c) (j - 1) = Ok [q] /\ q <= r /\ (e <= n -> q < r) }.

Lemma book_states c r e states g : book c r e -> zlen states = zlen (c_states c) -> book (with_grown (with_states c states) g) r e.
Proof. intros B E. constructor; cbn [c_states c_uses c_rules c_freed c_depths with_grown with_states]; rewrite ?E; apply B. Qed.
Lemma book_later c r e e' : book c r e -> e <= e' -> book c r e'.
Proof.
  intros B E. constructor; try apply B. intros n l Hl j Hj. destruct (b_depth _ _ _ B _ _ Hl _ Hj) as (H1 & H2 & q & H3 & H4 & H5).
  split; [exact H1|]. split; [exact H2|]. exists q. split; [exact H3|]. split; [exact H4|]. intros. apply H5. lia.
Qed.
Lemma book_next c r e r' : book c r e -> r < r' -> book c r' 0.
Proof.
  intros B E. constructor; try apply B. intros n l Hl j Hj. destruct (b_depth _ _ _ B _ _ Hl _ Hj) as (H1 & H2 & q & H3 & H4 & H5).
  split; [exact H1|]. split; [exact H2|]. exists q. split; [exact H3|]. split; [lia|]. intros. lia.
Qed.

Lemma reuse_none c r : forall l, (forall j, In j l -> exists q, zget (c_rules c) (j - 1) = Ok [q] /\ q < r) -> reuse_loop c [r] l = Ok 255.
Proof.
  induction l as [|j l IH]; intros H; [reflexivity|]. cbn [reuse_loop]. destruct (H j (or_introl eq_refl)) as (q & -> & Hq). cbn [bind].
  destruct (eqb_list_spec [q] [r]) as [E|_]; [injection E as E; lia|]. apply IH. intros i Hi. apply H. right. exact Hi.
Qed.
Lemma reuse_found c r s : forall l, In s l -> zget (c_rules c) (s - 1) = Ok [r] -> (forall j, In j l -> exists q, zget (c_rules c) (j - 1) = Ok [q] /\ (q = r -> j = s)) ->
  reuse_loop c [r] l = Ok s.
Proof.
  induction l as [|j l IH]; intros Hin Hs H; [destruct Hin|]. cbn [reuse_loop]. destruct (H j (or_introl eq_refl)) as (q & E & Hq). rewrite E. cbn [bind].
  destruct (eqb_list_spec [q] [r]) as [E1|E1].
  - injection E1 as E1. f_equal. apply Hq. exact E1.
  - destruct Hin as [->|Hin]; [rewrite Hs in E; congruence|]. apply IH; [exact Hin|exact Hs|]. intros i Hi. apply H. right. exact Hi.
Qed.

(** The one state of rule [r] at distance [d] *)
Definition linked (c : compiler) (r d s' u : Z) : Prop :=
  book c r (d + 1) /\ c_rule c = r /\ c_depth c = d /\ c_to c = [s'] /\ 1 <= s' < zlen (c_states c) /\ zget (c_uses c) (s' - 1) = Ok u /\ 1 <= u /\
  zget (c_rules c) (s' - 1) = Ok [r] /\ exists l, zget (c_depths c) d = Ok l /\ In s' l /\
    forall j, In j l -> zget (c_rules c) (j - 1) = Ok [r] -> j = s'.
Lemma linked_states c r d s' u states g : linked c r d s' u -> zlen states = zlen (c_states c) -> linked (with_grown (with_states c states) g) r d s' u.
Proof.
  intros (B & H) E. split; [apply book_states; assumption|]. cbn [c_states c_uses c_rules c_freed c_depths c_to c_depth c_rule with_grown with_states]. rewrite E. exact H.
Qed.

Lemma linker_new c r d : book c r d -> c_rule c = r -> c_depth c = d -> 0 <= d <= zlen (c_depths c) -> c_to c = [] ->
  (stateLinker c 255 0 = hit_limits /\ zlen (c_states c) = 254) \/
  exists c', stateLinker c 255 0 = Ok (c', zlen (c_states c)) /\ c_states c' = c_states c ++ [state_empty] /\ linked c' r d (zlen (c_states c)) 1 /\
    zlen (c_depths c') >= d + 1.
Proof.
  intros B Er Ed Hd Eto. pose proof (b_len _ _ _ B) as Hlen. pose proof (zlen_nonneg (c_states c)) as Hz. unfold stateLinker.
  assert (R : fetchReusableState c 255 = Ok 255).
  { unfold fetchReusableState. change (255 =? 0) with false. cbv iota. rewrite Ed. destruct (d >=? zlen (c_depths c)) eqn:E; [reflexivity|].
    destruct (zget_in_range (c_depths c) d ltac:(lia)) as (l & Hl). rewrite Hl. cbn [bind]. destruct (zlen l =? 0); [reflexivity|]. rewrite Z.eqb_refl. cbn [bind firstn skipn app].
    rewrite Er. apply reuse_none. intros j Hj. destruct (b_depth _ _ _ B _ _ Hl _ Hj) as (_ & _ & q & H1 & _ & H2). exists q. split; [exact H1|]. apply H2. lia. }
  rewrite R. cbn [bind]. rewrite Z.eqb_refl. unfold fetchFreedOrNewState. rewrite (b_freed _ _ _ B).
  destruct (zlen (c_states c) >=? 254) eqn:E; [left; split; [reflexivity|lia]|right]. cbn [bind negb]. rewrite Z.eqb_refl. cbn [negb].
  set (s' := zlen (c_states c)) in *. cbn [c_states with_states with_grown].
  rewrite zset_ok by (rewrite zlen_app, zlen_cons, zlen_nil; lia). cbn [bind].
  assert (U : upd (c_states c ++ [state_empty]) (Z.to_nat s') state_empty = c_states c ++ [state_empty]).
  { replace (Z.to_nat s') with (length (c_states c)) by (unfold s', zlen; lia). apply upd_middle. }
  rewrite U. set (c1 := with_states (with_grown (with_states c (c_states c ++ [state_empty])) true) (c_states c ++ [state_empty])).
  destruct (init_rules c1 s') as (all & Hall & PR); [unfold c1; cbn [c_rules with_states with_grown]; rewrite (b_rules _ _ _ B); fold s'; lia|]. rewrite Hall. cbn [bind].
  destruct (register_new (with_rules c1 all) s') as (l & a & b & depths & HD & El & Hl & PD).
  { unfold c1. cbn [c_depth c_depths with_rules with_states with_grown]. rewrite Ed. exact Hd. }
  { unfold c1. cbn [c_depth c_depths with_rules with_states with_grown]. intros l Hl Hin. destruct (b_depth _ _ _ B _ _ Hl _ Hin) as (H1 & _). fold s' in H1. lia. }
  rewrite HD. cbn [bind]. unfold appendStateToNextRound. unfold c1 at 1. cbn [c_to with_depths with_rules with_states with_grown]. rewrite Eto.
  change (ordered_insert [] s') with (Ok (A := list Z) [s']). cbn [bind].
  rewrite adjust_new; [|lia|unfold c1; cbn [c_uses with_to with_depths with_rules with_states with_grown]; rewrite (b_uses _ _ _ B); fold s'; lia|lia]. cbn [bind].
  unfold c1 in *. cbn [c_rules c_rule c_depth c_depths c_uses c_to with_uses with_to with_depths with_rules with_states with_grown] in *. change (negb (0 =? 0)) with false. cbn [andb].
  destruct PR as (PR1 & PR2 & PR3). destruct PD as (PD1 & PD2 & PD3). rewrite Ed in *. rewrite Er in *. rewrite (b_rules _ _ _ B) in *. fold s' in PR1, PR3.
  eexists. split; [reflexivity|]. cbn [c_states c_depths with_uses with_to with_depths with_rules with_states with_grown]. split; [reflexivity|].
  assert (ZU : zlen (c_uses c ++ [1]) = s') by (rewrite zlen_app, zlen_cons, zlen_nil, (b_uses _ _ _ B); fold s'; lia).
  assert (GU : zget (c_uses c ++ [1]) (s' - 1) = Ok 1).
  { rewrite zget_app_r by (rewrite (b_uses _ _ _ B); fold s'; lia). rewrite (b_uses _ _ _ B). fold s'. rewrite Z.sub_diag. reflexivity. }
  assert (OLD : forall n l0, zget (c_depths c) n = Ok l0 -> forall j, In j l0 -> 1 <= j < s' /\
    (exists u, zget (c_uses c ++ [1]) (j - 1) = Ok u /\ 1 <= u) /\ exists q, zget all (j - 1) = Ok [q] /\ q <= r /\ (d <= n -> q < r)).
  { intros n l0 Hn j Hj. destruct (b_depth _ _ _ B _ _ Hn _ Hj) as (H1 & (u & H2 & H2') & q & H3 & H4 & H5). fold s' in H1. split; [exact H1|]. split.
    - exists u. split; [|exact H2']. pose proof (zget_ok_range _ _ _ H2). rewrite zget_app_l by lia. exact H2.
    - exists q. split; [|split; assumption]. rewrite PR3 by lia. exact H3. }
  assert (LD : forall j, In j (a ++ s' :: b) -> j = s' \/ In j l).
  { intros j Hj. apply in_app_or in Hj. rewrite El. destruct Hj as [Hj|[Hj|Hj]]; [right; apply in_or_app; auto|left; auto|right; apply in_or_app; auto]. }
  assert (INL : In s' (a ++ s' :: b)) by (apply in_or_app; right; left; reflexivity).
  assert (OL : forall j, In j l -> zget (c_depths c) d = Ok l).
  { intros j Hj. destruct Hl as [Hl|[-> _]]; [exact Hl|destruct Hj]. }
  split; [|lia]. split; [|split; [exact Er|split; [exact Ed|split; [reflexivity|]]]].
  - constructor; cbn [c_states c_uses c_rules c_freed c_depths with_uses with_to with_depths with_rules with_states with_grown].
    + rewrite zlen_app, zlen_cons, zlen_nil. fold s'. lia.
    + rewrite ZU, zlen_app, zlen_cons, zlen_nil. fold s'. lia.
    + rewrite zlen_app, zlen_cons, zlen_nil. fold s'. lia.
    + exact (b_freed _ _ _ B).
    + rewrite zlen_app, zlen_cons, zlen_nil. fold s'. intros n l0 Hn j Hj. destruct (Z.eq_dec n d) as [->|Hnd].
      * rewrite PD2 in Hn. injection Hn as <-. destruct (LD j Hj) as [->|Hj'].
        -- split; [lia|]. split; [exists 1; split; [exact GU|lia]|]. exists r. split; [exact PR2|]. split; [lia|]. intros. lia.
        -- destruct (OLD _ _ (OL j Hj') j Hj') as (H1 & H2 & q & H3 & H4 & _). split; [lia|]. split; [exact H2|]. exists q. split; [exact H3|]. split; [exact H4|]. intros. lia.
      * pose proof (zget_ok_range _ _ _ Hn) as Hr. rewrite PD3 in Hn by lia. destruct (OLD _ _ Hn j Hj) as (H1 & H2 & q & H3 & H4 & H5). split; [lia|]. split; [exact H2|].
        exists q. split; [exact H3|]. split; [exact H4|]. intros. apply H5. lia.
  - cbn [c_states c_uses c_rules c_depths with_uses with_to with_depths with_rules with_states with_grown]. rewrite zlen_app, zlen_cons, zlen_nil. fold s'.
    split; [lia|]. split; [exact GU|]. split; [lia|]. split; [exact PR2|]. exists (a ++ s' :: b). split; [exact PD2|]. split; [exact INL|].
    intros j Hj Hr. destruct (LD j Hj) as [->|Hj']; [reflexivity|]. destruct (OLD _ _ (OL j Hj') j Hj') as (_ & _ & q & H3 & _ & H5).
    rewrite H3 in Hr. injection Hr as ->. specialize (H5 ltac:(lia)). lia.
Qed.

Lemma linker_again c r d s' u : linked c r d s' u -> u < 255 ->
  exists c', stateLinker c 255 0 = Ok (c', s') /\ c_states c' = c_states c /\ linked c' r d s' (u + 1) /\ c_depths c' = c_depths c.
Proof.
  intros (B & Er & Ed & Eto & Hs & Hu & Hu1 & Hr & l & Hl & Hin & Honly) Hlt. unfold stateLinker.
  assert (R : fetchReusableState c 255 = Ok s').
  { unfold fetchReusableState. change (255 =? 0) with false. cbv iota. rewrite Ed. pose proof (zget_ok_range _ _ _ Hl). replace (d >=? zlen (c_depths c)) with false by lia.
    rewrite Hl. cbn [bind]. replace (zlen l =? 0) with false by (destruct l; [destruct Hin|rewrite zlen_cons; pose proof (zlen_nonneg l); lia]). rewrite Z.eqb_refl. cbn [bind firstn skipn app].
    rewrite Er. apply reuse_found; [exact Hin|exact Hr|]. intros j Hj. destruct (b_depth _ _ _ B _ _ Hl _ Hj) as (_ & _ & q & H1 & _). exists q. split; [exact H1|].
    intros ->. apply Honly; assumption. }
  rewrite R. cbn [bind]. pose proof (b_len _ _ _ B). replace (s' =? 255) with false by lia. cbn [bind]. unfold appendStateToNextRound. rewrite Eto.
  assert (OI : ordered_insert [s'] s' = Ok [s']).
  { unfold ordered_insert, BasicOrderedNonRepeatInsert. cbn. change (zget [s'] (Z.of_nat 0)) with (Ok s'). cbn. rewrite Z.eqb_refl, Z.ltb_irrefl. reflexivity. }
  rewrite OI. cbn [bind]. rewrite (adjust_old _ _ 1 u) by (first [lia|exact Hu]). cbn [bind]. change (negb (0 =? 0)) with false. rewrite andb_false_r. cbn [negb].
  change (255 =? 255) with true. cbn [negb]. eexists. split; [reflexivity|]. cbn [c_states with_uses with_to]. split; [reflexivity|]. split; [|reflexivity].
  pose proof (zget_ok_range _ _ _ Hu) as Hur.
  split; [|cbn [c_rule c_depth c_to c_states c_uses c_rules c_depths with_uses with_to]; repeat (split; [first [assumption|reflexivity]|]); split; [apply zget_upd_same; exact Hur|split; [lia|split; [exact Hr|exists l; auto]]]].
  constructor; cbn [c_states c_uses c_rules c_freed c_depths with_uses with_to]; try apply B.
  - rewrite zlen_upd. apply B.
  - intros n l0 Hn j Hj. destruct (b_depth _ _ _ B _ _ Hn _ Hj) as (H1 & (v & H2 & H2') & H3). split; [exact H1|]. split; [|exact H3].
    destruct (Z.eq_dec (j - 1) (s' - 1)) as [E|E]; [rewrite E, zget_upd_same by exact Hur; exists (u + 1); split; [reflexivity|lia]|].
    rewrite zget_upd_other by lia. eauto.
Qed.

(** ** Transitions *)
Lemma fan_app_l {A} (a b : list A) : NoDup (a ++ b) -> NoDup a.
Proof.
  induction a as [|x a IH]; intros H; [constructor|]. cbn [app] in H. inversion H as [|? ? H1 H2]; subst. constructor; [|exact (IH H2)].
  intros Hin. apply H1. apply in_or_app. left. exact Hin.
Qed.
Lemma fan_app_comm {A} (a b : list A) : NoDup (a ++ b) -> NoDup (b ++ a).
Proof.
  induction a as [|x a IH]; intros H; [rewrite app_nil_r; exact H|]. cbn [app] in H. inversion H as [|? ? H1 H2]; subst.
  apply NoDup_Add with (a := x) (l := b ++ a); [apply Add_app|]. split; [exact (IH H2)|]. intros Hin. apply H1. apply in_or_app. apply in_app_or in Hin. tauto.
Qed.
Lemma fan_upd_upd {A} (l : list A) n a b : upd (upd l n a) n b = upd l n b.
Proof. revert n. induction l as [|x l IH]; intros [|n]; cbn; [reflexivity..|]. rewrite IH. reflexivity. Qed.
Lemma fan_upd_app_l {A} (l r : list A) n v : (n < length l)%nat -> upd (l ++ r) n v = upd l n v ++ r.
Proof. revert n. induction l as [|x l IH]; intros [|n] H; cbn in *; [lia..|reflexivity|]. rewrite IH by lia. reflexivity. Qed.
Lemma fan_upd_get {A} (l : list A) i a : zget l i = Ok a -> upd l (Z.to_nat i) a = l.
Proof.
  intros H. pose proof (zget_ok_range _ _ _ H) as R. unfold zget in H. replace (i <? 0) with false in H by lia.
  generalize dependent (Z.to_nat i). clear R. intros n. revert n. induction l as [|x l IH]; intros [|n] H; cbn in *; try discriminate; [congruence|]. rewrite (IH n H). reflexivity.
Qed.
Section Letters.
Context {AB : alphabet}.
Lemma insert_letter c i g st : letter g -> zget (c_states c) i = Ok st -> ordered (s_trans st) -> lookup (s_trans st) g = None -> c_grown c = false ->
  (254 <= zlen (s_trans st) /\ unsafeInsertUninitializedTransition c i g (hi g) = hit_limits) \/
  exists st0 idx, unsafeInsertUninitializedTransition c i g (hi g) = Ok (with_states c (upd (c_states c) (Z.to_nat i) st0), idx) /\ zlen (s_trans st) < 254 /\
    zget (s_trans st0) idx = Ok (mkTransition g (hi g) 255 255) /\
    forall m nx, let ts := upd (s_trans st0) (Z.to_nat idx) (mkTransition g (hi g) m nx) in
      ordered ts /\ zlen ts = zlen (s_trans st) + 1 /\ forall y, lookup ts y = if y =? g then Some (mkTransition g (hi g) m nx) else lookup (s_trans st) y.
Proof.
  intros Hlet Hst Ho Hno Hg. unfold unsafeInsertUninitializedTransition. rewrite Hg, Hst. cbn [bind].
  destruct (zlen (s_trans st) >=? 254) eqn:Efull; [left; split; [lia|reflexivity]|right]. pose proof (zget_ok_range _ _ _ Hst) as Hir.
  assert (Hnone : forall j t, zget (s_trans st) j = Ok t -> t_first t <> g).
  { intros j t Hj E. pose proof (lookup_zget _ _ _ Ho Hj) as H. rewrite E, Hno in H. discriminate. }
  destruct (ordered_index_spec (s_trans st) g Ho Hnone (length (s_trans st)) (Nat.le_refl _)) as (n & -> & Hnle & Hbelow & Habove).
  { intros j t Hj Hge. apply zget_ok_range in Hj. unfold zlen in Hj. lia. }
  cbn [bind]. rewrite zset_ok by lia. cbn [bind]. rewrite u8_id by (unfold byte; unfold zlen in *; lia).
  eexists _, _. split; [reflexivity|]. split; [lia|]. cbn [s_trans].
  assert (Lf : length (firstn n (s_trans st)) = n) by (rewrite firstn_length; lia).
  split. { rewrite zget_app_r by (unfold zlen; lia). replace (Z.of_nat n - _) with 0 by (unfold zlen; lia). apply zget_cons_0. }
  intros m nx. cbv zeta. rewrite Nat2Z.id. remember (mkTransition g (hi g) m nx) as t' eqn:Et.
  pose proof (upd_middle (firstn n (s_trans st)) (skipn n (s_trans st)) (mkTransition g (hi g) 255 255) t') as U. rewrite Lf in U. rewrite U.
  split; [|split].
  - apply insert_ordered; [rewrite firstn_skipn; exact Ho|subst t'; split; [reflexivity|exact Hlet]| |].
    + intros u Hu. apply in_zget in Hu. destruct Hu as (j & Hj). pose proof (zget_ok_range _ _ _ Hj) as Hjr. unfold zlen in Hjr. rewrite Lf in Hjr.
      subst t'. cbn [t_first]. apply (Hbelow j u); [|lia]. rewrite <- (firstn_skipn n (s_trans st)). rewrite zget_app_l by (unfold zlen; lia). exact Hj.
    + intros u Hu. apply in_zget in Hu. destruct Hu as (j & Hj). pose proof (zget_ok_range _ _ _ Hj) as Hjr.
      subst t'. cbn [t_first]. apply (Habove (Z.of_nat n + j) u); [|lia]. rewrite <- (firstn_skipn n (s_trans st)). rewrite zget_app_r by (unfold zlen; lia).
      replace (Z.of_nat n + j - zlen (firstn n (s_trans st))) with j by (unfold zlen; lia). exact Hj.
  - rewrite zlen_app, zlen_cons. unfold zlen in *. rewrite Lf, skipn_length. lia.
  - intros y. pose proof (lookup_insert (firstn n (s_trans st)) (skipn n (s_trans st)) t' y) as H. rewrite firstn_skipn in H.
    replace (t_first t') with g in H by (subst t'; reflexivity). apply H. exact Hno.
Qed.

Variable k : kind.
Definition plain_letter (g : Z) : Prop := letter g /\ hi g < k_succ k (hi g).
Definition append_all (s m : Z) (gs : list Z) (c : compiler) : outcome compiler := ofold (fun c g => AppendRange k c s g (hi g) m) gs c.

Lemma append_insert c s g m st : plain_letter g -> zget (c_states c) s = Ok st -> ordered (s_trans st) -> zlen (s_trans st) <= 254 -> lookup (s_trans st) g = None ->
  AppendRange k c s g (hi g) m = insertNewTransition (with_grown c false) s g (hi g) m 0.
Proof.
  intros [Hl Hs] Hst Ho Hz Hno. destruct (append_single k c s g m st Hl Hs Hst Ho Hz) as [(j & t & Hj & E & _)|[_ E]]; [|exact E].
  pose proof (lookup_zget _ _ _ Ho Hj) as H. rewrite E, Hno in H. discriminate.
Qed.

(** the last element: every transition ends the rule *)
Lemma last_letters r d s : 0 <= r < 255 -> forall gs c st, NoDup gs -> Forall plain_letter gs -> book c r d -> zget (c_states c) s = Ok st -> ordered (s_trans st) -> zlen (s_trans st) <= 254 ->
  (forall g, In g gs -> lookup (s_trans st) g = None) ->
  (append_all s r gs c = hit_limits /\ 254 < zlen (s_trans st) + zlen gs) \/
  exists c' st', append_all s r gs c = Ok c' /\ book c' r d /\ c_states c' = upd (c_states c) (Z.to_nat s) st' /\ c_rule c' = c_rule c /\ c_depth c' = c_depth c /\ c_to c' = c_to c /\
    c_depths c' = c_depths c /\ ordered (s_trans st') /\ zlen (s_trans st') = zlen (s_trans st) + zlen gs /\ zlen (s_trans st') <= 254 /\
    forall y, match lookup (s_trans st') y with
              | Some t => In y gs /\ t_next t = 255 /\ t_match t = r \/ ~ In y gs /\ lookup (s_trans st) y = Some t
              | None => ~ In y gs /\ lookup (s_trans st) y = None
              end.
Proof.
  intros Hr. induction gs as [|g gs IH]; intros c st Hnd Hpl B Hst Ho Hz Hno; cbn [append_all ofold].
  - right. exists c, st. rewrite zlen_nil. pose proof (zget_ok_range _ _ _ Hst). split; [reflexivity|]. split; [exact B|].
    split. { symmetry. apply fan_upd_get. exact Hst. } repeat (split; [first [reflexivity|assumption|lia]|]). intros y. destruct (lookup (s_trans st) y); [right; split; [intros []|reflexivity]|split; [intros []|reflexivity]].
  - inversion Hnd as [|? ? Hni Hnd']; subst. inversion Hpl as [|? ? Hp Hpl']; subst. rewrite zlen_cons. pose proof (zlen_nonneg gs).
    rewrite (append_insert c s g r st Hp Hst Ho Hz (Hno g (or_introl eq_refl))). unfold insertNewTransition.
    destruct (insert_letter (with_grown c false) s g st (proj1 Hp) Hst Ho (Hno g (or_introl eq_refl)) eq_refl) as [[Hfull ->]|(st0 & idx & -> & Hroom & Hget & Hnew)].
    { left. split; [reflexivity|lia]. }
    cbn [bind]. replace (r =? 255) with false by lia. pose proof (zget_ok_range _ _ _ Hst) as Hsr.
    rewrite (set_transition_ok _ _ _ _ st0 (mkTransition g (hi g) 255 255)); [|cbn [c_states with_states with_grown]; apply zget_upd_same; lia|exact Hget]. cbn [bind t_first t_last].
    destruct (Hnew r 255) as (No & Nz & Nl). set (ts := upd (s_trans st0) (Z.to_nat idx) (mkTransition g (hi g) r 255)) in *.
    set (st1 := mkState ts (s_min st0) (s_max st0)). cbn [c_states with_states with_grown]. rewrite fan_upd_upd.
    match goal with |- context [ofold _ gs ?x] => set (c1 := x) end.
    assert (B1 : book c1 r d) by (unfold c1; apply (book_states c r d (upd (c_states c) (Z.to_nat s) st1) false B); apply zlen_upd).
    destruct (IH c1 st1 Hnd' Hpl' B1) as [[E1 E2]|(c' & st' & E1 & E2 & E3 & E4 & E5 & E6 & E7 & E8 & E9 & E10 & E11)].
    + unfold c1. cbn [c_states with_states with_grown]. apply zget_upd_same. lia.
    + exact No.
    + cbn [s_trans st1]. lia.
    + intros g' Hg'. cbn [s_trans st1]. rewrite Nl. destruct (Z.eqb_spec g' g) as [->|_]; [contradiction|]. apply Hno. right. exact Hg'.
    + left. split; [exact E1|]. cbn [s_trans st1] in E2. lia.
    + right. exists c', st'. split; [exact E1|]. split; [exact E2|]. split. { rewrite E3. unfold c1. cbn [c_states with_states with_grown]. apply fan_upd_upd. }
      repeat (split; [assumption|]). split; [cbn [s_trans st1] in E9; lia|]. split; [exact E10|]. intros y. specialize (E11 y). cbn [s_trans st1] in E11. rewrite Nl in E11.
      destruct (lookup (s_trans st') y) as [t|].
      * destruct E11 as [(H1 & H2 & H3)|[H1 H2]]; [left; split; [right; exact H1|auto]|]. destruct (Z.eqb_spec y g) as [->|Hne].
        -- injection H2 as <-. left. split; [left; reflexivity|]. split; reflexivity.
        -- right. split; [intros [E|E]; [congruence|contradiction]|exact H2].
      * destruct E11 as [H1 H2]. destruct (Z.eqb_spec y g) as [->|Hne]; [discriminate|]. split; [intros [E|E]; [congruence|contradiction]|exact H2].
Qed.

(** the other elements: every transition leads to the same new state *)
Lemma more_letters r d s s' : forall gs c st u, NoDup gs -> Forall plain_letter gs -> linked c r d s' u -> s <> s' -> zget (c_states c) s = Ok st -> ordered (s_trans st) -> zlen (s_trans st) <= 254 ->
  u <= zlen (s_trans st) -> (forall g, In g gs -> lookup (s_trans st) g = None) ->
  (append_all s 255 gs c = hit_limits /\ 254 < zlen (s_trans st) + zlen gs) \/
  exists c' st' u', append_all s 255 gs c = Ok c' /\ linked c' r d s' u' /\ c_states c' = upd (c_states c) (Z.to_nat s) st' /\ c_depths c' = c_depths c /\
    ordered (s_trans st') /\ zlen (s_trans st') = zlen (s_trans st) + zlen gs /\ zlen (s_trans st') <= 254 /\
    forall y, match lookup (s_trans st') y with
              | Some t => In y gs /\ t_next t = s' /\ t_match t = 255 \/ ~ In y gs /\ lookup (s_trans st) y = Some t
              | None => ~ In y gs /\ lookup (s_trans st) y = None
              end.
Proof.
  induction gs as [|g gs IH]; intros c st u Hnd Hpl B Hss Hst Ho Hz Hu Hno; cbn [append_all ofold].
  - right. exists c, st, u. rewrite zlen_nil. split; [reflexivity|]. split; [exact B|].
    split. { symmetry. apply fan_upd_get. exact Hst. } repeat (split; [first [reflexivity|assumption|lia]|]). intros y. destruct (lookup (s_trans st) y); [right; split; [intros []|reflexivity]|split; [intros []|reflexivity]].
  - inversion Hnd as [|? ? Hni Hnd']; subst. inversion Hpl as [|? ? Hp Hpl']; subst. rewrite zlen_cons. pose proof (zlen_nonneg gs).
    rewrite (append_insert c s g 255 st Hp Hst Ho Hz (Hno g (or_introl eq_refl))). unfold insertNewTransition.
    destruct (insert_letter (with_grown c false) s g st (proj1 Hp) Hst Ho (Hno g (or_introl eq_refl)) eq_refl) as [[Hfull ->]|(st0 & idx & -> & Hroom & Hget & Hnew)].
    { left. split; [reflexivity|lia]. }
    cbn [bind]. rewrite Z.eqb_refl. pose proof (zget_ok_range _ _ _ Hst) as Hsr. cbn [c_states with_states with_grown].
    set (c0 := with_states (with_grown c false) (upd (c_states c) (Z.to_nat s) st0)).
    assert (B0 : linked c0 r d s' u) by (unfold c0; apply (linked_states c r d s' u (upd (c_states c) (Z.to_nat s) st0) false B); apply zlen_upd).
    destruct (linker_again c0 r d s' u B0 ltac:(lia)) as (c1 & -> & S1 & B1 & D1). cbn [bind].
    assert (Hst1 : zget (c_states c1) s = Ok st0) by (rewrite S1; unfold c0; cbn [c_states with_states]; apply zget_upd_same; lia).
    rewrite (set_transition_ok _ _ _ _ st0 (mkTransition g (hi g) 255 255)) by assumption. cbn [bind t_first t_last].
    destruct (Hnew 255 s') as (No & Nz & Nl). set (ts := upd (s_trans st0) (Z.to_nat idx) (mkTransition g (hi g) 255 s')) in *.
    set (st1 := mkState ts (s_min st0) (s_max st0)). rewrite S1. unfold c0. cbn [c_states with_states with_grown]. rewrite fan_upd_upd.
    match goal with |- context [ofold _ gs ?x] => set (c2 := x) end.
    assert (B2 : linked c2 r d s' (u + 1)).
    { unfold c2. assert (E : with_grown (with_states c1 (upd (c_states c) (Z.to_nat s) st1)) (c_grown c1) = with_states c1 (upd (c_states c) (Z.to_nat s) st1)) by (destruct c1; reflexivity).
      rewrite <- E. apply linked_states; [exact B1|]. rewrite S1. unfold c0. cbn [c_states with_states]. rewrite !zlen_upd. reflexivity. }
    destruct (IH c2 st1 (u + 1) Hnd' Hpl' B2 Hss) as [[E1 E2]|(c' & st' & u' & E1 & E2 & E3 & E7 & E8 & E9 & E10 & E11)].
    + unfold c2. cbn [c_states with_states with_grown]. apply zget_upd_same. lia.
    + exact No.
    + cbn [s_trans st1]. lia.
    + cbn [s_trans st1]. lia.
    + intros g' Hg'. cbn [s_trans st1]. rewrite Nl. destruct (Z.eqb_spec g' g) as [->|_]; [contradiction|]. apply Hno. right. exact Hg'.
    + left. split; [exact E1|]. cbn [s_trans st1] in E2. lia.
    + right. exists c', st', u'. split; [exact E1|]. split; [exact E2|]. split. { rewrite E3. unfold c2. cbn [c_states with_states with_grown]. apply fan_upd_upd. }
      split. { rewrite E7. unfold c2. cbn [c_depths with_states]. rewrite D1. reflexivity. }
      repeat (split; [assumption|]). split; [cbn [s_trans st1] in E9; lia|]. split; [exact E10|]. intros y. specialize (E11 y). cbn [s_trans st1] in E11. rewrite Nl in E11.
      destruct (lookup (s_trans st') y) as [t|].
      * destruct E11 as [(H1 & H2 & H3)|[H1 H2]]; [left; split; [right; exact H1|auto]|]. destruct (Z.eqb_spec y g) as [->|Hne].
        -- injection H2 as <-. left. split; [left; reflexivity|]. split; reflexivity.
        -- right. split; [intros [E|E]; [congruence|contradiction]|exact H2].
      * destruct E11 as [H1 H2]. destruct (Z.eqb_spec y g) as [->|Hne]; [discriminate|]. split; [intros [E|E]; [congruence|contradiction]|exact H2].
Qed.
Lemma all_letters r d s : forall gs c st, gs <> [] -> NoDup gs -> Forall plain_letter gs -> book c r d -> c_rule c = r -> c_depth c = d -> 0 <= d <= zlen (c_depths c) -> c_to c = [] ->
  zget (c_states c) s = Ok st -> ordered (s_trans st) -> zlen (s_trans st) <= 254 -> (forall g, In g gs -> lookup (s_trans st) g = None) ->
  (append_all s 255 gs c = hit_limits /\ (zlen (c_states c) = 254 \/ 254 < zlen (s_trans st) + zlen gs)) \/
  exists c' st' u', append_all s 255 gs c = Ok c' /\ linked c' r d (zlen (c_states c)) u' /\ c_states c' = upd (c_states c) (Z.to_nat s) st' ++ [state_empty] /\ d + 1 <= zlen (c_depths c') /\
    ordered (s_trans st') /\ zlen (s_trans st') = zlen (s_trans st) + zlen gs /\ zlen (s_trans st') <= 254 /\
    forall y, match lookup (s_trans st') y with
              | Some t => In y gs /\ t_next t = zlen (c_states c) /\ t_match t = 255 \/ ~ In y gs /\ lookup (s_trans st) y = Some t
              | None => ~ In y gs /\ lookup (s_trans st) y = None
              end.
Proof.
  intros [|g gs] c st Hne Hnd Hpl B Er Ed Hd Eto Hst Ho Hz Hno; [congruence|]. clear Hne. cbn [append_all ofold].
  inversion Hnd as [|? ? Hni Hnd']; subst. inversion Hpl as [|? ? Hp Hpl']; subst. rewrite zlen_cons. pose proof (zlen_nonneg gs).
  rewrite (append_insert c s g 255 st Hp Hst Ho Hz (Hno g (or_introl eq_refl))). unfold insertNewTransition.
  destruct (insert_letter (with_grown c false) s g st (proj1 Hp) Hst Ho (Hno g (or_introl eq_refl)) eq_refl) as [[Hfull ->]|(st0 & idx & -> & Hroom & Hget & Hnew)].
  { left. split; [reflexivity|lia]. }
  cbn [bind]. rewrite Z.eqb_refl. pose proof (zget_ok_range _ _ _ Hst) as Hsr. cbn [c_states with_states with_grown].
  set (c0 := with_states (with_grown c false) (upd (c_states c) (Z.to_nat s) st0)).
  assert (B0 : book c0 (c_rule c) (c_depth c)) by (unfold c0; apply (book_states c _ _ (upd (c_states c) (Z.to_nat s) st0) false B); apply zlen_upd).
  assert (Z0 : zlen (c_states c0) = zlen (c_states c)) by (unfold c0; cbn [c_states with_states]; apply zlen_upd).
  destruct (linker_new c0 (c_rule c) (c_depth c) B0 eq_refl eq_refl Hd Eto) as [[-> Hfull]|(c1 & -> & S1 & B1 & D1)].
  { left. split; [reflexivity|left; lia]. }
  cbn [bind]. rewrite Z0 in *.
  assert (Hst1 : zget (c_states c1) s = Ok st0) by (rewrite S1, zget_app_l by lia; unfold c0; cbn [c_states with_states]; apply zget_upd_same; lia).
  rewrite (set_transition_ok _ _ _ _ st0 (mkTransition g (hi g) 255 255)) by assumption. cbn [bind t_first t_last].
  destruct (Hnew 255 (zlen (c_states c))) as (No & Nz & Nl). set (ts := upd (s_trans st0) (Z.to_nat idx) (mkTransition g (hi g) 255 (zlen (c_states c)))) in *.
  set (st1 := mkState ts (s_min st0) (s_max st0)).
  assert (ES : upd (c_states c1) (Z.to_nat s) st1 = upd (c_states c) (Z.to_nat s) st1 ++ [state_empty]).
  { rewrite S1. rewrite fan_upd_app_l by (unfold zlen in *; lia). unfold c0. cbn [c_states with_states]. rewrite fan_upd_upd. reflexivity. }
  rewrite ES. match goal with |- context [ofold _ gs ?x] => set (c2 := x) end.
  assert (B2 : linked c2 (c_rule c) (c_depth c) (zlen (c_states c)) 1).
  { unfold c2. assert (E : with_grown (with_states c1 (upd (c_states c) (Z.to_nat s) st1 ++ [state_empty])) (c_grown c1) = with_states c1 (upd (c_states c) (Z.to_nat s) st1 ++ [state_empty])) by (destruct c1; reflexivity).
    rewrite <- E. apply linked_states; [exact B1|]. rewrite <- ES. apply zlen_upd. }
  assert (Z2 : zlen (upd (c_states c) (Z.to_nat s) st1) = zlen (c_states c)) by apply zlen_upd.
  destruct (more_letters (c_rule c) (c_depth c) s (zlen (c_states c)) gs c2 st1 1 Hnd' Hpl' B2) as [[E1 E2]|(c' & st' & u' & E1 & E2 & E3 & E7 & E8 & E9 & E10 & E11)].
  + lia.
  + unfold c2. cbn [c_states with_states with_grown]. rewrite zget_app_l by lia. apply zget_upd_same. lia.
  + exact No.
  + cbn [s_trans st1]. lia.
  + cbn [s_trans st1]. pose proof (zlen_nonneg (s_trans st)). lia.
  + intros g' Hg'. cbn [s_trans st1]. rewrite Nl. destruct (Z.eqb_spec g' g) as [->|_]; [contradiction|]. apply Hno. right. exact Hg'.
  + left. split; [exact E1|]. cbn [s_trans st1] in E2. lia.
  + right. exists c', st', u'. split; [exact E1|]. split; [exact E2|].
    split. { rewrite E3. unfold c2. cbn [c_states with_states with_grown]. rewrite fan_upd_app_l by (unfold zlen in *; lia). rewrite fan_upd_upd. reflexivity. }
    split. { rewrite E7. unfold c2. cbn [c_depths with_states]. lia. }
    repeat (split; [assumption|]). split; [cbn [s_trans st1] in E9; lia|]. split; [exact E10|]. intros y. specialize (E11 y). cbn [s_trans st1] in E11. rewrite Nl in E11.
    destruct (lookup (s_trans st') y) as [t|].
    * destruct E11 as [(H1 & H2 & H3)|[H1 H2]]; [left; split; [right; exact H1|auto]|]. destruct (Z.eqb_spec y g) as [->|Hne].
      -- injection H2 as <-. left. split; [left; reflexivity|]. split; reflexivity.
      -- right. split; [intros [E|E]; [congruence|contradiction]|exact H2].
    * destruct E11 as [H1 H2]. destruct (Z.eqb_spec y g) as [->|Hne]; [discriminate|]. split; [intros [E|E]; [congruence|contradiction]|exact H2].
Qed.

(** ** The end of a round *)
Lemma split_unused_none c : forall l, (forall j, In j l -> 1 <= j /\ exists u, zget (c_uses c) (j - 1) = Ok u /\ 1 <= u) -> split_unused c l = Ok ([], l).
Proof.
  induction l as [|j l IH]; intros H; cbn [split_unused]; [reflexivity|]. destruct (H j (or_introl eq_refl)) as (H1 & u & H2 & H3).
  unfold unused. replace (j =? 0) with false by lia. rewrite H2. cbn [bind]. rewrite IH by (intros i Hi; apply H; right; exact Hi). cbn [bind].
  replace (u =? 0) with false by lia. reflexivity.
Qed.
Lemma next_fan c r e : book c r e -> 0 <= c_depth c <= zlen (c_depths c) -> c_depth c < 254 ->
  next_round c = Ok (mkCompiler (c_states c) (c_rule c) (c_depth c + 1) [] (c_freed c) (c_uses c) (c_rules c) (c_depths c) (c_grown c), c_to c).
Proof.
  intros B Hd Hs. unfold next_round.
  assert (E : exists c', freeUnusedStates c = Ok c' /\ c' = c).
  { unfold freeUnusedStates. destruct (Z.eqb_spec (c_depth c) 0) as [E|E]; [exists c; split; reflexivity|].
    destruct (zget_in_range (c_depths c) (c_depth c - 1)) as (l & Hl); [lia|]. rewrite Hl. cbn [bind].
    rewrite split_unused_none. 2: { intros j Hj. destruct (b_depth _ _ _ B _ _ Hl _ Hj) as (H1 & H2 & _). split; [lia|exact H2]. }
    cbn [bind]. rewrite zset_ok by lia. cbn [bind]. eexists. split; [reflexivity|]. rewrite (fan_upd_get _ _ _ Hl), app_nil_r. destruct c; reflexivity. }
  destruct E as (c' & -> & ->). cbn [bind]. rewrite u8_id by (unfold byte; lia). replace (c_depth c + 1 =? 0) with false by lia. reflexivity.
Qed.

(** ** One rule *)
Definition stands_all (sets : set_reader) (e : element) (N : list Z) : Prop :=
  Forall plain_letter N /\ NoDup N /\ N <> [] /\
  match e with
  | Single x => N = [x] /\ hi x = x
  | InSet s => s <> 255 /\ forall state m c, sets s (append_callback k state m) c = append_all state m N c
  end.
(** A transition that leads on to the rest of a rule *)
Definition leads (N : list Z) (ok : transition -> Prop) (ts : list transition) : Prop :=
  ordered ts /\ zlen ts <= 254 /\ forall y, match lookup ts y with Some t => In y N /\ ok t | None => ~ In y N end.
Fixpoint chain (states : list state) (Ns : list (list Z)) (r : Z) (t : transition) : Prop :=
  match Ns with
  | [] => t_next t = 255 /\ t_match t = r
  | N :: Ns => t_match t = 255 /\ 1 <= t_next t < 255 /\ exists st, zget states (t_next t) = Ok st /\ leads N (chain states Ns r) (s_trans st)
  end.
Lemma chain_grow states states' r : (forall j st, 1 <= j -> zget states j = Ok st -> zget states' j = Ok st) -> forall Ns t, chain states Ns r t -> chain states' Ns r t.
Proof.
  intros H. induction Ns as [|N Ns IH]; intros t; cbn [chain]; [auto|]. intros (H1 & H2 & st & H3 & H4 & H5 & H6). split; [exact H1|]. split; [exact H2|].
  exists st. split; [apply H; [lia|exact H3]|]. split; [exact H4|]. split; [exact H5|]. intros y. specialize (H6 y). destruct (lookup (s_trans st) y); [|exact H6].
  destruct H6 as [H6 H7]. split; [exact H6|apply IH; exact H7].
Qed.

Section Feed.
Variables (sets : set_reader) (headLen : Z).
Lemma feed_append c s st e N m : zget (c_states c) s = Ok st -> stands_all sets e N ->
  feed_state k sets headLen e m c s = append_all s m N (with_states c (upd (c_states c) (Z.to_nat s) (UpdateHeadLen st headLen))).
Proof.
  intros Hst (_ & _ & _ & He). pose proof (zget_ok_range _ _ _ Hst). unfold feed_state. rewrite Hst. cbn [bind]. rewrite zset_ok by lia. cbn [bind].
  destruct e as [set|x].
  - destruct He as [H1 H2]. replace (set =? 255) with false by lia. apply H2.
  - destruct He as [-> H1]. unfold append_all. cbn [ofold]. rewrite H1. destruct (AppendRange _ _ _ _ _ _); reflexivity.
Qed.
Lemma feed_elems_cons e es c from : feed_elems k sets headLen (e :: es) c from =
  do c <- ofold (feed_state k sets headLen e (match es with [] => c_rule c | _ => 255 end)) from c; do ' (c, from) <- next_round c; feed_elems k sets headLen es c from.
Proof. reflexivity. Qed.
Lemma fan_one {A B} (f : A -> B -> outcome A) a b : ofold f [b] a = f a b.
Proof. cbn [ofold]. destruct (f a b); reflexivity. Qed.
Lemma feed_fan r : 0 <= r < 255 -> forall Ns N es e c s st d, stands_all sets e N -> Forall2 (stands_all sets) es Ns ->
  book c r d -> c_rule c = r -> c_depth c = d -> 0 <= d <= zlen (c_depths c) -> d < zlen (c_states c) -> c_to c = [] ->
  zget (c_states c) s = Ok st -> ordered (s_trans st) -> zlen (s_trans st) <= 254 -> (forall g, In g N -> lookup (s_trans st) g = None) ->
  (feed_elems k sets headLen (e :: es) c [s] = hit_limits /\
    ~ (zlen (c_states c) + zlen Ns <= 254 /\ zlen (s_trans st) + zlen N <= 254 /\ Forall (fun N => zlen N <= 254) Ns)) \/
  exists c' st' new e', feed_elems k sets headLen (e :: es) c [s] = Ok c' /\ book c' r e' /\ c_states c' = upd (c_states c) (Z.to_nat s) st' ++ new /\ zlen new = zlen Ns /\
    zlen (s_trans st) + zlen N <= 254 /\ Forall (fun N => zlen N <= 254) Ns /\
    ordered (s_trans st') /\ zlen (s_trans st') = zlen (s_trans st) + zlen N /\
    forall y, match lookup (s_trans st') y with
              | Some t => In y N /\ chain (c_states c') Ns r t \/ ~ In y N /\ lookup (s_trans st) y = Some t
              | None => ~ In y N /\ lookup (s_trans st) y = None
              end.
Proof.
  intros Hr. induction Ns as [|N' Ns IH]; intros N es e c s st d He Hes B Er Ed Hd Hds Eto Hst Ho Hz Hno;
    inversion Hes as [|e' ? es' ? He' Hes' Eq1 Eq2]; subst es; try (clear Eq2; subst); rewrite feed_elems_cons, fan_one; rewrite ?Er;
    rewrite (feed_append _ _ _ _ _ _ Hst He); pose proof (zget_ok_range _ _ _ Hst) as Hsr; pose proof (b_len _ _ _ B) as Hlen;
    set (c1 := with_states c (upd (c_states c) (Z.to_nat s) (UpdateHeadLen st headLen))).
  - assert (B1 : book c1 r d).
    { assert (E : c1 = with_grown (with_states c (upd (c_states c) (Z.to_nat s) (UpdateHeadLen st headLen))) (c_grown c)) by (destruct c; reflexivity).
      rewrite E. apply book_states; [exact B|apply zlen_upd]. }
    destruct He as (Hpl & Hnd & _ & _).
    destruct (last_letters r d s Hr N c1 (UpdateHeadLen st headLen) Hnd Hpl B1) as [[E1 E2]|(c' & st' & E1 & E2 & E3 & E4 & E5 & E6 & E7 & E8 & E9 & E10 & E11)].
    { unfold c1. cbn [c_states with_states]. apply zget_upd_same. lia. }
    { exact Ho. } { exact Hz. } { exact Hno. }
    + rewrite E1. left. split; [reflexivity|]. cbn [s_trans UpdateHeadLen] in E2. lia.
    + rewrite E1. cbn [bind]. right. change (s_trans (UpdateHeadLen st headLen)) with (s_trans st) in *. change (c_states c1) with (upd (c_states c) (Z.to_nat s) (UpdateHeadLen st headLen)) in E3. rewrite fan_upd_upd in E3.
      change (c_depth c1) with (c_depth c) in E5. change (c_depths c1) with (c_depths c) in E7.
      rewrite (next_fan c' r d E2) by (rewrite ?E5, ?E7; lia). cbn [bind]. eexists _, st', [], d. split; [reflexivity|].
      split. { constructor; cbn [c_states c_uses c_rules c_freed c_depths]; apply E2. }
      cbn [c_states]. rewrite app_nil_r. split; [exact E3|]. rewrite zlen_nil. split; [reflexivity|]. split; [lia|]. split; [constructor|]. split; [exact E8|]. split; [exact E9|].
      intros y. specialize (E11 y). exact E11.
  - assert (B1 : book c1 (c_rule c) (c_depth c)).
    { assert (E : c1 = with_grown (with_states c (upd (c_states c) (Z.to_nat s) (UpdateHeadLen st headLen))) (c_grown c)) by (destruct c; reflexivity).
      rewrite E. apply book_states; [exact B|apply zlen_upd]. }
    destruct He as (Hpl & Hnd & Hne & _). rewrite !zlen_cons. pose proof (zlen_nonneg Ns) as HNs.
    assert (Z1 : zlen (c_states c1) = zlen (c_states c)) by apply zlen_upd.
    destruct (all_letters (c_rule c) (c_depth c) s N c1 (UpdateHeadLen st headLen) Hne Hnd Hpl B1 eq_refl eq_refl Hd Eto) as [[E1 E2]|(c' & st' & u' & E1 & E2 & E3 & E7 & E8 & E9 & E10 & E11)].
    { unfold c1. cbn [c_states with_states]. apply zget_upd_same. lia. }
    { exact Ho. } { exact Hz. } { exact Hno. }
    + rewrite E1. left. split; [reflexivity|]. cbn [s_trans UpdateHeadLen] in E2. lia.
    + rewrite E1. cbn [bind]. change (s_trans (UpdateHeadLen st headLen)) with (s_trans st) in *. change (c_states c1) with (upd (c_states c) (Z.to_nat s) (UpdateHeadLen st headLen)) in E3. rewrite fan_upd_upd in E3.
      destruct E2 as (B2 & R2 & D2 & To2 & S2 & _). rewrite Z1 in *.
      assert (Zc : zlen (c_states c') = zlen (c_states c) + 1) by (rewrite E3, zlen_app, zlen_upd; reflexivity).
      pose proof (b_len _ _ _ B2) as Hlen2.
      rewrite (next_fan c' _ _ B2) by lia. cbn [bind]. rewrite To2.
      match goal with |- context [feed_elems _ _ _ _ ?x] => set (c2 := x) end.
      assert (B3 : book c2 (c_rule c) (c_depth c + 1)) by (constructor; cbn [c2 c_states c_uses c_rules c_freed c_depths]; apply B2).
      assert (G2 : zget (c_states c2) (zlen (c_states c)) = Ok state_empty).
      { cbn [c2 c_states]. rewrite E3, zget_app_r by (rewrite zlen_upd; lia). rewrite zlen_upd, Z.sub_diag. apply zget_cons_0. }
      destruct (IH N' es' e' c2 (zlen (c_states c)) state_empty (c_depth c + 1) He' Hes' B3) as [[F1 F2]|(c3 & st3 & new & e3 & F1 & F2 & F3 & F4 & F5 & F6 & F7 & F8 & F9)].
      * exact R2.
      * cbn [c2 c_depth]. lia.
      * cbn [c2 c_depths]. lia.
      * cbn [c2 c_states]. lia.
      * reflexivity.
      * exact G2.
      * cbn [s_trans state_empty]. split; constructor.
      * cbn [s_trans state_empty]. rewrite zlen_nil. lia.
      * reflexivity.
      * rewrite F1. left. split; [reflexivity|]. intros (K1 & K2 & K3). apply F2. inversion K3; subst. cbn [c2 c_states s_trans state_empty]. rewrite zlen_nil.
        split; [lia|]. split; [lia|assumption].
      * rewrite F1. right. cbn [s_trans state_empty] in F5, F8. rewrite zlen_nil in F5, F8.
        assert (S3 : c_states c3 = upd (c_states c) (Z.to_nat s) st' ++ st3 :: new).
        { rewrite F3. cbn [c2 c_states]. rewrite E3. pose proof (upd_app_r (upd (c_states c) (Z.to_nat s) st') [state_empty] 0 st3) as U.
          rewrite Nat.add_0_r in U. replace (length (upd (c_states c) (Z.to_nat s) st')) with (Z.to_nat (zlen (c_states c))) in U.
          - rewrite U. cbn [upd]. rewrite <- app_assoc. reflexivity.
          - rewrite <- (zlen_upd (c_states c) (Z.to_nat s) st'). unfold zlen. lia. }
        exists c3, st', (st3 :: new), e3. split; [reflexivity|]. split; [exact F2|]. split; [exact S3|]. split; [rewrite zlen_cons; lia|]. split; [lia|].
        split; [constructor; [lia|exact F6]|]. split; [exact E8|]. split; [exact E9|]. intros y0. specialize (E11 y0).
        destruct (lookup (s_trans st') y0) as [t|]; [|exact E11]. destruct E11 as [(H1 & H2 & H3)|H]; [left|right; exact H]. split; [exact H1|].
        cbn [chain]. split; [exact H3|]. rewrite H2. split; [lia|]. exists st3. split.
        { rewrite S3, zget_app_r by (rewrite zlen_upd; lia). rewrite zlen_upd, Z.sub_diag. apply zget_cons_0. }
        split; [exact F7|]. split; [lia|]. intros y'. specialize (F9 y'). cbn [s_trans state_empty] in F9. destruct (lookup (s_trans st3) y') as [t'|].
        -- destruct F9 as [F9|[_ F9]]; [exact F9|discriminate].
        -- exact (proj1 F9).
Qed.
End Feed.

(** ** All the rules *)
Section Rules.
Variable sets : set_reader.
Definition fan_of (d : list Z * Z) (e : list (list Z) * Z) : Prop :=
  (exists es, scan k (fst d) = Ok es /\ Forall2 (stands_all sets) es (fst e)) /\ snd d = snd e /\ fst e <> [].
Definition fan_heads (P : list (list (list Z) * Z)) : list Z := concat (map (fun e => hd [] (fst e)) P).
Definition planted (c : compiler) (P : list (list (list Z) * Z)) (r : Z) : Prop :=
  book c r 0 /\ exists st, zget (c_states c) 0 = Ok st /\ ordered (s_trans st) /\ zlen (s_trans st) = zlen (fan_heads P) /\ zlen (fan_heads P) <= 254 /\
    forall y, match lookup (s_trans st) y with
              | Some t => exists N Ns i, In (N :: Ns, i) P /\ In y N /\ chain (c_states c) Ns i t
              | None => ~ In y (fan_heads P)
              end.
Lemma planted_in y P N Ns i : In (N :: Ns, i) P -> In y N -> In y (fan_heads P).
Proof. intros H1 H2. unfold fan_heads. apply in_concat. exists N. split; [|exact H2]. apply in_map_iff. exists (N :: Ns, i). auto. Qed.
Definition fan_room (P : list (list (list Z) * Z)) : Prop := Forall (fun e => Forall (fun N => zlen N <= 254) (tl (fst e))) P.

Lemma Feed_planted c P d e r' : planted (rooted c) P (snd e) -> fan_of d e -> 0 <= snd e < r' -> r' <= 255 -> NoDup (fan_heads (P ++ [e])) ->
  (compiler_Feed k sets c (fst d) (snd d) = hit_limits /\
    ~ (zlen (c_states (rooted c)) + (zlen (fst e) - 1) <= 254 /\ zlen (fan_heads (P ++ [e])) <= 254 /\ fan_room [e])) \/
  exists c', compiler_Feed k sets c (fst d) (snd d) = Ok c' /\ c_states c' <> [] /\ planted (rooted c') (P ++ [e]) r' /\
    zlen (c_states (rooted c')) = zlen (c_states (rooted c)) + (zlen (fst e) - 1) /\ fan_room [e].
Proof.
  intros (B & st & Hst & Ho & Hz & Hz' & Hl) ((es & Hscan & Hok) & Hi & Hne) Hr Hr' Hnd. unfold compiler_Feed. unfold scan in Hscan. apply bind_ok in Hscan. destruct Hscan as (s & Es & Hscan).
  rewrite Es. cbn [bind]. destruct (Start_head _ _ _ Es) as (h & ->). cbn [bind]. rewrite (feed_loop_elems _ _ _ _ _ _ _ _ Hscan).
  destruct e as [Ms r]. cbn [fst snd] in *. destruct Ms as [|N Ns]; [congruence|]. rewrite Hi. inversion Hok as [|el x2 els rest2 Hok1 Hok2 Eq1 [Eq2 Eq3]]. subst es x2 rest2.
  assert (Eh : fan_heads (P ++ [(N :: Ns, r)]) = fan_heads P ++ N) by (unfold fan_heads; rewrite map_app, concat_app; cbn [map concat fst hd]; rewrite app_nil_r; reflexivity).
  rewrite Eh in *. rewrite zlen_app, zlen_cons. set (c1 := mkCompiler _ r 0 [] (c_freed c) (c_uses c) (c_rules c) (c_depths c) (c_grown c)).
  assert (B1 : book c1 r 0) by (constructor; cbn [c1 c_states c_uses c_rules c_freed c_depths]; apply B).
  pose proof (b_len _ _ _ B) as Hlen. pose proof (zlen_nonneg (c_depths c)).
  assert (Hdis : forall y, In y (fan_heads P) -> ~ In y N).
  { intros y H1 H2. clear - Hnd H1 H2. induction (fan_heads P) as [|x l IH]; [destruct H1|]. cbn [app] in Hnd. inversion Hnd as [|? ? Hni Hnd']; subst.
    destruct H1 as [->|H1]; [apply Hni; apply in_or_app; right; exact H2|exact (IH Hnd' H1)]. }
  destruct (feed_fan sets h r ltac:(lia) Ns N els el c1 0 st 0 Hok1 Hok2 B1 eq_refl eq_refl) as [[E1 E2]|(c' & st' & new & e' & E1 & E2 & E3 & E4 & E5 & E6 & E7 & E8 & E9)].
  - cbn [c1 c_depths]. lia.
  - change (c_states c1) with (c_states (rooted c)). lia.
  - reflexivity.
  - exact Hst.
  - exact Ho.
  - lia.
  - intros g Hg. specialize (Hl g). destruct (lookup (s_trans st) g) as [t|]; [|reflexivity]. destruct Hl as (N0 & Ns0 & i & H1 & H2 & _).
    exfalso. apply (Hdis g); [exact (planted_in _ _ _ _ _ H1 H2)|exact Hg].
  - left. split; [exact E1|]. change (c_states c1) with (c_states (rooted c)) in E2. intros (K1 & K2 & K3). apply E2. split; [lia|]. split; [lia|]. apply Forall_inv in K3. exact K3.
  - right. exists c'. split; [exact E1|]. change (c_states c1) with (c_states (rooted c)) in E3. pose proof (b_len _ _ _ E2) as Hlen'.
    assert (Hs : c_states c' <> []) by (intros E; rewrite E, zlen_nil in Hlen'; lia). split; [exact Hs|].
    assert (Hroot : rooted c' = c') by (unfold rooted; destruct (c_states c') eqn:E; [contradiction|]; rewrite <- E; destruct c'; reflexivity). rewrite Hroot.
    assert (Zc : zlen (c_states c') = zlen (c_states (rooted c)) + zlen Ns) by (rewrite E3, zlen_app, zlen_upd; lia).
    split; [|split; [lia|constructor; [exact E6|constructor]]]. split; [apply (book_next _ r e'); [exact E2|lia]|].
    exists st'. split. { rewrite E3, zget_app_l by (rewrite zlen_upd; lia). apply zget_upd_same. lia. }
    rewrite Eh, zlen_app. split; [exact E7|]. split; [lia|]. split; [lia|]. intros y. specialize (E9 y). specialize (Hl y). destruct (lookup (s_trans st') y) as [t|].
    + destruct E9 as [[H1 H2]|[H1 H2]].
      * exists N, Ns, r. split; [apply in_or_app; right; left; reflexivity|]. auto.
      * rewrite H2 in Hl. destruct Hl as (N0 & Ns0 & i & L1 & L2 & L3). exists N0, Ns0, i. split; [apply in_or_app; left; exact L1|]. split; [exact L2|].
        apply (chain_grow (c_states (rooted c))); [|exact L3]. intros j stj Hj Hget. pose proof (zget_ok_range _ _ _ Hget).
        rewrite E3, zget_app_l by (rewrite zlen_upd; lia). rewrite zget_upd_other by lia. exact Hget.
    + destruct E9 as [H1 H2]. rewrite H2 in Hl. intros Hin. apply in_app_or in Hin. tauto.
Qed.
Definition fan_total (P : list (list (list Z) * Z)) : Z := fold_right (fun e n => zlen (fst e) - 1 + n) 0 P.
Lemma fan_total_nonneg rules Q : Forall2 fan_of rules Q -> 0 <= fan_total Q.
Proof.
  induction 1 as [|d e ds es (_ & _ & Hne) _ IH]; cbn [fan_total fold_right]; [lia|]. fold (fan_total es). pose proof (zlen_nonneg (fst e)).
  assert (zlen (fst e) <> 0) by (intros E; apply Hne; apply zlen_0_nil; exact E). lia.
Qed.
Lemma compile_planted : forall rules Q c P r, Forall2 fan_of rules Q -> increasing r (map snd Q) -> 0 <= r -> planted (rooted c) P r -> (Q = [] -> c_states c <> []) -> NoDup (fan_heads (P ++ Q)) ->
  let full := zlen (c_states (rooted c)) + fan_total Q <= 254 /\ zlen (fan_heads (P ++ Q)) <= 254 /\ fan_room Q in
  (ofold (fun c d => compiler_Feed k sets c (fst d) (snd d)) rules c = hit_limits /\ ~ full) \/
  exists c' r', ofold (fun c d => compiler_Feed k sets c (fst d) (snd d)) rules c = Ok c' /\ c_states c' <> [] /\ planted (rooted c') (P ++ Q) r' /\ full.
Proof.
  induction rules as [|d rules IH]; intros Q c P r H Hinc Hr Hset Hne Hnd full; inversion H as [|? e ? Q' Hd Hrest]; subst.
  - right. exists c, r. cbn [ofold]. destruct Hset as [B Hset]. pose proof (b_len _ _ _ B). unfold full. rewrite app_nil_r. cbn [fan_total fold_right].
    split; [reflexivity|]. split; [apply Hne; reflexivity|]. split; [split; [exact B|exact Hset]|]. destruct Hset as (st & _ & _ & _ & Hz & _). split; [lia|]. split; [lia|constructor].
  - cbn [map increasing] in Hinc. destruct Hinc as [Hi Hinc]. cbn [ofold].
    assert (Hset' : planted (rooted c) P (snd e)).
    { destruct (Z.eq_dec r (snd e)) as [<-|Hn]; [exact Hset|]. destruct Hset as [B Hl]. split; [apply (book_next _ r 0); [exact B|lia]|exact Hl]. }
    assert (Ea : P ++ e :: Q' = (P ++ [e]) ++ Q') by (rewrite <- app_assoc; reflexivity).
    assert (Eb : fan_heads ((P ++ [e]) ++ Q') = fan_heads (P ++ [e]) ++ fan_heads Q') by (unfold fan_heads; rewrite map_app, concat_app; reflexivity).
    rewrite Ea in Hnd. pose proof Hnd as Hnd1. rewrite Eb in Hnd1. apply fan_app_l in Hnd1.
    pose proof (fan_total_nonneg _ _ Hrest) as Hft. unfold full. cbn [fan_total fold_right]. fold (fan_total Q'). clear full.
    assert (Hmore : fan_room [e] /\ fan_room Q' <-> fan_room (e :: Q')).
    { unfold fan_room. split; [intros [K1 K2]; constructor; [exact (Forall_inv K1)|exact K2]|intros K; inversion K; subst; auto]. }
    destruct (Feed_planted c P d e (snd e + 1) Hset' Hd ltac:(lia) ltac:(lia) Hnd1) as [[-> Hfull]|(c1 & -> & Hs1 & Hset1 & Hgrow & Hroom)].
    { left. split; [reflexivity|]. intros (K1 & K2 & K3). apply Hfull. rewrite Ea, Eb, zlen_app in K2. pose proof (zlen_nonneg (fan_heads Q')). split; [lia|]. split; [lia|apply Hmore; exact K3]. }
    cbn [bind]. destruct (IH Q' c1 (P ++ [e]) (snd e + 1) Hrest Hinc ltac:(lia) Hset1 (fun _ => Hs1) Hnd) as [[-> Hfull]|(c2 & r2 & -> & G1 & G2 & G3)].
    { left. split; [reflexivity|]. intros (K1 & K2 & K3). apply Hfull. rewrite <- Ea. split; [lia|]. split; [exact K2|apply Hmore; exact K3]. }
    right. exists c2, r2. rewrite Ea. split; [reflexivity|]. split; [exact G1|]. split; [exact G2|]. destruct G3 as (K1 & K2 & K3). split; [lia|]. split; [exact K2|apply Hmore; auto].
Qed.
End Rules.

(** ** Matching *)
Fixpoint fan_fits (Ns : list (list Z)) (xs : list Z) : Prop :=
  match Ns, xs with
  | [], _ => True
  | N :: Ns, x :: xs => In x N /\ fan_fits Ns xs
  | _, [] => False
  end.
Lemma chain_match states r : 0 <= r < 255 -> forall Ns N st input j best, zget states j = Ok st -> leads N (chain states Ns r) (s_trans st) ->
  exists m, match_loop (mkTree states j best true) input = Ok m /\
    (fan_fits (N :: Ns) (map name input) /\ m = r \/ ~ fan_fits (N :: Ns) (map name input) /\ m = best).
Proof.
  intros Hr. induction Ns as [|N' Ns IH]; intros N st input j best Hst (Ho & Hz & Hl); (destruct input as [|x input]; [exists best; split; [reflexivity|right; split; [intros []|reflexivity]]|]);
    cbn [match_loop]; unfold tree_Feed; cbn [d_scanning d_states d_index d_best negb]; rewrite Hst; cbn [bind]; rewrite Trigger_spec by assumption; specialize (Hl (name x));
    destruct (lookup (s_trans st) (name x)) as [t|]; cbn [bind map fan_fits].
  - destruct Hl as (H1 & H2 & H3). rewrite H2, H3. rewrite Z.eqb_refl. replace (r =? 255) with false by lia. cbn [negb d_scanning d_best]. exists r. split; [reflexivity|]. left. auto.
  - rewrite Z.eqb_refl. cbn [negb d_scanning d_best]. exists best. split; [reflexivity|]. right. tauto.
  - destruct Hl as (H1 & H2 & H3 & st' & H4 & H5). rewrite H2. rewrite Z.eqb_refl. replace (t_next t =? 255) with false by lia. cbn [negb d_scanning d_best].
    destruct (IH N' st' input (t_next t) best H4 H5) as (m & E & [[F1 F2]|[F1 F2]]); exists m; (split; [exact E|]); [left|right]; cbn [fan_fits] in F1 |- *; tauto.
  - rewrite Z.eqb_refl. cbn [negb d_scanning d_best]. exists best. split; [reflexivity|]. right. tauto.
Qed.
Definition only_fit (P : list (list (list Z) * Z)) (xs : list Z) (m : Z) : Prop :=
  m = 255 /\ (forall Ns i, In (Ns, i) P -> ~ fan_fits Ns xs) \/
  exists before Ns after, P = before ++ (Ns, m) :: after /\ fan_fits Ns xs /\ forall Ms i, In (Ms, i) (before ++ after) -> ~ fan_fits Ms xs.
Lemma planted_match c P r : planted c P r -> (forall Ns i, In (Ns, i) P -> Ns <> [] /\ 0 <= i < 255) -> NoDup (fan_heads P) ->
  forall input index best, exists m, tree_Match (mkTree (c_states c) index best false) input = Ok m /\ only_fit P (map name input) m.
Proof.
  intros (B & st & Hst & Ho & Hz & Hz' & Hl) HP Hnd input index best. unfold tree_Match, tree_BeginSequence. cbn [d_scanning bind d_states].
  destruct input as [|x input].
  { exists 255. split; [reflexivity|]. left. split; [reflexivity|]. intros [|N Ns] i Hin; [destruct (HP _ _ Hin); congruence|]. intros []. }
  cbn [match_loop]. unfold tree_Feed. cbn [d_scanning d_states d_index d_best negb]. rewrite Hst. cbn [bind]. rewrite Trigger_spec by (try assumption; lia). specialize (Hl (name x)).
  cbn [map]. destruct (lookup (s_trans st) (name x)) as [t|]; cbn [bind].
  - destruct Hl as (N & Ns & i & H1 & H2 & H3). destruct (HP _ _ H1) as [_ Hi].
    assert (Hother : forall b a, P = b ++ (N :: Ns, i) :: a -> forall Ms i', In (Ms, i') (b ++ a) -> ~ fan_fits Ms (name x :: map name input)).
    { intros b a E Ms i' Hin Hf. assert (HinP : In (Ms, i') P) by (rewrite E; apply in_or_app; apply in_app_or in Hin; destruct Hin; [left|right; right]; assumption).
      destruct (HP _ _ HinP) as [Hm _]. destruct Ms as [|M Ms]; [congruence|]. destruct Hf as [Hf _]. rewrite E in Hnd. unfold fan_heads in Hnd. rewrite map_app, concat_app in Hnd. cbn [map concat fst hd] in Hnd.
      apply fan_app_comm in Hnd. rewrite <- app_assoc in Hnd.
      assert (Hoth : In (name x) (concat (map (fun e => hd [] (fst e)) a) ++ concat (map (fun e => hd [] (fst e)) b))).
      { apply in_or_app. apply in_app_or in Hin. destruct Hin as [Hin|Hin]; [right|left]; apply in_concat; exists M; (split; [|exact Hf]); apply in_map_iff; exists (M :: Ms, i'); auto. }
      revert Hnd Hoth. generalize (concat (map (fun e : list (list Z) * Z => hd [] (fst e)) a) ++ concat (map (fun e : list (list Z) * Z => hd [] (fst e)) b)). clear - H2. intros l Hnd Hoth.
      induction N as [|y N IH]; [destruct H2|]. cbn [app] in Hnd. inversion Hnd as [|? ? Hni Hnd']; subst. destruct H2 as [->|H2]; [apply Hni; apply in_or_app; right; exact Hoth|exact (IH H2 Hnd')]. }
    apply in_split in H1. destruct H1 as (b & a & E). specialize (Hother _ _ E).
    assert (Hend : fan_fits Ns (map name input) -> only_fit P (name x :: map name input) i).
    { intros F. right. exists b, (N :: Ns), a. split; [exact E|]. split; [split; assumption|exact Hother]. }
    destruct Ns as [|N' Ns].
    + destruct H3 as [H3 H4]. rewrite H3, H4, Z.eqb_refl. replace (i =? 255) with false by lia. cbn [negb d_scanning d_best]. exists i. split; [reflexivity|]. apply Hend. exact I.
    + destruct H3 as (H3 & H4 & st' & H5 & H6). rewrite H3, Z.eqb_refl. replace (t_next t =? 255) with false by lia. cbn [negb d_scanning d_best].
      destruct (chain_match (c_states c) i Hi Ns N' st' input (t_next t) 255 H5 H6) as (m & Em & [[F1 ->]|[F1 ->]]).
      * exists i. split; [exact Em|]. apply Hend. exact F1.
      * exists 255. split; [exact Em|]. left. split; [reflexivity|]. intros Ms i' Hin. rewrite E in Hin. apply in_app_or in Hin. destruct Hin as [Hin|[Hin|Hin]].
        -- apply (Hother Ms i'). apply in_or_app. left. exact Hin.
        -- injection Hin as <- <-. intros [_ F]. exact (F1 F).
        -- apply (Hother Ms i'). apply in_or_app. right. exact Hin.
  - rewrite Z.eqb_refl. cbn [negb d_scanning d_best]. exists 255. split; [reflexivity|]. left. split; [reflexivity|].
    intros [|N Ns] i Hin; [destruct (HP _ _ Hin); congruence|]. intros [F _]. apply Hl. exact (planted_in _ _ _ _ _ Hin F).
Qed.

Lemma fans_right sets data P : Forall2 (fan_of sets) data P -> data <> [] -> increasing 0 (map snd P) -> NoDup (fan_heads P) ->
  let full := 1 + fan_total P <= 254 /\ zlen (fan_heads P) <= 254 /\ fan_room P in
  (compile k sets data = hit_limits /\ ~ full) \/
  exists states, compile k sets data = Ok states /\ full /\ forall input index best, exists m, tree_Match (mkTree states index best false) input = Ok m /\ only_fit P (map name input) m.
Proof.
  intros H Hne Hinc Hnd full. unfold compile.
  assert (Hne' : P = [] -> c_states compiler_Begin <> []) by (intros ->; inversion H; subst; congruence).
  assert (H0 : planted (rooted compiler_Begin) [] 0).
  { split.
    - constructor; cbn [rooted compiler_Begin c_states c_uses c_rules c_freed c_depths with_states]; rewrite ?zlen_cons, ?zlen_nil; try lia; try reflexivity.
      intros n l Hn. exfalso. unfold zget in Hn. destruct (n <? 0); [discriminate|]. destruct (Z.to_nat n); discriminate.
    - exists state_empty. split; [reflexivity|]. split; [split; constructor|]. split; [reflexivity|]. split; [unfold fan_heads; cbn [map concat]; rewrite zlen_nil; lia|]. intros y. cbn. auto. }
  destruct (compile_planted sets data P compiler_Begin [] 0 H Hinc ltac:(lia) H0 Hne' Hnd) as [[-> Hfull]|(c & r & -> & Hs & Hp & Hfull)].
  { left. split; [reflexivity|exact Hfull]. }
  right. cbn [app bind] in *.
  assert (Hroot : rooted c = c) by (unfold rooted; destruct (c_states c) eqn:E; [contradiction|]; rewrite <- E; destruct c; reflexivity).
  rewrite Hroot in *. exists (c_states c). split; [reflexivity|]. split; [exact Hfull|]. apply (planted_match c P r Hp); [|exact Hnd].
  intros Ns i Hin. split.
  - clear - H Hin. induction H as [|d e ds es (_ & _ & Hn) _ IH]; [destruct Hin|]. destruct Hin as [->|Hin]; [exact Hn|exact (IH Hin)].
  - assert (K : forall l a, 0 <= a -> increasing a l -> forall i, In i l -> 0 <= i < 255).
    { clear. induction l as [|y l IH]; intros a Ha H i; [intros []|]. cbn [increasing] in H. destruct H as [H1 H2]. intros [->|Hin]; [lia|]. apply (IH (y + 1) ltac:(lia) H2 i Hin). }
    apply (K _ 0 ltac:(lia) Hinc). apply in_map_iff. exists (Ns, i). auto.
Qed.
End Letters.
