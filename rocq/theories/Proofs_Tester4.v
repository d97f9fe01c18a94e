(** Proofs about the rewrite testers: sessions. *)
From Verif Require Import Base BaseFacts Model_Helpers Model_Font Model_Rewrites Model_Scanner Model_CircularBuffer Spec_CircularBuffer
  Proofs_CircularBuffer Proofs_Rewrites Model_Tree Spec_Tree Proofs_Tree Proofs_Tree2 Proofs_Tree3 Proofs_Tree4 Model_Tester Spec_Tester
  Proofs_Tester Proofs_Tester2 Proofs_Tester3 Spec_Session.

(** ** Trees are kept in the order of their conditions *)
Fixpoint ascending (l : list Z) : Prop :=
  match l with
  | [] => True
  | x :: r => Forall (fun y => x < y) r /\ ascending r
  end.
Lemma ascending_app a b : ascending (a ++ b) <-> ascending a /\ ascending b /\ forall x y, In x a -> In y b -> x < y.
Proof.
  induction a as [|z a IH]; cbn [app ascending].
  - split; [intros H; split; [exact I|]; split; [exact H|intros x y []]|intros (_ & H & _); exact H].
  - rewrite IH, Forall_app. split.
    + intros ((H1 & H2) & H3 & H4 & H5). split; [auto|]. split; [exact H4|]. intros x y [<-|Hx] Hy; [exact (proj1 (Forall_forall _ _) H2 y Hy)|auto].
    + intros ((H1 & H2) & H3 & H4). split; [split; [exact H1|]|split; [exact H2|split; [exact H3|]]].
      * apply Forall_forall. intros y Hy. apply H4; [left; reflexivity|exact Hy].
      * intros x y Hx Hy. apply H4; [right; exact Hx|exact Hy].
Qed.
Lemma ascending_filter f l : ascending l -> ascending (filter f l).
Proof.
  induction l as [|x l IH]; cbn [filter ascending]; [auto|]. intros [H1 H2]. destruct (f x); [|auto]. cbn [ascending]. split; [|auto].
  apply Forall_forall. intros y Hy. apply filter_In in Hy. exact (proj1 (Forall_forall _ _) H1 y (proj1 Hy)).
Qed.
Lemma ascending_lt l : ascending l -> forall i j x y, 0 <= i -> i < j -> zget l i = Ok x -> zget l j = Ok y -> x < y.
Proof.
  induction l as [|z l IH]; intros Ha i j x y Hi Hij Hx Hy; [unfold zget in Hx; destruct (i <? 0); destruct (Z.to_nat i); discriminate|].
  destruct Ha as [H1 H2]. destruct (Z.eq_dec i 0) as [->|Hi0].
  - rewrite zget_cons_0 in Hx. injection Hx as <-. rewrite zget_cons_S in Hy by lia. exact (proj1 (Forall_forall _ _) H1 y (zget_in _ _ _ Hy)).
  - rewrite zget_cons_S in Hx, Hy by lia. apply (IH H2 (i - 1) (j - 1)); try assumption; lia.
Qed.
Lemma zget_map {A B} (f : A -> B) l i x : zget l i = Ok x -> zget (map f l) i = Ok (f x).
Proof. unfold zget. destruct (i <? 0); [discriminate|]. rewrite nth_error_map. destruct (nth_error l (Z.to_nat i)); [|discriminate]. intros [= ->]. reflexivity. Qed.

Lemma find_ok trees c : ascending (map i_cond trees) ->
  (exists i t, findTreeByCondition trees c = Ok (i, true) /\ zget trees i = Ok t /\ i_cond t = c) \/
  (exists i, findTreeByCondition trees c = Ok (i, false) /\ ~ In c (map i_cond trees)).
Proof.
  intros Ha. unfold findTreeByCondition. pose proof (zlen_nonneg trees) as Hn.
  set (p := fun i => match zget trees i with Ok t => i_cond t <? c | _ => false end).
  destruct (lower_bound_loop_spec (length trees) (fun mid => do i <- zget trees mid; Ok (i_cond i <? c)) p 0 (zlen trees)) as (r & -> & Hr & H1 & H2); [lia| | | |].
  - unfold zlen. rewrite Z.sub_0_r. apply Z.pow_gt_lin_r; lia.
  - intros i Hi. destruct (zget_in_range trees i ltac:(lia)) as (t & Ht). unfold p. rewrite Ht. reflexivity.
  - intros i j Hi Hij Hj. unfold p. destruct (zget_in_range trees i ltac:(lia)) as (ti & Hti). destruct (zget_in_range trees j ltac:(lia)) as (tj & Htj). rewrite Hti, Htj.
    intros H. destruct (Z.eq_dec i j) as [->|]; [congruence|]. pose proof (ascending_lt _ Ha i j _ _ Hi ltac:(lia) (zget_map i_cond _ _ _ Hti) (zget_map i_cond _ _ _ Htj)). lia.
  - cbn [bind]. destruct (Z.ltb_spec r (zlen trees)) as [Hlt|Hge].
    + destruct (zget_in_range trees r ltac:(lia)) as (t & Ht). rewrite Ht. cbn [bind]. destruct (Z.eqb_spec (i_cond t) c) as [E|E]; [left; eauto 6|right].
      exists r. split; [reflexivity|]. intros Hin. apply in_map_iff in Hin. destruct Hin as (t' & E' & Hin). apply In_nth_error in Hin. destruct Hin as (n & Hn').
      assert (Hg : zget trees (Z.of_nat n) = Ok t') by (unfold zget; replace (Z.of_nat n <? 0) with false by lia; rewrite Nat2Z.id, Hn'; reflexivity).
      assert (Hnl : 0 <= Z.of_nat n < zlen trees) by (pose proof (zget_ok_range _ _ _ Hg); lia).
      destruct (Z_lt_ge_dec (Z.of_nat n) r) as [L|G].
      * specialize (H1 (Z.of_nat n) ltac:(lia)). unfold p in H1. rewrite Hg in H1. lia.
      * destruct (Z.eq_dec (Z.of_nat n) r) as [E2|N]; [rewrite E2, Ht in Hg; injection Hg as ->; contradiction|].
        pose proof (ascending_lt _ Ha r (Z.of_nat n) _ _ ltac:(lia) ltac:(lia) (zget_map i_cond _ _ _ Ht) (zget_map i_cond _ _ _ Hg)).
        specialize (H2 r ltac:(lia)). unfold p in H2. rewrite Ht in H2. lia.
    + right. exists r. split; [reflexivity|]. intros Hin. apply in_map_iff in Hin. destruct Hin as (t' & E' & Hin). apply In_nth_error in Hin. destruct Hin as (n & Hn').
      assert (Hg : zget trees (Z.of_nat n) = Ok t') by (unfold zget; replace (Z.of_nat n <? 0) with false by lia; rewrite Nat2Z.id, Hn'; reflexivity).
      assert (Hnl : 0 <= Z.of_nat n < zlen trees) by (pose proof (zget_ok_range _ _ _ Hg); lia).
      specialize (H1 (Z.of_nat n) ltac:(lia)). unfold p in H1. rewrite Hg in H1. lia.
Qed.

Lemma move_down_split i : forall l, exists a b, rev (move_down l i) = a ++ i :: b /\ rev l = a ++ b /\ Forall (fun j => i_cond i < i_cond j) b /\
  (a = [] \/ exists a' j, a = a' ++ [j] /\ i_cond j <= i_cond i).
Proof.
  induction l as [|j l IH]; cbn [move_down rev].
  - exists [], []. repeat split; [constructor|left; reflexivity].
  - destruct (Z.geb_spec (i_cond i) (i_cond j)) as [H|H].
    + exists (rev l ++ [j]), []. cbn [rev]. rewrite app_nil_r. split; [reflexivity|]. split; [reflexivity|]. split; [constructor|]. right. exists (rev l), j. split; [reflexivity|lia].
    + destruct IH as (a & b & E1 & E2 & Hb & Ha). exists a, (b ++ [j]). cbn [rev]. rewrite E1, E2, <- !app_assoc. split; [reflexivity|]. split; [reflexivity|].
      split; [apply Forall_app; split; [exact Hb|repeat constructor; lia]|exact Ha].
Qed.
Lemma insert_ok trees c : ascending (map i_cond trees) -> ~ In c (map i_cond trees) ->
  let l := rev (move_down (rev trees) (new_instance c)) in
  ascending (map i_cond l) /\ (forall x, In x l <-> x = new_instance c \/ In x trees).
Proof.
  intros Ha Hc. cbv zeta. destruct (move_down_split (new_instance c) (rev trees)) as (a & b & E1 & E2 & Hb & Hla). rewrite rev_involutive in E2. rewrite E1. subst trees. split.
  - rewrite map_app in *. cbn [map]. change (i_cond (new_instance c)) with c in *. apply ascending_app in Ha. destruct Ha as (H1 & H2 & H3). apply ascending_app. split; [exact H1|].
    assert (Hb' : Forall (fun y => c < y) (map i_cond b)) by (rewrite Forall_map; exact Hb).
    split; [split; [exact Hb'|exact H2]|]. intros x y Hx [<-|Hy]; [|exact (H3 x y Hx Hy)].
    destruct Hla as [->|(a' & j & -> & Hj)]; [destruct Hx|]. rewrite map_app in Hx, H1, Hc. cbn [map] in *. apply ascending_app in H1. destruct H1 as (_ & _ & H1).
    assert (Hjc : i_cond j <> c) by (intros E; apply Hc; apply in_or_app; left; apply in_or_app; right; left; exact E).
    apply in_app_or in Hx. destruct Hx as [Hx|[<-|[]]]; [specialize (H1 x (i_cond j) Hx (or_introl eq_refl)); lia|lia].
  - intros x. rewrite !in_app_iff. cbn [In]. intuition.
Qed.

(** ** A tester between sequences *)
Section Idle.
  Variable k : tester_kind.
  Notation limit := "DecisionTreeCompiler hit a limit"%string.

  Record idle (t : tester) (s : session rrule) : Prop := {
    d_rules : ts_rules t = map fst (s_rules s);
    d_plain : Forall (fun e => plain k (fst e) (snd e)) (s_rules s);
    d_many : zlen (s_rules s) <= 254;
    d_tail : ts_tail t = 0;
    d_operating : ts_operating t = false;
    d_pending : ts_recompile t = s_pending s;
    d_ascending : ascending (map i_cond (ts_trees t));
    d_resync : Forall (fun i => i_resync i = true) (ts_trees t);
    d_covered : Forall (fun e => In (r_cond (snd e)) (map i_cond (ts_trees t))) (s_rules s);
    d_ready : exists cap, 0 <= cap <= 255 /\ holds (ts_acc t) [] cap /\ (s_room s = true -> 1 <= cap) /\
      (s_pending s = false -> trees_ok (map snd (s_rules s)) (map static (ts_trees t)) /\ Forall (fun r => zlen (pattern r) <= cap) (map snd (s_rules s))) }.

  Lemma plain_rules_of l : Forall (fun e => plain k (fst e) (snd e)) l -> Forall2 (plain k) (map fst l) (map snd l).
  Proof. induction 1; cbn [map]; constructor; assumption. Qed.

  Lemma new_idle : idle new_tester new_session.
  Proof.
    constructor; try reflexivity; try constructor; try (cbn; constructor); [discriminate|]. exists 0. split; [lia|]. split; [apply holds_init|]. split; [discriminate|]. intros _.
    repeat constructor.
  Qed.

  Lemma with_resync_conds (trees : list instance) n t : zget trees n = Ok t -> map i_cond (upd trees (Z.to_nat n) (with_resync t)) = map i_cond trees.
  Proof.
    unfold zget. destruct (n <? 0); [discriminate|]. generalize (Z.to_nat n). clear n. intros n. revert n. induction trees as [|x trees IH]; intros n; [destruct n; discriminate|].
    destruct n as [|n]; cbn [nth_error upd map]; [intros [= ->]; reflexivity|]. intros H. rewrite (IH n H). reflexivity.
  Qed.
  Lemma with_resync_all (trees : list instance) n t : Forall (fun i => i_resync i = true) trees -> Forall (fun i => i_resync i = true) (upd trees n (with_resync t)).
  Proof. intros H. revert n. induction H as [|x l Hx Hl IH]; intros n; destruct n; cbn [upd]; constructor; try reflexivity; auto. Qed.

  Lemma add_ok t s d r : idle t s -> plain k d r ->
    match AddRule k t d with Ok t' => idle t' (next s (JAdd d r)) | Err _ => idle t (next s (JAdd d r)) | _ => False end.
  Proof.
    intros I Hp. unfold AddRule. rewrite (d_operating _ _ I). destruct (plain_sizes _ _ _ Hp) as (Hmin & _). replace (zlen d <? k_min (tk_kind k)) with false by lia.
    cbn [next]. rewrite (d_rules _ _ I), zlen_map. destruct (Z.geb_spec (zlen (s_rules s)) 254) as [G|G].
    { replace (zlen (s_rules s) <? 254) with false by lia. exact I. }
    replace (zlen (s_rules s) <? 254) with true by lia. pose proof Hp as (_ & Hc & _). rewrite Hc. cbn [bind].
    assert (K : exists trees, (do ' (index, found) <- findTreeByCondition (ts_trees t) (r_cond r);
       do trees <- (if (found : bool) then do i <- zget (ts_trees t) index; Ok (upd (ts_trees t) (Z.to_nat index) (with_resync i))
                   else Ok (rev (move_down (rev (ts_trees t)) (new_instance (r_cond r))))); Ok trees) = Ok trees /\
       ascending (map i_cond trees) /\ Forall (fun i => i_resync i = true) trees /\ In (r_cond r) (map i_cond trees) /\
       (forall c, In c (map i_cond (ts_trees t)) -> In c (map i_cond trees))).
    { destruct (find_ok (ts_trees t) (r_cond r) (d_ascending _ _ I)) as [(i & x & E & Hx & Hcx)|(i & E & Hn)]; rewrite E; cbn [bind].
      - rewrite Hx. cbn [bind]. eexists. split; [reflexivity|]. rewrite (with_resync_conds _ _ _ Hx). split; [apply I|]. split; [apply with_resync_all; apply I|].
        split; [rewrite <- Hcx; apply in_map; exact (zget_in _ _ _ Hx)|auto].
      - eexists. split; [reflexivity|]. destruct (insert_ok (ts_trees t) (r_cond r) (d_ascending _ _ I) Hn) as [H1 H2]. cbv zeta in H1, H2. split; [exact H1|]. split.
        + apply Forall_forall. intros x Hx. apply H2 in Hx. destruct Hx as [->|Hx]; [reflexivity|exact (proj1 (Forall_forall _ _) (d_resync _ _ I) x Hx)].
        + split; [apply in_map_iff; exists (new_instance (r_cond r)); split; [reflexivity|apply H2; left; reflexivity]|].
          intros c Hin. apply in_map_iff in Hin. destruct Hin as (x & <- & Hx). apply in_map. apply H2. right. exact Hx. }
    destruct K as (trees & E & H1 & H2 & H3 & H4). destruct (findTreeByCondition (ts_trees t) (r_cond r)) as [[index found]| | |]; cbn [bind] in *; try discriminate.
    destruct (if found then _ else _) as [trees'| | |]; cbn [bind] in *; try discriminate. injection E as ->.
    constructor; cbn [ts_rules ts_trees ts_acc ts_tail ts_recompile ts_operating s_rules s_pending s_room].
    - rewrite map_app. reflexivity.
    - apply Forall_app. split; [apply I|constructor; [exact Hp|constructor]].
    - rewrite zlen_app, zlen_cons, zlen_nil. lia.
    - apply I.
    - first [reflexivity|apply I].
    - reflexivity.
    - exact H1.
    - exact H2.
    - apply Forall_app. split; [|repeat constructor; exact H3]. apply Forall_forall. intros e He. apply H4. exact (proj1 (Forall_forall _ _) (d_covered _ _ I) e He).
    - destruct (d_ready _ _ I) as (cap & C1 & C2 & C3 & _). exists cap. split; [exact C1|]. split; [exact C2|]. split; [exact C3|discriminate].
  Qed.

  Lemma delete_ok {R} d (l : list (list Z * R)) : delete_rule (map fst l) d = Ok (match without d l with Some l' => Some (map fst l') | None => None end).
  Proof.
    induction l as [|e l IH]; cbn [map delete_rule without]; [reflexivity|]. destruct (equals_spec (fst e) d) as (r & -> & Hr). cbn [bind].
    destruct (list_eq_dec Z.eq_dec (fst e) d) as [E|E].
    - replace r with true by (symmetry; apply Hr; exact E). reflexivity.
    - destruct r; [exfalso; apply E; apply Hr; reflexivity|]. rewrite IH. cbn [bind]. destruct (without d l); reflexivity.
  Qed.
  Lemma without_in {R} d : forall l l' : list (list Z * R), without d l = Some l' -> exists e, In e l /\ fst e = d /\ zlen l = 1 + zlen l' /\ forall x, In x l' -> In x l.
  Proof.
    induction l as [|e l IH]; intros l'; cbn [without]; [discriminate|]. destruct (list_eq_dec Z.eq_dec (fst e) d) as [E|E].
    - intros [= <-]. exists e. split; [left; reflexivity|]. split; [exact E|]. split; [rewrite zlen_cons; lia|]. intros x Hx. right. exact Hx.
    - destruct (without d l) as [l0|] eqn:E0; [|discriminate]. intros [= <-]. destruct (IH _ eq_refl) as (e' & H1 & H2 & H3 & H4). exists e'.
      split; [right; exact H1|]. split; [exact H2|]. rewrite !zlen_cons. split; [lia|]. intros x [<-|Hx]; [left; reflexivity|right; auto].
  Qed.
  Lemma remove_ok t s d : idle t s -> exists t' b, RemoveRule t d = Ok (t', b) /\ idle t' (next s (JRemove d)).
  Proof.
    intros I. unfold RemoveRule. rewrite (d_operating _ _ I), (d_rules _ _ I), delete_ok. cbn [bind next]. destruct (without d (s_rules s)) as [l|] eqn:E; [|exists t, false; split; [reflexivity|exact I]].
    destruct (without_in _ _ _ E) as (e & He & <- & Hl & Hsub). pose proof (proj1 (Forall_forall _ _) (d_plain _ _ I) e He) as Hp. pose proof Hp as (_ & Hc & _). rewrite Hc. cbn [bind].
    pose proof (proj1 (Forall_forall _ _) (d_covered _ _ I) e He) as Hin. cbv beta in Hin.
    destruct (find_ok (ts_trees t) (r_cond (snd e)) (d_ascending _ _ I)) as [(i & x & E1 & Hx & Hcx)|(i & _ & Hn)]; [|contradiction].
    rewrite E1. cbn [bind negb]. rewrite Hx. cbn [bind]. eexists. eexists. split; [reflexivity|].
    constructor; cbn [ts_rules ts_trees ts_acc ts_tail ts_recompile ts_operating s_rules s_pending s_room].
    - reflexivity.
    - apply Forall_forall. intros y Hy. exact (proj1 (Forall_forall _ _) (d_plain _ _ I) y (Hsub _ Hy)).
    - pose proof (d_many _ _ I). lia.
    - apply I.
    - first [reflexivity|apply I].
    - reflexivity.
    - rewrite (with_resync_conds _ _ _ Hx). apply I.
    - apply with_resync_all. apply I.
    - rewrite (with_resync_conds _ _ _ Hx). apply Forall_forall. intros y Hy. exact (proj1 (Forall_forall _ _) (d_covered _ _ I) y (Hsub _ Hy)).
    - destruct (d_ready _ _ I) as (cap & C1 & C2 & C3 & _). exists cap. split; [exact C1|]. split; [exact C2|]. split; [exact C3|discriminate].
  Qed.
  Lemma clear_holds a cap : holds a [] cap -> holds (cb_Clear a) [] cap.
  Proof.
    intros (Hok & H1 & H2 & H3 & H4). unfold cb_ok in Hok. cbn [q_cap q_cursor q_items with_peeks cb_buffer cb_capacity cb_head cb_num cb_peeks] in *.
    unfold holds, cb_rep, cb_ok, cb_Clear. cbn [with_peeks with_num with_head q_cap q_cursor q_items cb_buffer cb_capacity cb_head cb_num cb_peeks].
    split; [lia|]. split; [exact H1|]. split; [reflexivity|]. split; [reflexivity|]. intros i Hi. lia.
  Qed.
  Lemma remove_all_ok t s : idle t s -> exists t', RemoveAllRules t = Ok t' /\ idle t' (next s JRemoveAll).
  Proof.
    intros I. unfold RemoveAllRules. rewrite (d_operating _ _ I). eexists. split; [reflexivity|]. cbn [next].
    constructor; cbn [ts_rules ts_trees ts_acc ts_tail ts_recompile ts_operating s_rules s_pending s_room map]; try reflexivity; try constructor; try apply I.
    - rewrite zlen_nil. lia.
    - destruct (d_ready _ _ I) as (cap & C1 & C2 & C3 & _). exists cap. split; [exact C1|]. split; [exact (clear_holds _ _ C2)|]. split; [exact C3|]. intros _. repeat constructor.
  Qed.

  Lemma conditions_ok e c : conditions_known e -> exists b, testCondition e c = Ok b.
  Proof. intros H. unfold testCondition. destruct (c =? 255); [eauto|apply H]. Qed.
  Lemma refresh_trees e l : conditions_known e ->
    exists l', omap (fun i => do b <- testCondition e (i_cond i); Ok (with_value i b)) l = Ok l' /\ map static l' = map static l.
  Proof.
    intros He. induction l as [|i l (l' & E & H)]; cbn [omap map]; [eauto|]. destruct (conditions_ok e (i_cond i) He) as (b & ->). cbn [bind]. rewrite E. cbn [bind].
    eexists. split; [reflexivity|]. cbn [map]. rewrite H. reflexivity.
  Qed.
  Lemma conds_of_static l l' : map static l' = map static l -> map i_cond l' = map i_cond l.
  Proof. intros H. rewrite <- !map_static_cond, H. reflexivity. Qed.
  Lemma resync_of_static l l' : map static l' = map static l -> Forall (fun i => i_resync i = true) l -> Forall (fun i => i_resync i = true) l'.
  Proof.
    revert l'. induction l as [|i l IH]; intros [|i' l']; cbn [map]; try discriminate; [constructor|]. intros H. injection H as H1 H2 H3 H4. intros Hf.
    inversion Hf; subst. constructor; [congruence|auto].
  Qed.
  Lemma static_idle t t' s : idle t s -> ts_rules t' = ts_rules t -> map static (ts_trees t') = map static (ts_trees t) -> ts_recompile t' = ts_recompile t ->
    ts_operating t' = false -> ts_tail t' = 0 -> (forall cap, holds (ts_acc t) [] cap -> holds (ts_acc t') [] cap) -> idle t' s.
  Proof.
    intros I H1 H2 H3 H4 H5 H6. pose proof (conds_of_static _ _ H2) as H7. constructor; try apply I; try congruence.
    - rewrite H1. apply I.
    - rewrite H3. apply I.
    - rewrite H7. apply I.
    - exact (resync_of_static _ _ H2 (d_resync _ _ I)).
    - rewrite H7. apply I.
    - destruct (d_ready _ _ I) as (cap & C1 & C2 & C3 & C4). exists cap. split; [exact C1|]. split; [auto|]. split; [exact C3|]. rewrite H2. exact C4.
  Qed.
  Lemma refresh_ok t s e : idle t s -> conditions_known e -> exists t', RefreshConditions e t = Ok t' /\ idle t' s.
  Proof.
    intros I He. unfold RefreshConditions. destruct (refresh_trees e (ts_trees t) He) as (l' & -> & H). cbn [bind]. eexists. split; [reflexivity|].
    apply (static_idle t); try apply I; try reflexivity; try exact H. auto.
  Qed.

  (** ** Recompiling *)
  Definition has_rules (rules : list rrule) (c : Z) : bool := match group c rules with [] => false | _ => true end.
  Lemma recompile_trees_ok e data rules : conditions_known e -> Forall2 (plain k) data rules -> zlen rules <= 254 ->
    forall trees, Forall (fun i => i_resync i = true) trees ->
    (exists l, recompile_trees k e data false trees = Ok (true, l, Some limit)) /\ crowded rules \/
    exists l, recompile_trees k e data false trees = Ok (false, l, None) /\ Forall (fun s => good (fst (fst s)) (group (snd (fst s)) rules)) (map static l) /\
      Forall (fun i => i_resync i = true) l /\ map i_cond l = filter (has_rules rules) (map i_cond trees).
  Proof.
    intros He Hp Hm. induction trees as [|i trees IH]; intros Hr; cbn [recompile_trees].
    - right. exists []. repeat split; constructor.
    - inversion Hr as [|? ? Hi Hr']; subst. specialize (IH Hr').
      assert (K : exists j, (if i_cached i then Ok i else do b <- testCondition e (i_cond i); Ok (with_value i b)) = Ok j /\ static j = static i /\ i_tree j = i_tree i).
      { destruct (i_cached i); [exists i; auto|]. destruct (conditions_ok e (i_cond i) He) as (b & ->). cbn [bind]. eexists. split; [reflexivity|]. split; reflexivity. }
      destruct K as (j & -> & Hj & _). cbn [bind]. injection Hj as Hj1 Hj2 Hj3. rewrite Hj3, Hi. cbn [negb]. rewrite Hj2.
      destruct (rules_with_group k data rules Hp (e_sets e) (i_cond i) Hm) as (own & -> & Hown). cbn [bind].
      assert (Hinc : increasing 0 (map snd (group (i_cond i) rules))) by (apply numbered_increasing; lia).
      destruct own as [|x own].
      + cbn [compile ofold bind compiler_Begin c_states]. assert (Eg : group (i_cond i) rules = []) by (inversion Hown; reflexivity). cbn [map filter]. unfold has_rules at 1. rewrite Eg.
        destruct IH as [[(l & ->) Hcr]|(l & -> & H1 & H2 & H3)]; cbn [bind]; [left; eauto|right]. exists l. auto.
      + assert (Hh : has_rules rules (i_cond i) = true) by (unfold has_rules; inversion Hown; reflexivity). cbn [map filter]. rewrite Hh.
        destruct (@compile_right elements (tk_kind k) (e_sets e) (x :: own) (group (i_cond i) rules) Hown ltac:(discriminate) Hinc) as [[-> Hfull]|(st & Ec & _)].
        * left. split; [eexists; reflexivity|exists (i_cond i); exact Hfull].
        * rewrite Ec. destruct IH as [[(l & ->) Hcr]|(l & -> & H1 & H2 & H3)]; cbn [bind]; [left; eauto|right]. eexists. split; [reflexivity|]. cbn [map]. split; [|split].
          -- constructor; [|exact H1]. cbn [static with_tree i_tree d_states i_cond fst snd]. rewrite Hj2.
             exact (compile_good (tk_kind k) (e_sets e) (x :: own) _ st Hown ltac:(discriminate) Hinc Ec).
          -- constructor; [cbn [with_tree i_resync]; congruence|exact H2].
          -- cbn [with_tree i_cond]. rewrite Hj2, H3. reflexivity.
  Qed.
  Lemma max_len_ok data rules : Forall2 (plain k) data rules -> exists n, max_in_len data = Ok n /\ 0 <= n <= 255 /\ Forall (fun r => zlen (pattern r) <= n) rules /\ (rules <> [] -> 1 <= n).
  Proof.
    intros H. unfold max_in_len. assert (G : forall m, 0 <= m <= 255 -> exists n, ofold (fun m r => do n <- rule_InLen r; Ok (Z.max m n)) data m = Ok n /\ m <= n <= 255 /\ Forall (fun r => zlen (pattern r) <= n) rules).
    { induction H as [|d r ds rs Hd _ IH]; intros m Hm; cbn [ofold]; [exists m; split; [reflexivity|]; split; [lia|constructor]|].
      destruct (plain_sizes _ _ _ Hd) as (_ & _ & Hl & Hin). rewrite Hin. cbn [bind]. pose proof (zlen_nonneg (pattern r)). destruct (IH (Z.max m (zlen (pattern r))) ltac:(lia)) as (n & E & H1 & H2).
      exists n. split; [exact E|]. split; [lia|]. constructor; [lia|exact H2]. }
    destruct (G 0 ltac:(lia)) as (n & E & H1 & H2). exists n. split; [exact E|]. split; [lia|]. split; [exact H2|].
    intros Hne. destruct H as [|d r ds rs Hd _]; [congruence|]. pose proof (Forall_inv H2) as Hl. cbv beta in Hl. pose proof (plain_pattern_ne _ _ _ Hd) as Hp.
    destruct (pattern r); [contradiction|]. rewrite zlen_cons in Hl. pose proof (zlen_nonneg l). lia.
  Qed.
  Lemma covered_group rules c r : In r rules -> r_cond r = c -> has_rules rules c = true.
  Proof.
    intros Hin <-. unfold has_rules, group. assert (G : forall from, filter (fun e => r_cond (fst e) =? r_cond r) (numbered from rules) <> []).
    { induction rules as [|r0 rules IH]; intros from; [destruct Hin|]. cbn [numbered filter fst]. destruct Hin as [->|Hin]; [rewrite Z.eqb_refl; discriminate|].
      destruct (_ =? _); [discriminate|]. apply IH. exact Hin. }
    specialize (G 0). unfold patterns. destruct (filter _ _); [contradiction|reflexivity].
  Qed.
  (** The operating flag does not matter for recompiling. *)
  Lemma recompile_ok t s e : idle t s -> conditions_known e ->
    (exists t', recompile k e false (with_operating t true) = Ok (true, t', Some limit)) /\ crowded (map snd (s_rules s)) \/
    exists t', recompile k e false (with_operating t true) = Ok (false, with_operating t' true, None) /\
      recompile k e false t = Ok (false, t', None) /\ idle t' (mkSession (s_rules s) false (match s_rules s with [] => false | _ => true end)).
  Proof.
    intros I He. unfold recompile. cbn [with_operating ts_rules ts_trees ts_acc ts_tail ts_operating]. pose proof (plain_rules_of _ (d_plain _ _ I)) as Hp. rewrite <- (d_rules _ _ I) in Hp.
    assert (Hm : zlen (map snd (s_rules s)) <= 254) by (rewrite zlen_map; apply I).
    destruct (recompile_trees_ok e (ts_rules t) (map snd (s_rules s)) He Hp Hm (ts_trees t) (d_resync _ _ I)) as [[(l & ->) Hcr]|(l & -> & H1 & H2 & H3)]; cbn [bind]; [left; eauto|right].
    destruct (max_len_ok _ _ Hp) as (n & -> & Hn & Hfit & Hpos). cbn [bind]. destruct (d_ready _ _ I) as (cap & _ & C2 & _).
    destruct (holds_reset _ _ _ n C2 ltac:(lia)) as (a & -> & Ha). cbn [bind]. eexists. split; [|split; [reflexivity|]].
    - unfold with_operating. cbn [ts_rules ts_trees ts_acc ts_tail ts_recompile]. reflexivity.
    - constructor; cbn [ts_rules ts_trees ts_acc ts_tail ts_recompile ts_operating s_rules s_pending s_room]; try apply I; try reflexivity.
      + rewrite H3. apply ascending_filter. apply I.
      + exact H2.
      + apply Forall_forall. intros x Hx. rewrite H3. apply filter_In. split; [exact (proj1 (Forall_forall _ _) (d_covered _ _ I) x Hx)|].
        apply (covered_group _ _ (snd x)); [apply in_map; exact Hx|reflexivity].
      + exists n. split; [lia|]. split; [exact Ha|]. split.
        * intros Hroom. apply Hpos. destruct (s_rules s); [discriminate|]. cbn. discriminate.
        * intros _. split; [|exact Hfit]. split; [exact H1|]. rewrite map_static_cond, H3. apply Forall_forall. intros r Hr. apply in_map_iff in Hr. destruct Hr as (x & <- & Hx).
          apply filter_In. split; [exact (proj1 (Forall_forall _ _) (d_covered _ _ I) x Hx)|]. apply (covered_group _ _ (snd x)); [apply in_map; exact Hx|reflexivity].
  Qed.
  Lemma resync_ok t s e : idle t s -> conditions_known e ->
    (exists t', Resync k e false t = Ok (true, t', Some limit)) /\ s_pending s = true /\ crowded (map snd (s_rules s)) \/ exists t', Resync k e false t = Ok (false, t', None) /\ idle t' (compiled s).
  Proof.
    intros I He. unfold Resync, compiled. rewrite (d_operating _ _ I), (d_pending _ _ I). destruct (s_pending s) eqn:Ep; cbn [negb].
    - destruct (recompile_ok t s e I He) as [[(t' & E) Hcr]|(t' & _ & E & I')].
      + left. split; [|split; [reflexivity|exact Hcr]]. unfold recompile in *. cbn [with_operating ts_rules ts_trees ts_acc ts_tail ts_operating] in E. destruct (recompile_trees k e (ts_rules t) false (ts_trees t)) as [[[c l] err]| | |]; cbn [bind] in *; try discriminate.
        destruct err as [m|].
        * injection E as -> _ ->. eauto.
        * exfalso. destruct (max_in_len (ts_rules t)); cbn [bind] in E; try discriminate. destruct (cb_SetCapacity 0 (cb_Clear (ts_acc t)) a) as [a' o]. destruct o; discriminate.
      + right. eauto.
    - right. eauto.
  Qed.
End Idle.
