(** Decision trees of rules whose elements are single elements or sets that are one range: what the states mean. *)
From Verif Require Import Base BaseFacts Model_Helpers Model_Scanner Model_Tree Spec_Tree Proofs_Helpers Proofs_Tree Proofs_Tree2.

Section Letters.
Context {AB : alphabet}.

(** ** Sets of patterns *)
Definition ext (P : list (list Z * Z)) (p : list Z) : Prop := exists xs r, In (xs, r) P /\ is_prefix p xs.
Definition pext (P : list (list Z * Z)) (p : list Z) : Prop := exists xs r q, In (xs, r) P /\ xs = p ++ q /\ q <> [].
Definition first_rule (P : list (list Z * Z)) (p : list Z) : Z :=
  match find (fun e => eqb_list (fst e) p) P with Some e => snd e | None => 255 end.
Definition indexed (P : list (list Z * Z)) : Prop := forall xs r, In (xs, r) P -> 0 <= r < 255.

Lemma ext_snoc P xs r q : ext (P ++ [(xs, r)]) q <-> ext P q \/ is_prefix q xs.
Proof.
  unfold ext. split.
  - intros (ys & i & Hin & Hp). apply in_app_or in Hin. destruct Hin as [Hin|[E|[]]]; [left; eauto|]. injection E as -> ->. right. exact Hp.
  - intros [(ys & i & Hin & Hp)|Hp]; [exists ys, i; split; [apply in_or_app; left; exact Hin|exact Hp]|].
    exists xs, r. split; [apply in_or_app; right; left; reflexivity|exact Hp].
Qed.
Lemma pext_snoc P xs r q : pext (P ++ [(xs, r)]) q <-> pext P q \/ exists w, xs = q ++ w /\ w <> [].
Proof.
  unfold pext. split.
  - intros (ys & i & w & Hin & Hp & Hw). apply in_app_or in Hin. destruct Hin as [Hin|[E|[]]]; [left; eauto 6|]. injection E as -> ->. right. eauto.
  - intros [(ys & i & w & Hin & Hp & Hw)|(w & Hp & Hw)]; [exists ys, i, w; split; [apply in_or_app; left; exact Hin|auto]|].
    exists xs, r, w. split; [apply in_or_app; right; left; reflexivity|auto].
Qed.
Lemma first_found P p : indexed P -> first_rule P p <> 255 -> ext P p.
Proof.
  intros Hi. unfold first_rule. destruct (find _ P) as [[xs r]|] eqn:E; [|congruence]. intros _. apply find_some in E. destruct E as [Hin E].
  cbn [fst] in E. destruct (eqb_list_spec xs p) as [->|]; [|discriminate]. exists p, r. split; [exact Hin|exists []; symmetry; apply app_nil_r].
Qed.
Lemma first_snoc P xs r q : indexed P ->
  first_rule (P ++ [(xs, r)]) q = if first_rule P q =? 255 then (if eqb_list xs q then r else 255) else first_rule P q.
Proof.
  intros Hi. unfold first_rule. induction P as [|[ys i] P IH]; cbn [app find fst].
  - rewrite Z.eqb_refl. destruct (eqb_list xs q); reflexivity.
  - destruct (eqb_list ys q).
    + cbn [snd]. specialize (Hi ys i (or_introl eq_refl)). replace (i =? 255) with false by lia. reflexivity.
    + apply IH. intros a b H. apply (Hi a b). right. exact H.
Qed.
Lemma prefix_snoc p x y rest : is_prefix (p ++ [y]) (p ++ x :: rest) <-> y = x.
Proof.
  split.
  - intros (w & E). rewrite <- app_assoc in E. apply app_inv_head in E. cbn [app] in E. congruence.
  - intros ->. exists rest. rewrite <- app_assoc. reflexivity.
Qed.

(** ** States that stand for a path *)
Definition node_ok (P : list (list Z * Z)) (L : list Z -> option Z) (p : list Z) (ts : list transition) : Prop :=
  ordered ts /\ zlen ts <= 254 /\ forall x,
    match lookup ts x with
    | None => ~ ext P (p ++ [x])
    | Some t => ext P (p ++ [x]) /\ t_match t = first_rule P (p ++ [x]) /\
        ((t_next t = 255 /\ ~ pext P (p ++ [x])) \/ (L (p ++ [x]) = Some (t_next t) /\ pext P (p ++ [x])))
    end.

Lemma node_update P L L' p x rest r ts ts' t' : indexed P -> node_ok P L p ts -> ordered ts' -> zlen ts' <= 254 ->
  (forall y, lookup ts' y = if y =? x then Some t' else lookup ts y) ->
  (forall q, q <> p ++ [x] -> L' q = L q) ->
  t_match t' = first_rule (P ++ [(p ++ x :: rest, r)]) (p ++ [x]) ->
  (t_next t' = 255 /\ rest = [] /\ ~ pext P (p ++ [x])) \/ (L' (p ++ [x]) = Some (t_next t') /\ (pext P (p ++ [x]) \/ rest <> [])) ->
  node_ok (P ++ [(p ++ x :: rest, r)]) L' p ts'.
Proof.
  intros Hidx (Ho & Hl & Hn) Ho' Hl' Hlook HL Hm Hnext. split; [exact Ho'|]. split; [exact Hl'|]. intros y. rewrite Hlook.
  destruct (Z.eqb_spec y x) as [->|Hyx].
  - split; [apply ext_snoc; right; apply prefix_snoc; reflexivity|]. split; [exact Hm|]. destruct Hnext as [(H1 & H2 & H3)|(H1 & H2)].
    + left. split; [exact H1|]. rewrite pext_snoc. intros [H|(w & E & Hw)]; [exact (H3 H)|]. subst rest. rewrite <- app_assoc in E. apply app_inv_head in E.
      cbn [app] in E. injection E as E. symmetry in E. contradiction.
    + right. split; [exact H1|]. apply pext_snoc. destruct H2 as [H2|H2]; [left; exact H2|right]. exists rest. split; [|exact H2]. rewrite <- app_assoc. reflexivity.
  - assert (Hne : p ++ [y] <> p ++ [x]) by (intros E; apply app_inv_head in E; congruence).
    specialize (Hn y). destruct (lookup ts y) as [t|].
    + destruct Hn as (H1 & H2 & H3). split; [apply ext_snoc; left; exact H1|]. split.
      * rewrite first_snoc by exact Hidx. destruct (eqb_list_spec (p ++ x :: rest) (p ++ [y])) as [E|_]; [apply app_inv_head in E; congruence|].
        rewrite H2. destruct (Z.eqb_spec (first_rule P (p ++ [y])) 255); auto.
      * destruct H3 as [(H3 & H4)|(H3 & H4)]; [left|right].
        -- split; [exact H3|]. rewrite pext_snoc. intros [H|(w & E & _)]; [exact (H4 H)|]. rewrite <- app_assoc in E. apply app_inv_head in E. cbn [app] in E. congruence.
        -- split; [rewrite HL by exact Hne; exact H3|]. apply pext_snoc. left. exact H4.
    + rewrite ext_snoc. intros [H|H]; [exact (Hn H)|]. apply prefix_snoc in H. contradiction.
Qed.

(** A state has at most as many transitions as there are rules. *)
Lemma node_width P L p ts : node_ok P L p ts -> zlen ts <= zlen P.
Proof.
  intros ((Hs & _) & _ & Hn). unfold zlen. enough (length (map t_first ts) <= length (map (fun e : list Z * Z => nth (length p) (fst e) 0%Z) P))%nat as H.
  { rewrite !map_length in H. lia. }
  apply NoDup_incl_length.
  - clear Hn. induction Hs as [|t ts Hs IH Hall]; cbn [map]; constructor; [|exact IH]. rewrite Forall_forall in Hall. intros Hin.
    apply in_map_iff in Hin. destruct Hin as (u & E & Hu). specialize (Hall u Hu). lia.
  - intros x Hx. apply in_map_iff in Hx. destruct Hx as (t & <- & Ht). specialize (Hn (t_first t)).
    assert (lookup ts (t_first t) <> None).
    { unfold lookup. intros E. pose proof (find_none _ _ E t Ht) as H. cbn in H. rewrite Z.eqb_refl in H. discriminate. }
    destruct (lookup ts (t_first t)) as [u|]; [|congruence]. destruct Hn as ((xs & r & Hin & w & E) & _). apply in_map_iff. exists (xs, r).
    split; [|exact Hin]. cbn [fst]. rewrite E, <- app_assoc. rewrite app_nth2 by lia. rewrite Nat.sub_diag. reflexivity.
Qed.

(** A node off the path of a new rule stays right. *)
Lemma node_off P L q xs r ts : indexed P -> node_ok P L q ts -> (forall x, ~ is_prefix (q ++ [x]) xs) -> node_ok (P ++ [(xs, r)]) L q ts.
Proof.
  intros Hidx (Ho & Hl & Hn) Hoff. split; [exact Ho|]. split; [exact Hl|]. intros x. specialize (Hn x). specialize (Hoff x).
  destruct (lookup ts x) as [t|].
  - destruct Hn as (H1 & H2 & H3). split; [apply ext_snoc; left; exact H1|]. split.
    + rewrite first_snoc by exact Hidx. destruct (eqb_list_spec xs (q ++ [x])) as [->|_]; [exfalso; apply Hoff; exists []; symmetry; apply app_nil_r|].
      rewrite H2. destruct (Z.eqb_spec (first_rule P (q ++ [x])) 255); auto.
    + destruct H3 as [(H3 & H4)|(H3 & H4)]; [left|right].
      * split; [exact H3|]. rewrite pext_snoc. intros [H|(w & E & _)]; [exact (H4 H)|]. apply Hoff. exists w. exact E.
      * split; [exact H3|]. apply pext_snoc. left. exact H4.
  - rewrite ext_snoc. intros [H|H]; [exact (Hn H)|exact (Hoff H)].
Qed.
Lemma node_links P L L' q ts : node_ok P L q ts -> (forall x, L' (q ++ [x]) = L (q ++ [x])) -> node_ok P L' q ts.
Proof.
  intros (Ho & Hl & Hn) HL. split; [exact Ho|]. split; [exact Hl|]. intros x. specialize (Hn x). rewrite HL. exact Hn.
Qed.

(** While a rule [xs] is being fed, the nodes at distances below [e] on its path know it. *)
Definition before (e : Z) (q xs : list Z) : bool := (zlen q <? e) && eqb_list q (firstn (length q) xs).
Definition nodes (c : compiler) (L : list Z -> option Z) (P : list (list Z * Z)) (xs : list Z) (r e : Z) : Prop :=
  forall q j, L q = Some j -> exists st, zget (c_states c) j = Ok st /\
    node_ok (if before e q xs then P ++ [(xs, r)] else P) L q (s_trans st).

Lemma track_states c L r e states g : track c L r e -> zlen states = zlen (c_states c) -> track (with_grown (with_states c states) g) L r e.
Proof.
  intros T E. destruct T. constructor; cbn [c_states c_uses c_rules c_freed c_depths with_grown with_states]; rewrite ?E; assumption.
Qed.
Lemma track_later c L r e e' : track c L r e -> e <= e' -> track c L r e'.
Proof.
  intros T H. constructor; try apply T. intros n l Hn. destruct (k_depth _ _ _ _ T n l Hn) as [H1 H2]. split; [exact H1|].
  intros j Hj. destruct (H2 j Hj) as (H3 & rl & H4 & H5 & H6 & H7). split; [exact H3|]. exists rl. split; [exact H4|]. split; [exact H5|]. split; [exact H6|].
  intros He. apply H7. lia.
Qed.

Lemma before_self d p x rest : d = zlen p -> before d p (p ++ x :: rest) = false /\ before (d + 1) p (p ++ x :: rest) = true.
Proof.
  intros ->. unfold before. split; [replace (zlen p <? zlen p) with false by lia; reflexivity|]. replace (zlen p <? zlen p + 1) with true by lia.
  rewrite firstn_app, Nat.sub_diag, firstn_O, app_nil_r, firstn_all. destruct (eqb_list_spec p p); [reflexivity|congruence].
Qed.
Lemma before_other d p x rest q : d = zlen p -> q <> p -> before (d + 1) q (p ++ x :: rest) = before d q (p ++ x :: rest).
Proof.
  intros -> Hq. unfold before. destruct (Z.ltb_spec (zlen q) (zlen p)) as [H|H].
  - replace (zlen q <? zlen p + 1) with true by lia. reflexivity.
  - destruct (Z.ltb_spec (zlen q) (zlen p + 1)) as [H'|H']; [|reflexivity]. cbn [andb].
    replace (length q) with (length p) by (unfold zlen in *; lia). rewrite firstn_app, Nat.sub_diag, firstn_O, app_nil_r, firstn_all.
    destruct (eqb_list_spec q p); [contradiction|reflexivity].
Qed.

Section Step.
  Variables (k : kind) (sets : set_reader).
  Variables (P : list (list Z * Z)) (r : Z) (Hr : 0 <= r < 255) (Hidx : indexed P).

  (** What one element of a rule does. *)
  Definition stepped (c c' : compiler) (L L' : list Z -> option Z) (p : list Z) (x : Z) (rest : list Z) : Prop :=
    track c' L' r (zlen p + 1) /\ c_rule c' = r /\ c_depth c' = zlen p /\ nodes c' L' P (p ++ x :: rest) r (zlen p + 1) /\
    (forall q, q <> p ++ [x] -> L' q = L q) /\ (rest <> [] -> exists j, c_to c' = [j] /\ L' (p ++ [x]) = Some j) /\
    zlen (c_states c') <= zlen (c_states c) + (match rest with [] => 0 | _ => 1 end).

  (** The common end of all cases: the state of [p] now has the transitions [ts'], the others
      are as before. *)
  Lemma step_done c c' L L' p x rest s st : track c' L' r (zlen p + 1) -> c_rule c' = r -> c_depth c' = zlen p ->
    nodes c L P (p ++ x :: rest) r (zlen p) -> L p = Some s -> zget (c_states c') s = Ok st ->
    node_ok (P ++ [(p ++ x :: rest, r)]) L' p (s_trans st) ->
    (forall q, q <> p ++ [x] -> L' q = L q) -> (rest <> [] -> exists j, c_to c' = [j] /\ L' (p ++ [x]) = Some j) ->
    (forall q i, q <> p -> q <> p ++ [x] -> L q = Some i -> zget (c_states c') i = zget (c_states c) i) ->
    (forall i, L' (p ++ [x]) = Some i -> exists st', zget (c_states c') i = Ok st' /\ node_ok P L' (p ++ [x]) (s_trans st')) ->
    zlen (c_states c') <= zlen (c_states c) + (match rest with [] => 0 | _ => 1 end) ->
    stepped c c' L L' p x rest.
  Proof.
    intros T Er Ed N Hs Hst Hnode HL Hto Hsame Hnew Hgrow. split; [exact T|]. split; [exact Er|]. split; [exact Ed|]. split; [|split; [assumption|split; assumption]].
    intros q i Hq. destruct (list_eq_dec Z.eq_dec q p) as [->|Hqp].
    - rewrite HL in Hq by (intros E; rewrite <- app_nil_r in E at 1; apply app_inv_head in E; discriminate). rewrite Hs in Hq. injection Hq as <-.
      exists st. split; [exact Hst|]. rewrite (proj2 (before_self (zlen p) p x rest eq_refl)). exact Hnode.
    - rewrite before_other by auto. destruct (list_eq_dec Z.eq_dec q (p ++ [x])) as [->|Hqx].
      + destruct (Hnew _ Hq) as (st' & H1 & H2). exists st'. split; [exact H1|].
        unfold before. rewrite zlen_app, zlen_cons, zlen_nil. replace (zlen p + (1 + 0) <? zlen p) with false by lia. exact H2.
      + rewrite HL in Hq by exact Hqx. destruct (N _ _ Hq) as (st' & H1 & H2). exists st'. rewrite (Hsame q) by assumption. split; [exact H1|].
        apply node_links with (L := L); [exact H2|]. intros y. apply HL. intros E. apply app_inj_tail in E. destruct E as [E _]. contradiction.
  Qed.

  Lemma node_of c L p s x rest : nodes c L P (p ++ x :: rest) r (zlen p) -> L p = Some s ->
    exists st, zget (c_states c) s = Ok st /\ node_ok P L p (s_trans st).
  Proof. intros N Hs. destruct (N _ _ Hs) as (st & H1 & H2). rewrite (proj1 (before_self (zlen p) p x rest eq_refl)) in H2. eauto. Qed.
  Lemma node_next c L p x rest i : nodes c L P (p ++ x :: rest) r (zlen p) -> L (p ++ [x]) = Some i ->
    exists st, zget (c_states c) i = Ok st /\ node_ok P L (p ++ [x]) (s_trans st).
  Proof.
    intros N Hs. destruct (N _ _ Hs) as (st & H1 & H2). exists st. split; [exact H1|]. revert H2. unfold before. rewrite zlen_app, zlen_cons, zlen_nil.
    replace (zlen p + (1 + 0) <? zlen p) with false by lia. auto.
  Qed.
  Lemma other_state c L p s q i : track c L r (zlen p) -> L p = Some s -> q <> p -> L q = Some i -> i <> s.
  Proof. intros T Hp Hne Hq ->. apply Hne. exact (k_inj _ _ _ _ T _ _ _ Hq Hp). Qed.
  Lemma last_first p x : first_rule (P ++ [(p ++ [x], r)]) (p ++ [x]) = if first_rule P (p ++ [x]) =? 255 then r else first_rule P (p ++ [x]).
  Proof. rewrite first_snoc by exact Hidx. destruct (eqb_list_spec (p ++ [x]) (p ++ [x])); [reflexivity|congruence]. Qed.
  Lemma more_first p x rest : rest <> [] -> first_rule (P ++ [(p ++ x :: rest, r)]) (p ++ [x]) = first_rule P (p ++ [x]).
  Proof.
    intros H. rewrite first_snoc by exact Hidx. destruct (eqb_list_spec (p ++ x :: rest) (p ++ [x])) as [E|_].
    - apply app_inv_head in E. injection E as E. contradiction.
    - destruct (Z.eqb_spec (first_rule P (p ++ [x])) 255); congruence.
  Qed.

  Lemma append_step c L p s x rest : track c L r (zlen p) -> c_rule c = r -> c_depth c = zlen p -> c_to c = [] ->
    nodes c L P (p ++ x :: rest) r (zlen p) -> L p = Some s -> letter x -> hi x < k_succ k (hi x) ->
    (AppendRange k c s x (hi x) (match rest with [] => r | _ => 255 end) = hit_limits /\ (zlen (c_states c) = 254 /\ rest <> [] \/ 254 <= zlen P)) \/
    exists c' L', AppendRange k c s x (hi x) (match rest with [] => r | _ => 255 end) = Ok c' /\ stepped c c' L L' p x rest.
  Proof.
    intros T Er Ed Eto N Hs Hlet Hx. destruct (node_of _ _ _ _ _ _ N Hs) as (st & Hst & Hnode). pose proof Hnode as (Ho & Hl & Hn).
    pose proof (live_range _ _ _ _ _ _ T Hs) as Hsr.
    assert (Hnp : p <> p ++ [x]) by (intros E; rewrite <- app_nil_r in E at 1; apply app_inv_head in E; discriminate).
    assert (Hself : with_states (with_grown c false) (c_states c) = with_grown c false) by (destruct c; reflexivity).
    destruct (append_single k c s x (match rest with [] => r | _ => 255 end) st Hlet Hx Hst Ho Hl) as [(j & t & Hj & Hjx & ->)|(Hnone & ->)].
    - (* there is a transition *)
      assert (Hlk : lookup (s_trans st) x = Some t) by (rewrite <- Hjx; eapply lookup_zget; eauto).
      assert (Hsi : single t) by (destruct Ho as [_ Ho']; rewrite Forall_forall in Ho'; apply Ho'; eapply zget_in; eauto). unfold single in Hsi.
      pose proof (Hn x) as Hnx. rewrite Hlk in Hnx. destruct Hnx as (Hn1 & Hn2 & Hn3).
      unfold Link. cbn [c_states with_grown]. rewrite Hst. cbn [bind]. rewrite Hj. cbn [bind]. destruct rest as [|y rest].
      + (* the rule ends here *)
        right. replace (r =? 255) with false by lia. cbn [negb]. destruct (Z.eqb_spec (t_match t) 255) as [Em|Em].
        * rewrite (set_transition_ok _ _ _ _ st t) by assumption. cbn [c_states with_grown]. eexists _, L. split; [reflexivity|].
          destruct (replace_ordered (s_trans st) j t (mkTransition (t_first t) (t_last t) r (t_next t)) Ho Hj eq_refl ltac:(unfold single; cbn; exact Hsi)) as [Ho' Hlook].
          assert (Hlook2 : forall y, lookup (upd (s_trans st) (Z.to_nat j) (mkTransition (t_first t) (t_last t) r (t_next t))) y = if y =? x then Some (mkTransition (t_first t) (t_last t) r (t_next t)) else lookup (s_trans st) y) by (intros y0; rewrite <- Hjx; apply Hlook).
          eapply step_done with (s := s); try eassumption; cbn [c_rule c_depth c_states with_states with_grown].
          -- apply (track_later _ _ _ (zlen p)); [|lia]. pose proof (track_states c L r (zlen p) (upd (c_states c) (Z.to_nat s) (mkState (upd (s_trans st) (Z.to_nat j) (mkTransition (t_first t) (t_last t) r (t_next t))) (s_min st) (s_max st))) false T (zlen_upd _ _ _)) as T'. exact T'.
          -- apply zget_upd_same. lia.
          -- cbn [s_trans]. apply (node_update P L L p x [] r (s_trans st) _ (mkTransition (t_first t) (t_last t) r (t_next t))); auto.
             ++ rewrite zlen_upd. exact Hl.
             ++ cbn [t_match]. rewrite last_first. rewrite <- Hn2, Em. reflexivity.
             ++ cbn [t_next]. destruct Hn3 as [[H1 H2]|[H1 H2]]; [left|right]; auto.
          -- auto.
          -- contradiction.
          -- intros q i Hq1 Hq2 Hq3. apply zget_upd_other; [lia|]. intros <-. exact (other_state _ _ _ _ _ _ T Hs Hq1 Hq3 eq_refl).
          -- intros i Hi. destruct (node_next _ _ _ _ _ _ N Hi) as (st' & H1 & H2). exists st'. split; [|exact H2]. rewrite zget_upd_other; [exact H1|lia|].
             intros <-. exact (other_state _ _ _ _ _ _ T Hs (not_eq_sym Hnp) Hi eq_refl).
          -- rewrite zlen_upd. lia.
        * exists (with_grown c false), L. split; [reflexivity|]. eapply step_done with (s := s); try eassumption; cbn [c_rule c_depth c_states with_states with_grown].
          -- apply (track_later _ _ _ (zlen p)); [|lia]. rewrite <- Hself. apply (track_states c L r (zlen p) (c_states c) false T eq_refl).
          -- apply (node_update P L L p x [] r (s_trans st) (s_trans st) t); auto.
             ++ intros y. destruct (Z.eqb_spec y x) as [->|]; [exact Hlk|reflexivity].
             ++ rewrite last_first. rewrite Hn2 in Em |- *. destruct (Z.eqb_spec (first_rule P (p ++ [x])) 255); congruence.
             ++ destruct Hn3 as [[H1 H2]|[H1 H2]]; [left|right]; auto.
          -- auto.
          -- contradiction.
          -- reflexivity.
          -- intros i Hi. exact (node_next _ _ _ _ _ _ N Hi).
          -- lia.
      + (* the rule goes on *)
        replace (negb (255 =? 255)) with false by reflexivity.
        assert (Tg : track (with_grown c false) L r (zlen p)) by (rewrite <- Hself; apply (track_states c L r (zlen p) (c_states c) false T eq_refl)).
        assert (Href : t_next t = 255 \/ L (p ++ [x]) = Some (t_next t)) by (destruct Hn3 as [[H1 _]|[H1 _]]; auto).
        destruct (linker_spec (with_grown c false) L r (zlen p) p s x (t_next t) Tg Er Ed eq_refl Hs Eto Href)
          as [[-> Efull]|(c' & i & -> & T' & Er' & Ed' & Eto' & Hfresh & Hir & Hnewst & Hsame & Hlen')]; [left; split; [reflexivity|left; split; [exact Efull|discriminate]]|right]. cbn [bind].
        cbn [c_states with_grown] in Hnewst, Hsame, Hlen'. cbn [c_depth with_grown] in Ed'.
        assert (His : s <> i) by (eapply Hfresh; eauto).
        assert (Hst' : zget (c_states c') s = Ok st) by (rewrite Hsame by (auto; lia); exact Hst).
        rewrite (set_transition_ok _ _ _ _ st t) by assumption. eexists _, (setL L (p ++ [x]) i). split; [reflexivity|].
        destruct (replace_ordered (s_trans st) j t (mkTransition (t_first t) (t_last t) (t_match t) i) Ho Hj eq_refl ltac:(unfold single; cbn; exact Hsi)) as [Ho' Hlook].
        assert (Hlook2 : forall y, lookup (upd (s_trans st) (Z.to_nat j) (mkTransition (t_first t) (t_last t) (t_match t) i)) y = if y =? x then Some (mkTransition (t_first t) (t_last t) (t_match t) i) else lookup (s_trans st) y) by (intros y0; rewrite <- Hjx; apply Hlook).
        assert (HLx : setL L (p ++ [x]) i (p ++ [x]) = Some i) by (unfold setL; destruct (eqb_list_spec (p ++ [x]) (p ++ [x])); congruence).
        assert (HLo : forall q, q <> p ++ [x] -> setL L (p ++ [x]) i q = L q) by (intros q Hq; unfold setL; destruct (eqb_list_spec q (p ++ [x])); congruence).
        eapply step_done with (s := s); try eassumption; cbn [c_rule c_depth c_states c_to with_states with_grown].
        -- pose proof (track_states c' _ r (zlen p + 1) (upd (c_states c') (Z.to_nat s) (mkState (upd (s_trans st) (Z.to_nat j) (mkTransition (t_first t) (t_last t) (t_match t) i)) (s_min st) (s_max st))) (c_grown c') T' (zlen_upd _ _ _)) as T''. exact T''.
        -- congruence.
        -- apply zget_upd_same. lia.
        -- cbn [s_trans]. apply (node_update P L _ p x (y :: rest) r (s_trans st) _ (mkTransition (t_first t) (t_last t) (t_match t) i)); auto.
           ++ rewrite zlen_upd. exact Hl.
           ++ cbn [t_match]. rewrite more_first by discriminate. exact Hn2.
           ++ right. cbn [t_next]. split; [exact HLx|right; discriminate].
        -- intros _. exists i. split; [exact Eto'|exact HLx].
        -- intros q n Hq1 Hq2 Hq3. rewrite zget_upd_other; [|lia|].
           ++ apply Hsame; [eapply Hfresh; eauto|]. exact (live_range _ _ _ _ _ _ T Hq3).
           ++ intros <-. exact (other_state _ _ _ _ _ _ T Hs Hq1 Hq3 eq_refl).
        -- intros n Hn'. rewrite HLx in Hn'. injection Hn' as <-. rewrite zget_upd_other by (try lia; congruence).
           destruct Hn3 as [[H1 H2]|[H1 H2]].
           ++ rewrite H1 in Hnewst. exists state_empty. split; [exact Hnewst|]. split; [split; constructor|]. split; [cbn [s_trans state_empty]; rewrite zlen_nil; lia|].
              intros z. cbn. intros (ys & i0 & Hin & w & E). apply H2. exists ys, i0, (z :: w). split; [exact Hin|]. split; [|discriminate]. rewrite E, <- app_assoc. reflexivity.
           ++ assert (t_next t <> 255) by (pose proof (live_range _ _ _ _ _ _ T H1); pose proof (k_len _ _ _ _ T); lia).
              replace (t_next t =? 255) with false in Hnewst by lia. destruct (node_next _ _ _ _ _ _ N H1) as (st2 & H3 & H4).
              exists st2. split; [rewrite Hnewst; exact H3|]. apply node_links with (L := L); [exact H4|]. intros z. apply HLo.
              intros E. apply (f_equal (@length Z)) in E. rewrite !app_length in E. cbn in E. lia.
        -- rewrite zlen_upd. lia.
    - (* there is none *)
      assert (Hlk : lookup (s_trans st) x = None) by (apply lookup_none; exact Hnone).
      pose proof (Hn x) as Hnx. rewrite Hlk in Hnx. assert (Hnpx : ~ pext P (p ++ [x])).
      { intros (ys & i & w & H1 & H2 & _). apply Hnx. exists ys, i. split; [exact H1|exists w; exact H2]. }
      assert (Hfx : first_rule P (p ++ [x]) = 255).
      { destruct (Z.eq_dec (first_rule P (p ++ [x])) 255) as [E|E]; [exact E|]. exfalso. apply Hnx. apply first_found; assumption. }
      unfold insertNewTransition, unsafeInsertUninitializedTransition. cbn [c_grown c_states with_grown]. rewrite Hst. cbn [bind].
      destruct (zlen (s_trans st) >=? 254) eqn:Efull; [left; split; [reflexivity|right; pose proof (node_width _ _ _ _ Hnode); lia]|].
      destruct (ordered_index_spec (s_trans st) x Ho Hnone (length (s_trans st)) (Nat.le_refl _)) as (n & -> & Hnle & Hbelow & Habove).
      { intros j t Hj Hge. apply zget_ok_range in Hj. unfold zlen in Hj. lia. }
      cbn [bind]. rewrite zset_ok by lia. cbn [bind]. rewrite u8_id by (unfold byte; unfold zlen in *; lia).
      set (ts0 := firstn n (s_trans st) ++ mkTransition x (hi x) 255 255 :: skipn n (s_trans st)).
      set (st0 := mkState ts0 (s_min st) (s_max st)). set (c0 := with_states (with_grown c false) (upd (c_states c) (Z.to_nat s) st0)).
      assert (T0 : track c0 L r (zlen p)) by (exact (track_states c L r (zlen p) _ false T (zlen_upd _ _ _))).
      assert (Hst0 : zget (c_states c0) s = Ok st0) by (unfold c0; cbn [c_states with_states]; apply zget_upd_same; lia).
      assert (Hlen0 : zlen (c_states c0) = zlen (c_states c)) by (unfold c0; cbn [c_states with_states]; apply zlen_upd).
      assert (Lf : length (firstn n (s_trans st)) = n) by (rewrite firstn_length; lia).
      assert (Hget0 : zget (s_trans st0) (Z.of_nat n) = Ok (mkTransition x (hi x) 255 255)).
      { cbn [s_trans st0]. unfold ts0. rewrite zget_app_r by (unfold zlen; lia). replace (Z.of_nat n - _) with 0 by (unfold zlen; lia). apply zget_cons_0. }
      assert (Hins : forall m nx, let t' := mkTransition x (hi x) m nx in
        upd (s_trans st0) (Z.to_nat (Z.of_nat n)) t' = firstn n (s_trans st) ++ t' :: skipn n (s_trans st) /\
        ordered (firstn n (s_trans st) ++ t' :: skipn n (s_trans st)) /\ zlen (firstn n (s_trans st) ++ t' :: skipn n (s_trans st)) <= 254 /\
        forall y, lookup (firstn n (s_trans st) ++ t' :: skipn n (s_trans st)) y = if y =? x then Some t' else lookup (s_trans st) y).
      { intros m nx t'. split; [|split; [|split]].
        - cbn [s_trans st0]. unfold ts0. rewrite Nat2Z.id. pose proof (upd_middle (firstn n (s_trans st)) (skipn n (s_trans st)) (mkTransition x (hi x) 255 255) t') as U. rewrite Lf in U. exact U.
        - apply insert_ordered; [rewrite firstn_skipn; exact Ho|split; [reflexivity|exact Hlet]| |].
          + intros u Hu. apply in_zget in Hu. destruct Hu as (i & Hi). pose proof (zget_ok_range _ _ _ Hi) as Hir. unfold zlen in Hir. rewrite Lf in Hir.
            cbn [t_first t']. apply (Hbelow i u); [|lia]. rewrite <- (firstn_skipn n (s_trans st)). rewrite zget_app_l by (unfold zlen; lia). exact Hi.
          + intros u Hu. apply in_zget in Hu. destruct Hu as (i & Hi). pose proof (zget_ok_range _ _ _ Hi) as Hir.
            cbn [t_first t']. apply (Habove (Z.of_nat n + i) u); [|lia]. rewrite <- (firstn_skipn n (s_trans st)). rewrite zget_app_r by (unfold zlen; lia).
            replace (Z.of_nat n + i - zlen (firstn n (s_trans st))) with i by (unfold zlen; lia). exact Hi.
        - rewrite zlen_app, zlen_cons. unfold zlen in *. rewrite Lf, skipn_length. lia.
        - intros y. pose proof (lookup_insert (firstn n (s_trans st)) (skipn n (s_trans st)) t' y) as H. rewrite firstn_skipn in H. apply H. exact Hlk. }
      assert (Hc0 : forall q i, q <> p -> L q = Some i -> zget (c_states c0) i = zget (c_states c) i).
      { intros q i Hq1 Hq3. unfold c0. cbn [c_states with_states]. apply zget_upd_other; [lia|]. intros <-. exact (other_state _ _ _ _ _ _ T Hs Hq1 Hq3 eq_refl). }
      destruct rest as [|y rest].
      + right. replace (r =? 255) with false by lia. rewrite (set_transition_ok _ _ _ _ st0 _ Hst0 Hget0). cbn [t_first t_last]. eexists _, L. split; [reflexivity|].
        destruct (Hins r 255) as (Hu & Ho' & Hl' & Hlook'). eapply step_done with (s := s); try eassumption; cbn [c_rule c_depth c_states with_states with_grown].
        * apply (track_later _ _ _ (zlen p)); [|lia]. exact (track_states c0 L r (zlen p) _ false T0 (zlen_upd _ _ _)).
        * apply zget_upd_same. lia.
        * cbn [s_trans]. cbv zeta in Hu. rewrite Hu. apply (node_update P L L p x [] r (s_trans st) _ (mkTransition x (hi x) r 255)); auto.
          cbn [t_match]. rewrite last_first, Hfx. reflexivity.
        * auto.
        * contradiction.
        * intros q i Hq1 Hq2 Hq3. rewrite zget_upd_other; [apply (Hc0 q); assumption|lia|]. intros <-. exact (other_state _ _ _ _ _ _ T Hs Hq1 Hq3 eq_refl).
        * intros i Hi. destruct (node_next _ _ _ _ _ _ N Hi) as (st' & H1 & H2). exists st'. split; [|exact H2]. rewrite zget_upd_other; [|lia|].
          -- rewrite (Hc0 (p ++ [x])) by auto. exact H1.
          -- intros <-. exact (other_state _ _ _ _ _ _ T Hs (not_eq_sym Hnp) Hi eq_refl).
        * rewrite zlen_upd. lia.
      + rewrite Z.eqb_refl. destruct (linker_spec c0 L r (zlen p) p s x 255 T0 Er Ed eq_refl Hs Eto (or_introl eq_refl))
          as [[-> Efull']|(c' & i & -> & T' & Er' & Ed' & Eto' & Hfresh & Hir & Hnewst & Hsame & Hlen')]; [left; split; [reflexivity|left; split; [rewrite <- Hlen0; exact Efull'|discriminate]]|right]. cbn [bind].
        change (c_depth c0) with (c_depth c) in Ed'. rewrite Z.eqb_refl in Hnewst.
        assert (His : s <> i) by (eapply Hfresh; eauto).
        assert (Hst' : zget (c_states c') s = Ok st0) by (rewrite Hsame by (auto; lia); exact Hst0).
        rewrite (set_transition_ok _ _ _ _ st0 _ Hst' Hget0). cbn [t_first t_last]. eexists _, (setL L (p ++ [x]) i). split; [reflexivity|].
        destruct (Hins 255 i) as (Hu & Ho' & Hl' & Hlook').
        assert (HLx : setL L (p ++ [x]) i (p ++ [x]) = Some i) by (unfold setL; destruct (eqb_list_spec (p ++ [x]) (p ++ [x])); congruence).
        assert (HLo : forall q, q <> p ++ [x] -> setL L (p ++ [x]) i q = L q) by (intros q Hq; unfold setL; destruct (eqb_list_spec q (p ++ [x])); congruence).
        eapply step_done with (s := s); try eassumption; cbn [c_rule c_depth c_states c_to with_states with_grown].
        * exact (track_states c' _ r (zlen p + 1) _ (c_grown c') T' (zlen_upd _ _ _)).
        * congruence.
        * apply zget_upd_same. lia.
        * cbn [s_trans]. cbv zeta in Hu. rewrite Hu. apply (node_update P L _ p x (y :: rest) r (s_trans st) _ (mkTransition x (hi x) 255 i)); auto.
          -- cbn [t_match]. rewrite more_first by discriminate. symmetry. exact Hfx.
          -- right. cbn [t_next]. split; [exact HLx|right; discriminate].
        * intros _. exists i. split; [exact Eto'|exact HLx].
        * intros q m Hq1 Hq2 Hq3. rewrite zget_upd_other; [|lia|].
          -- rewrite Hsame; [apply (Hc0 q); assumption|eapply Hfresh; eauto|]. rewrite Hlen0. exact (live_range _ _ _ _ _ _ T Hq3).
          -- intros <-. exact (other_state _ _ _ _ _ _ T Hs Hq1 Hq3 eq_refl).
        * intros m Hm'. rewrite HLx in Hm'. injection Hm' as <-. rewrite zget_upd_other by (try lia; congruence).
          exists state_empty. split; [exact Hnewst|]. split; [split; constructor|]. split; [cbn [s_trans state_empty]; rewrite zlen_nil; lia|].
          intros z. cbn. intros (ys & i0 & Hin & w & E). apply Hnpx. exists ys, i0, (z :: w). split; [exact Hin|]. split; [|discriminate]. rewrite E, <- app_assoc. reflexivity.
        * rewrite zlen_upd. lia.
  Qed.
End Step.
End Letters.
