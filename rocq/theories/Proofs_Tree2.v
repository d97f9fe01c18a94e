(** Decision trees of rules whose elements are single elements or sets that are one range: the bookkeeping of the compiler. *)
From Verif Require Import Base BaseFacts Model_Helpers Model_Scanner Model_Tree Spec_Tree Proofs_Helpers Proofs_Tree.

(** ** Appending a letter *)
Lemma set_transition_ok c i j f st t : zget (c_states c) i = Ok st -> zget (s_trans st) j = Ok t ->
  set_transition c i j f = Ok (with_states c (upd (c_states c) (Z.to_nat i)
    (mkState (upd (s_trans st) (Z.to_nat j) (f t)) (s_min st) (s_max st)))).
Proof.
  intros Hi Hj. unfold set_transition. rewrite Hi. cbn [bind]. rewrite Hj. cbn [bind].
  rewrite zset_ok by (eapply zget_ok_range; eauto). cbn [bind]. rewrite zset_ok by (eapply zget_ok_range; eauto). reflexivity.
Qed.
Lemma set_transition_keeps c i j f c' : set_transition c i j f = Ok c' -> exists st, zget (c_states c') i = Ok st.
Proof.
  unfold set_transition. intros H. apply bind_ok in H. destruct H as (st & Hst & H). apply bind_ok in H. destruct H as (t & Ht & H).
  pose proof (zget_ok_range _ _ _ Hst). rewrite zset_ok in H by (eapply zget_ok_range; eauto). cbn [bind] in H. rewrite zset_ok in H by lia.
  cbn [bind] in H. injection H as <-. cbn [c_states with_states]. rewrite zget_upd_same by lia. eauto.
Qed.
Lemma Link_keeps c i j m n c' : Link c i j m n = Ok c' -> exists st, zget (c_states c') i = Ok st.
Proof.
  unfold Link. intros H. apply bind_ok in H. destruct H as (st & Hst & H). apply bind_ok in H. destruct H as (t & Ht & H).
  destruct (negb (m =? 255)).
  - destruct (t_match t =? 255); [eapply set_transition_keeps; eauto|]. injection H as <-. eauto.
  - apply bind_ok in H. destruct H as ((c1 & next) & _ & H). eapply set_transition_keeps; eauto.
Qed.
Lemma insert_keeps c i a b m n c' : insertNewTransition c i a b m n = Ok c' -> exists st, zget (c_states c') i = Ok st.
Proof.
  unfold insertNewTransition. intros H. apply bind_ok in H. destruct H as ((c1 & j) & _ & H). destruct (m =? 255).
  - apply bind_ok in H. destruct H as ((c2 & next) & _ & H). eapply set_transition_keeps; eauto.
  - eapply set_transition_keeps; eauto.
Qed.

Section Kind.
  Variable k : kind.

  Lemma loop_done n c i a b m j : (exists st, zget (c_states c) i = Ok st) -> b < a -> append_loop k n c i a b m j = Ok c.
  Proof.
    intros (st & Hst) H. destruct n; cbn [append_loop]; rewrite Hst; cbn [bind];
      (replace ((a <=? b) && _) with false by lia); (replace (a >? b) with true by lia); reflexivity.
  Qed.

  Context {AB : alphabet}.
  Lemma append_single c i g m st : letter g -> hi g < k_succ k (hi g) -> zget (c_states c) i = Ok st -> ordered (s_trans st) -> zlen (s_trans st) <= 254 ->
    (exists j t, zget (s_trans st) j = Ok t /\ t_first t = g /\ AppendRange k c i g (hi g) m = Link (with_grown c false) i j m 0) \/
    ((forall j t, zget (s_trans st) j = Ok t -> t_first t <> g) /\
     AppendRange k c i g (hi g) m = insertNewTransition (with_grown c false) i g (hi g) m 0).
  Proof.
    intros Hlet Hg Hi Ho Hl. pose proof (letter_hi _ Hlet) as Hgh. unfold AppendRange. cbn [c_states with_grown]. rewrite Hi. cbn [bind].
    assert (Hi0 : zget (c_states (with_grown c false)) i = Ok st) by exact Hi. remember (with_grown c false) as c0 eqn:E0.
    destruct (find_spec _ g Ho Hl) as (j & found & Hf & Hj & H). rewrite Hf. cbn [bind]. rewrite (name_letter _ Hlet) in H.
    pose proof (zlen_nonneg (s_trans st)) as Hz.
    assert (INS : forall n n', (do c' <- insertNewTransition c0 i g (hi g) m 0; append_loop k n c' i (k_succ k (hi g)) (hi g) m n') = insertNewTransition c0 i g (hi g) m 0).
    { intros n n'. destruct (insertNewTransition c0 i g (hi g) m 0) as [c'| | |] eqn:E; try reflexivity. cbn [bind].
      apply loop_done; [eapply insert_keeps; eauto|lia]. }
    destruct found.
    - left. destruct H as (t & Ht & Hfirst). exists j, t. split; [exact Ht|]. split; [exact Hfirst|].
      destruct (ordered_single _ _ _ Ho Ht) as [Hs _].
      cbn [append_loop]. rewrite Hi0. cbn [bind]. pose proof (zget_ok_range _ _ _ Ht).
      replace ((g <=? hi g) && (j <? zlen (s_trans st))) with true by lia. rewrite Ht. cbn [bind].
      unfold confrontRanges. rewrite Hs, Hfirst. replace (g <? g) with false by lia. rewrite Z.eqb_refl. replace (hi g >=? hi g) with true by lia.
      destruct (Link c0 i j m 0) as [c'| | |] eqn:E; try reflexivity. cbn [bind]. apply loop_done; [eapply Link_keeps; eauto|lia].
    - right. destruct H as (Hne & Hle & Hb & Ha & Hat). split; [exact Hne|].
      cbn [append_loop]. rewrite Hi0. cbn [bind]. replace (g <=? hi g) with true by lia. replace (g >? hi g) with false by lia.
      destruct (j <? zlen (s_trans st)) eqn:Ej; [|reflexivity].
      cbn [andb]. destruct (zget_in_range (s_trans st) j ltac:(lia)) as (t & Ht). rewrite Ht. cbn [bind].
      destruct (ordered_single _ _ _ Ho Ht) as [Hs Hlt]. pose proof (letter_hi _ Hlt).
      specialize (Hat _ Ht). unfold confrontRanges at 1. rewrite Hs. destruct (g <? t_first t) eqn:Elt.
      + pose proof (letters_apart _ _ Hlet Hlt ltac:(lia)). replace (hi g <? t_first t) with true by lia. apply INS.
      + replace (g =? t_first t) with false by lia. replace (g <=? hi (t_first t)) with false by lia.
        rewrite u8_id by (unfold byte; lia).
        assert (exists f, (2 * length (s_trans st) = S f)%nat) as (f & ->). { exists (2 * length (s_trans st) - 1)%nat. unfold zlen in *. lia. }
        cbn [append_loop]. rewrite Hi0. cbn [bind]. replace (g <=? hi g) with true by lia. replace (g >? hi g) with false by lia.
        destruct (j + 1 <? zlen (s_trans st)) eqn:Ej1; cbn [andb]; [|reflexivity].
        destruct (zget_in_range (s_trans st) (j + 1) ltac:(lia)) as (t' & Ht'). rewrite Ht'. cbn [bind].
        specialize (Ha _ _ Ht' ltac:(lia)). destruct (ordered_single _ _ _ Ho Ht') as [_ Hlt'].
        pose proof (letters_apart _ _ Hlet Hlt' Ha). unfold confrontRanges. replace (g <? t_first t') with true by lia.
        replace (hi g <? t_first t') with true by lia. apply INS.
  Qed.
End Kind.

(** ** The ordered lists of states *)
Lemma insertion_index_some l e : ~ In e l -> forall i, (i <= length l)%nat ->
  exists j, insertion_index Z.ltb Z.eqb l e i = Ok (Some j) /\ (j <= i)%nat.
Proof.
  intros Hn. induction i as [|i IH]; intros Hi; cbn [insertion_index]; [exists O; split; [reflexivity|lia]|].
  destruct (zget_in_range l (Z.of_nat i) ltac:(unfold zlen; lia)) as (x & Hx). rewrite Hx. cbn [bind].
  destruct (x <? e); [exists (S i); split; [reflexivity|lia]|].
  destruct (Z.eqb_spec x e) as [->|]; [exfalso; apply Hn; eapply zget_in; eauto|].
  destruct IH as (j & Hj & Hle); [lia|]. exists j. split; [exact Hj|lia].
Qed.
Lemma ordered_insert_new l x : ~ In x l -> exists a b, l = a ++ b /\ ordered_insert l x = Ok (a ++ x :: b).
Proof.
  intros Hn. unfold ordered_insert, BasicOrderedNonRepeatInsert. cbn [elems].
  destruct (insertion_index_some l x Hn (length l) (Nat.le_refl _)) as (j & -> & Hj). cbn [bind].
  unfold GrowSliceByOne. cbn [spare elems]. rewrite (insert_list Z.ltb Z.eqb Zltb_order) by exact Hj. cbn [bind elems].
  exists (firstn j l), (skipn j l). split; [symmetry; apply firstn_skipn|reflexivity].
Qed.

(** ** Invariant of the bookkeeping. [L] tells which state stands for a path from the root;
    states at distances greater than [e] only belong to rules below [r]. *)
Record track (c : compiler) (L : list Z -> option Z) (r e : Z) : Prop := {
  k_len : 1 <= zlen (c_states c) <= 254;
  k_uses : zlen (c_uses c) = zlen (c_states c) - 1;
  k_rules : zlen (c_rules c) = zlen (c_states c) - 1;
  k_freed_nodup : NoDup (c_freed c);
  k_freed : forall j, In j (c_freed c) -> 1 <= j < zlen (c_states c) /\ zget (c_uses c) (j - 1) = Ok 0 /\
    forall n l, zget (c_depths c) n = Ok l -> ~ In j l;
  k_depth : forall n l, zget (c_depths c) n = Ok l -> NoDup l /\ forall j, In j l -> 1 <= j < zlen (c_states c) /\
    exists rl, zget (c_rules c) (j - 1) = Ok rl /\ rl <> [] /\ (forall x, In x rl -> x <= r) /\ (e <= n -> forall x, In x rl -> x < r);
  k_once : forall n n' l l' j, zget (c_depths c) n = Ok l -> zget (c_depths c) n' = Ok l' -> In j l -> In j l' -> n = n';
  k_root : L [] = Some 0;
  k_inj : forall p q j, L p = Some j -> L q = Some j -> p = q;
  k_live : forall p j, L p = Some j -> p <> [] -> 1 <= j /\ zget (c_uses c) (j - 1) = Ok 1 /\
    exists l, zget (c_depths c) (zlen p - 1) = Ok l /\ In j l }.

Definition setL (L : list Z -> option Z) (p : list Z) (j : Z) : list Z -> option Z :=
  fun q => if eqb_list q p then Some j else L q.
Lemma eqb_list_spec a b : reflect (a = b) (eqb_list a b).
Proof. unfold eqb_list. destruct (list_eq_dec Z.eq_dec a b); constructor; assumption. Qed.

Lemma live_range c L r e p j : track c L r e -> L p = Some j -> 0 <= j < zlen (c_states c).
Proof.
  intros T H. destruct p as [|x p].
  - rewrite (k_root _ _ _ _ T) in H. injection H as <-. pose proof (k_len _ _ _ _ T). lia.
  - destruct (k_live _ _ _ _ T _ _ H ltac:(discriminate)) as (_ & _ & l & Hl & Hin).
    destruct (k_depth _ _ _ _ T _ _ Hl) as [_ Hd]. specialize (Hd _ Hin). lia.
Qed.

(** ** The steps of linking a state *)
Lemma adjust_old c i delta u : 1 <= i -> zget (c_uses c) (i - 1) = Ok u -> 0 <= u + delta <= 255 ->
  adjustStateUseCount c i delta = Ok (with_uses c (upd (c_uses c) (Z.to_nat (i - 1)) (u + delta))).
Proof.
  intros Hi Hu Hr. unfold adjustStateUseCount. replace (i =? 0) with false by lia. pose proof (zget_ok_range _ _ _ Hu).
  replace (zlen (c_uses c) <=? i - 1) with false by lia. rewrite Hu. cbn [bind].
  replace ((u + delta >? 255) || (u + delta <? 0)) with false by lia. rewrite zset_ok by lia. cbn [bind]. rewrite u8_id by (unfold byte; lia). reflexivity.
Qed.
Lemma adjust_new c i delta : 1 <= i -> i - 1 = zlen (c_uses c) -> 0 <= delta <= 255 ->
  adjustStateUseCount c i delta = Ok (with_uses c (c_uses c ++ [delta])).
Proof.
  intros Hi Hu Hr. unfold adjustStateUseCount. replace (i =? 0) with false by lia.
  replace (zlen (c_uses c) <=? i - 1) with true by lia. replace (zlen (c_uses c) =? i - 1) with true by lia. cbn [negb bind].
  replace ((delta >? 255) || (delta <? 0)) with false by lia. rewrite zset_ok by (rewrite zlen_app, zlen_cons, zlen_nil; lia). cbn [bind].
  rewrite u8_id by (unfold byte; lia). replace (Z.to_nat (i - 1)) with (length (c_uses c)) by (unfold zlen in Hu; lia).
  rewrite upd_middle. reflexivity.
Qed.

(** a list that gets [v] at position [i], possibly one behind its end *)
Definition placed {A} (l l' : list A) (i : Z) (v : A) : Prop :=
  zlen l' = Z.max (zlen l) (i + 1) /\ zget l' i = Ok v /\ forall n, n <> i -> 0 <= n < zlen l -> zget l' n = zget l n.
Lemma placed_upd {A} (l : list A) i v : 0 <= i < zlen l -> placed l (upd l (Z.to_nat i) v) i v.
Proof.
  intros H. split; [rewrite zlen_upd; lia|]. split; [apply zget_upd_same; lia|]. intros n Hn _. apply zget_upd_other; lia.
Qed.
Lemma placed_app {A} (l : list A) v : placed l (l ++ [v]) (zlen l) v.
Proof.
  split; [rewrite zlen_app, zlen_cons, zlen_nil; lia|]. split; [rewrite zget_app_r by lia; rewrite Z.sub_diag; apply zget_cons_0|].
  intros n Hn H. apply zget_app_l. lia.
Qed.

Lemma grow_rules_set c i v : 0 <= i <= zlen (c_rules c) ->
  exists all all', grow_rules c i = Ok all /\ zset all i v = Ok all' /\ placed (c_rules c) all' i v.
Proof.
  intros H. unfold grow_rules. destruct (zlen (c_rules c) <=? i) eqn:E.
  - assert (i = zlen (c_rules c)) as -> by lia. replace (zlen (c_rules c) =? zlen (c_rules c)) with true by lia. cbn [negb].
    exists (c_rules c ++ [[]]), (c_rules c ++ [v]). split; [reflexivity|]. split; [|apply placed_app].
    rewrite zset_ok by (rewrite zlen_app, zlen_cons, zlen_nil; pose proof (zlen_nonneg (c_rules c)); lia).
    replace (Z.to_nat (zlen (c_rules c))) with (length (c_rules c)) by (unfold zlen; lia). rewrite upd_middle. reflexivity.
  - exists (c_rules c), (upd (c_rules c) (Z.to_nat i) v). split; [reflexivity|]. split; [apply zset_ok; lia|apply placed_upd; lia].
Qed.

Lemma init_rules c i : 1 <= i <= zlen (c_rules c) + 1 ->
  exists all, initializeStateRules c i = Ok (with_rules c all) /\ placed (c_rules c) all (i - 1) [c_rule c].
Proof.
  intros H. unfold initializeStateRules. replace (i =? 0) with false by lia.
  destruct (grow_rules_set c (i - 1) [c_rule c] ltac:(lia)) as (a & a' & -> & E & P). cbn [bind]. rewrite E. cbn [bind]. eauto.
Qed.
Lemma init_rules_ref c i ref rl : 1 <= i <= zlen (c_rules c) + 1 -> 1 <= ref -> zget (c_rules c) (ref - 1) = Ok rl -> rl <> [] ->
  (forall x, In x rl -> x < c_rule c) ->
  exists all, initializeStateRulesWithRef c i ref = Ok (with_rules c all) /\ placed (c_rules c) all (i - 1) (rl ++ [c_rule c]).
Proof.
  intros Hi Hr Hrl Hne Hlt. unfold initializeStateRulesWithRef. replace ((i =? 0) || (ref =? 0)) with false by lia. rewrite Hrl. cbn [bind].
  destruct (grow_rules_set c (i - 1) (rl ++ [c_rule c]) ltac:(lia)) as (a & a' & -> & E & P). cbn [bind].
  pose proof (zlen_nonneg rl). assert (zlen rl <> 0) by (intros E0; apply Hne; apply zlen_0_nil; exact E0).
  destruct (zget_in_range rl 0 ltac:(lia)) as (x & Hx). rewrite Hx. cbn [bind].
  destruct (zget_in_range rl (zlen rl - 1) ltac:(lia)) as (y & Hy). rewrite Hy. cbn [bind].
  pose proof (Hlt _ (zget_in _ _ _ Hx)). pose proof (Hlt _ (zget_in _ _ _ Hy)).
  replace (c_rule c <? x) with false by lia. replace (c_rule c >? y) with true by lia. cbn [bind]. rewrite E. cbn [bind]. eauto.
Qed.

Lemma register_new c i : 0 <= c_depth c <= zlen (c_depths c) ->
  (forall l, zget (c_depths c) (c_depth c) = Ok l -> ~ In i l) ->
  exists l a b depths, registerNewStateAtDepth c i = Ok (with_depths c depths) /\ l = a ++ b /\
    (zget (c_depths c) (c_depth c) = Ok l \/ (l = [] /\ zlen (c_depths c) = c_depth c)) /\
    placed (c_depths c) depths (c_depth c) (a ++ i :: b).
Proof.
  intros Hd Hn. unfold registerNewStateAtDepth. destruct (zlen (c_depths c) <=? c_depth c) eqn:E.
  - assert (Hd' : zlen (c_depths c) = c_depth c) by lia. rewrite Hd', Z.eqb_refl. cbn [negb bind].
    rewrite zget_app_r by lia. rewrite Hd', Z.sub_diag, zget_cons_0. cbn [bind].
    change (ordered_insert [] i) with (Ok (A := list Z) [i]). cbn [bind].
    rewrite zset_ok by (rewrite zlen_app, zlen_cons, zlen_nil; lia). cbn [bind].
    replace (Z.to_nat (c_depth c)) with (length (c_depths c)) by (unfold zlen in Hd'; lia). rewrite upd_middle.
    exists [], [], [], (c_depths c ++ [[i]]). split; [reflexivity|]. split; [reflexivity|]. split; [right; auto|].
    rewrite <- Hd'. apply placed_app.
  - cbn [bind]. destruct (zget_in_range (c_depths c) (c_depth c) ltac:(lia)) as (l & Hl). rewrite Hl. cbn [bind].
    destruct (ordered_insert_new l i (Hn _ Hl)) as (a & b & -> & ->). cbn [bind]. rewrite zset_ok by lia. cbn [bind].
    exists (a ++ b), a, b. eexists. split; [reflexivity|]. split; [reflexivity|]. split; [left; reflexivity|]. apply placed_upd. lia.
Qed.

Lemma no_reuse c L r e p x ref : track c L r e -> c_rule c = r -> c_depth c = zlen p -> e <= zlen p ->
  ref = 255 \/ L (p ++ [x]) = Some ref -> fetchReusableState c ref = Ok 255.
Proof.
  intros T Hr Hd He Href. unfold fetchReusableState. pose proof (zlen_nonneg p) as Hp.
  assert (Hlr : L (p ++ [x]) = Some ref -> 1 <= ref /\ exists rl, zget (c_rules c) (ref - 1) = Ok rl /\ rl <> [] /\ forall y, In y rl -> y < r).
  { intros HL. destruct (k_live _ _ _ _ T _ _ HL) as (H1 & _ & l & Hl & Hin); [destruct p; discriminate|]. split; [exact H1|].
    destruct (k_depth _ _ _ _ T _ _ Hl) as [_ Hd']. destruct (Hd' _ Hin) as (_ & rl & Hrl & Hne & _ & Hlt). exists rl. split; [exact Hrl|]. split; [exact Hne|].
    apply Hlt. rewrite zlen_app, zlen_cons, zlen_nil. lia. }
  assert (ref =? 0 = false) as ->. { destruct Href as [->|HL]; [reflexivity|]. destruct (Hlr HL). lia. }
  rewrite Hd, Hr. destruct (zlen p >=? zlen (c_depths c)) eqn:Ed; [reflexivity|].
  destruct (zget_in_range (c_depths c) (zlen p) ltac:(lia)) as (l & Hl). rewrite Hl. cbn [bind]. destruct (zlen l =? 0); [reflexivity|].
  assert (exists rules, (if ref =? 255 then Ok [] else zget (c_rules c) (ref - 1)) = Ok rules /\ forall y, In y rules -> y < r) as (rules & -> & Hrules).
  { destruct (Z.eqb_spec ref 255) as [->|Hne]; [exists []; split; [reflexivity|intros y []]|].
    destruct Href as [->|HL]; [congruence|]. destruct (Hlr HL) as (_ & rl & Hrl & _ & Hlt). eauto. }
  cbn [bind]. assert (exists pos, match rules with [] => Ok O | y :: _ => if y =? r then Panic else Ok (if y <? r then 1%nat else O) end = Ok pos) as (pos & ->).
  { destruct rules as [|y rules]; [eauto|]. specialize (Hrules y (or_introl eq_refl)). replace (y =? r) with false by lia. eauto. }
  cbn [bind]. destruct (k_depth _ _ _ _ T _ _ Hl) as [_ Hd'].
  assert (Hsub : forall j, In j l -> exists rl, zget (c_rules c) (j - 1) = Ok rl /\ forall y, In y rl -> y < r).
  { intros j Hj. destruct (Hd' _ Hj) as (_ & rl & Hrl & _ & _ & Hlt). exists rl. split; [exact Hrl|]. apply Hlt. exact He. }
  clear -Hsub. induction l as [|j l IH]; [reflexivity|]. cbn [reuse_loop]. destruct (Hsub j (or_introl eq_refl)) as (rl & Hrl & Hlt). rewrite Hrl. cbn [bind].
  destruct (eqb_list_spec rl (firstn pos rules ++ r :: skipn pos rules)) as [E|_].
  - exfalso. assert (In r rl) as H by (rewrite E; apply in_or_app; right; left; reflexivity). specialize (Hlt _ H). lia.
  - apply IH. intros i Hi. apply Hsub. right. exact Hi.
Qed.

Lemma last_in {A} (l : list A) d : l <> [] -> l = removelast l ++ [last l d].
Proof. apply app_removelast_last. Qed.

(** Fetching a state: it belongs to no path. *)
Lemma fetch_spec c L r e : track c L r e ->
  (fetchFreedOrNewState c = hit_limits /\ zlen (c_states c) = 254) \/
  exists c1 j, fetchFreedOrNewState c = Ok (c1, j) /\ 1 <= j < zlen (c_states c1) /\ zlen (c_states c1) <= 254 /\
    zlen (c_states c) <= zlen (c_states c1) <= zlen (c_states c) + 1 /\
    (zlen (c_states c1) = zlen (c_states c) + 1 -> j = zlen (c_states c)) /\
    (forall i, 0 <= i < zlen (c_states c) -> zget (c_states c1) i = zget (c_states c) i) /\
    c_rule c1 = c_rule c /\ c_depth c1 = c_depth c /\ c_to c1 = c_to c /\ c_uses c1 = c_uses c /\ c_rules c1 = c_rules c /\ c_depths c1 = c_depths c /\
    NoDup (c_freed c1) /\ ~ In j (c_freed c1) /\ (forall i, In i (c_freed c1) -> In i (c_freed c)) /\
    (forall n l, zget (c_depths c) n = Ok l -> ~ In j l) /\
    (j < zlen (c_states c) -> zget (c_uses c) (j - 1) = Ok 0).
Proof.
  intros T. unfold fetchFreedOrNewState. pose proof (k_len _ _ _ _ T) as Hlen. destruct (c_freed c) as [|f0 fr] eqn:Ef.
  - destruct (zlen (c_states c) >=? 254) eqn:El; [left; split; [reflexivity|lia]|right]. eexists _, _. split; [reflexivity|].
    cbn [c_states c_rule c_depth c_to c_uses c_rules c_depths c_freed with_grown with_states].
    rewrite zlen_app, zlen_cons, zlen_nil. split; [lia|]. split; [lia|]. split; [lia|]. split; [intros _; reflexivity|].
    split; [intros i Hi; apply zget_app_l; lia|]. do 6 (split; [reflexivity|]). rewrite Ef. split; [constructor|]. split; [intros []|]. split; [intros i []|].
    split; [|lia]. intros n l Hl Hin. destruct (k_depth _ _ _ _ T _ _ Hl) as [_ Hd]. specialize (Hd _ Hin). lia.
  - right. rewrite <- Ef. assert (Hne : c_freed c <> []) by (rewrite Ef; discriminate).
    pose proof (last_in _ 0 Hne) as E. eexists _, _. split; [reflexivity|].
    cbn [c_states c_rule c_depth c_to c_uses c_rules c_depths c_freed with_freed].
    assert (Hin : In (last (c_freed c) 0) (c_freed c)) by (rewrite E at 2; apply in_or_app; right; left; reflexivity).
    destruct (k_freed _ _ _ _ T _ Hin) as (H1 & H2 & H3). pose proof (k_freed_nodup _ _ _ _ T) as Hnd. rewrite E in Hnd.
    split; [lia|]. split; [lia|]. split; [lia|]. split; [lia|]. split; [reflexivity|]. do 6 (split; [reflexivity|]).
    apply NoDup_remove in Hnd. rewrite app_nil_r in Hnd. destruct Hnd as [Hnd Hni]. split; [exact Hnd|]. split; [exact Hni|].
    split; [intros i Hi; rewrite E; apply in_or_app; left; exact Hi|]. split; [exact H3|]. intros _. exact H2.
Qed.

Lemma nodup_insert {A} (a b : list A) x : NoDup (a ++ b) -> ~ In x (a ++ b) -> NoDup (a ++ x :: b).
Proof. intros H1 H2. apply NoDup_Add with (a := x) (l := a ++ b); [apply Add_app|]. split; assumption. Qed.

(** ** Linking *)
Lemma linker_spec c L r e p s x ref : track c L r e -> c_rule c = r -> c_depth c = zlen p -> e = zlen p -> L p = Some s -> c_to c = [] ->
  ref = 255 \/ L (p ++ [x]) = Some ref ->
  (stateLinker c ref 0 = hit_limits /\ zlen (c_states c) = 254) \/
  exists c' j, stateLinker c ref 0 = Ok (c', j) /\
    track c' (setL L (p ++ [x]) j) r (e + 1) /\ c_rule c' = r /\ c_depth c' = c_depth c /\ c_to c' = [j] /\
    (forall q i, L q = Some i -> i <> j) /\ 1 <= j < zlen (c_states c') /\
    (if ref =? 255 then zget (c_states c') j = Ok state_empty else zget (c_states c') j = zget (c_states c) ref) /\
    (forall i, i <> j -> 0 <= i < zlen (c_states c) -> zget (c_states c') i = zget (c_states c) i) /\
    zlen (c_states c) <= zlen (c_states c') <= zlen (c_states c) + 1.
Proof.
  intros T Hr Hd He Hp Hto Href. unfold stateLinker. rewrite (no_reuse c L r e p x ref T Hr Hd ltac:(lia) Href). cbn [bind]. rewrite Z.eqb_refl.
  destruct (fetch_spec c L r e T) as [[-> El]|(c1 & j & -> & Hj & Hl1 & Hl2 & Hnew & Hst & Er & Ed & Et & Eu & Erl & Edp & Hfn & Hjf & Hfs & Hjd & Hju)]; [left; split; [reflexivity|exact El]|].
  cbn [bind]. pose proof (k_len _ _ _ _ T) as Hlen. pose proof (k_uses _ _ _ _ T) as Hus. pose proof (k_rules _ _ _ _ T) as Hrs.
  pose proof (zlen_nonneg p) as Hzp.
  assert (Hjl : forall q i, L q = Some i -> i <> j).
  { intros q i Hq ->. destruct q as [|y q]; [rewrite (k_root _ _ _ _ T) in Hq; injection Hq as Hq; lia|].
    destruct (k_live _ _ _ _ T _ _ Hq ltac:(discriminate)) as (_ & _ & l & Hl & Hin). exact (Hjd _ _ Hl Hin). }
  assert (Hpd : 0 <= c_depth c <= zlen (c_depths c)).
  { rewrite Hd. destruct p as [|y p]; [rewrite zlen_nil; pose proof (zlen_nonneg (c_depths c)); lia|].
    destruct (k_live _ _ _ _ T _ _ Hp ltac:(discriminate)) as (_ & _ & l & Hl & _). apply zget_ok_range in Hl. lia. }
  (* the reference *)
  assert (Hrefs : ref <> 255 -> L (p ++ [x]) = Some ref /\ 1 <= ref < zlen (c_states c) /\ zget (c_uses c) (ref - 1) = Ok 1 /\
    exists rl, zget (c_rules c) (ref - 1) = Ok rl /\ rl <> [] /\ forall y, In y rl -> y < r).
  { intros Hne. destruct Href as [->|HL]; [congruence|]. split; [exact HL|].
    destruct (k_live _ _ _ _ T _ _ HL) as (H1 & H2 & l & Hl & Hin); [destruct p; discriminate|].
    destruct (k_depth _ _ _ _ T _ _ Hl) as [_ Hd']. destruct (Hd' _ Hin) as (H3 & rl & Hrl & Hrne & _ & Hlt). split; [lia|]. split; [exact H2|].
    exists rl. split; [exact Hrl|]. split; [exact Hrne|]. apply Hlt. rewrite zlen_app, zlen_cons, zlen_nil. lia. }
  assert (exists states2 rules2 v, (if negb (ref =? 255)
      then do other <- zget (c_states c1) ref; do states <- zset (c_states c1) j other; initializeStateRulesWithRef (with_states c1 states) j ref
      else do states <- zset (c_states c1) j state_empty; initializeStateRules (with_states c1 states) j) =
      Ok (with_rules (with_states c1 states2) rules2) /\ placed (c_rules c) rules2 (j - 1) v /\ v <> [] /\ (forall y, In y v -> y <= r) /\
      zlen states2 = zlen (c_states c1) /\ (forall i, i <> j -> zget states2 i = zget (c_states c1) i) /\
      (if ref =? 255 then zget states2 j = Ok state_empty else zget states2 j = zget (c_states c) ref)) as (states2 & rules2 & v & -> & Pl & Hvne & Hvle & Hs2 & Hs2o & Hs2j).
  { destruct (Z.eqb_spec ref 255) as [->|Hne]; cbn [negb].
    - rewrite zset_ok by lia. cbn [bind]. destruct (init_rules (with_states c1 (upd (c_states c1) (Z.to_nat j) state_empty)) j) as (all & -> & Pl).
      { cbn [c_rules with_states]. rewrite Erl. lia. }
      cbn [c_rules c_rule with_states] in Pl. rewrite Erl, Er, Hr in Pl. eexists _, _, _. split; [reflexivity|]. split; [exact Pl|].
      split; [discriminate|]. split; [intros y [<-|[]]; lia|]. split; [apply zlen_upd|]. split; [intros i Hi; apply zget_upd_other; lia|]. apply zget_upd_same. lia.
    - destruct (Hrefs Hne) as (_ & Hr1 & _ & rl & Hrl & Hrne & Hrlt). destruct (zget_in_range (c_states c) ref ltac:(lia)) as (other & Hot).
      rewrite Hst by lia. rewrite Hot. cbn [bind]. rewrite zset_ok by lia. cbn [bind].
      destruct (init_rules_ref (with_states c1 (upd (c_states c1) (Z.to_nat j) other)) j ref rl) as (all & -> & Pl); cbn [c_rules c_rule with_states]; try rewrite Erl; try lia; auto.
      cbn [c_rules c_rule with_states] in Pl. rewrite Erl, Er, Hr in Pl. eexists _, _, _. split; [reflexivity|]. split; [exact Pl|].
      split; [destruct rl; discriminate|]. split.
      { intros y Hy. apply in_app_or in Hy. destruct Hy as [Hy|[<-|[]]]; [specialize (Hrlt _ Hy)|]; lia. }
      split; [apply zlen_upd|]. split; [intros i Hi; apply zget_upd_other; lia|]. rewrite zget_upd_same by lia. reflexivity. }
  cbn [bind]. set (c2 := with_rules (with_states c1 states2) rules2).
  destruct (register_new c2 j) as (l & a & b & depths & -> & El & Hl & Pd); unfold c2; cbn [c_depth c_depths with_rules with_states]; rewrite ?Ed, ?Edp; try assumption.
  { intros l Hl. exact (Hjd _ _ Hl). }
  unfold c2 in Hl, Pd. cbn [c_depth c_depths with_rules with_states] in Hl, Pd. rewrite Ed, Edp in Hl, Pd. cbn [bind].
  unfold appendStateToNextRound. cbn [c_to with_depths with_rules with_states]. rewrite Et, Hto. change (ordered_insert [] j) with (Ok (A := list Z) [j]). cbn [bind].
  (* use counts *)
  set (c3 := with_to (with_depths (with_rules (with_states c1 states2) rules2) depths) [j]).
  assert (exists uses3, adjustStateUseCount c3 j 1 = Ok (with_uses c3 uses3) /\ placed (c_uses c) uses3 (j - 1) 1) as (uses3 & -> & Pu).
  { destruct (Z.eq_dec (zlen (c_states c1)) (zlen (c_states c) + 1)) as [E|E].
    - specialize (Hnew E). exists (c_uses c ++ [1]). rewrite adjust_new; unfold c3; cbn [c_uses with_to with_depths with_rules with_states]; rewrite ?Eu; try lia.
      split; [reflexivity|]. replace (j - 1) with (zlen (c_uses c)) by lia. apply placed_app.
    - exists (upd (c_uses c) (Z.to_nat (j - 1)) (0 + 1)). specialize (Hju ltac:(lia)).
      rewrite (adjust_old c3 j 1 0); unfold c3; cbn [c_uses with_to with_depths with_rules with_states]; rewrite ?Eu; try lia; [|exact Hju].
      split; [reflexivity|]. apply placed_upd. lia. }
  cbn [bind]. replace (negb (0 =? 0)) with false by reflexivity. rewrite andb_false_r.
  replace ((0 <? 0) || (0 >? 2)) with false by reflexivity. destruct Pu as (Pu1 & Pu2 & Pu3). destruct Pl as (Pl1 & Pl2 & Pl3). destruct Pd as (Pd1 & Pd2 & Pd3).
  assert (exists uses4, (if negb (ref =? 255) then do c <- adjustStateUseCount (with_uses c3 uses3) ref (0 - 1); Ok (c, j) else Ok (with_uses c3 uses3, j)) =
     Ok (with_uses c3 uses4, j) /\ zlen uses4 = zlen uses3 /\ zget uses4 (j - 1) = Ok 1 /\
     (forall n, n <> j - 1 -> n <> ref - 1 -> 0 <= n < zlen (c_uses c) -> zget uses4 n = zget (c_uses c) n)) as (uses4 & -> & Hu4 & Hu4j & Hu4o).
  { destruct (Z.eqb_spec ref 255) as [->|Hne]; cbn [negb].
    - exists uses3. split; [reflexivity|]. split; [reflexivity|]. split; [exact Pu2|]. intros n H1 H2 H3. apply Pu3; assumption.
    - destruct (Hrefs Hne) as (HL & Hr1 & Hru & _). assert (Hrj : ref <> j) by (eapply Hjl; eauto).
      rewrite (adjust_old (with_uses c3 uses3) ref (0 - 1) 1); cbn [c_uses with_uses]; try lia.
      + cbn [bind]. eexists. split; [reflexivity|]. split; [apply zlen_upd|]. split; [rewrite zget_upd_other by lia; exact Pu2|].
        intros n H1 H2 H3. rewrite zget_upd_other by lia. apply Pu3; assumption.
      + rewrite Pu3 by lia. exact Hru. }
  right. exists (with_uses c3 uses4), j. split; [reflexivity|].
  unfold c3. cbn [c_states c_rule c_depth c_to with_uses with_to with_depths with_rules with_states].
  assert (Hjn : Z.max (zlen (c_uses c)) (j - 1 + 1) = zlen states2 - 1).
  { destruct (Z.eq_dec (zlen (c_states c1)) (zlen (c_states c) + 1)) as [E|E]; [specialize (Hnew E)|]; lia. }
  assert (Hdep : forall n l', zget depths n = Ok l' -> (n = c_depth c /\ l' = a ++ j :: b) \/ (n <> c_depth c /\ zget (c_depths c) n = Ok l')).
  { intros n l' Hn. destruct (Z.eq_dec n (c_depth c)) as [->|Hne]; [left; split; [reflexivity|congruence]|right]. split; [exact Hne|].
    rewrite <- Pd3; [exact Hn|exact Hne|]. apply zget_ok_range in Hn. lia. }
  assert (Hlin : forall i, In i (a ++ b) -> zget (c_depths c) (c_depth c) = Ok (a ++ b)).
  { intros i Hi. destruct Hl as [Hl|[Hl _]]; [rewrite <- El; exact Hl|]. rewrite El in Hl. rewrite Hl in Hi. destruct Hi. }
  split; [|split; [rewrite Er; exact Hr|split; [exact Ed|split; [reflexivity|split; [exact Hjl|split; [lia|split; [exact Hs2j|split; [|lia]]]]]]]].
  2:{ intros i Hi1 Hi2. rewrite Hs2o by exact Hi1. apply Hst. exact Hi2. }
  constructor; cbn [c_states c_uses c_rules c_freed c_depths with_uses with_to with_depths with_rules with_states].
  - lia.
  - lia.
  - rewrite Pl1. lia.
  - exact Hfn.
  - intros i Hi. pose proof (Hfs _ Hi) as Hi'. destruct (k_freed _ _ _ _ T _ Hi') as (H1 & H2 & H3). assert (i <> j) by (intros ->; exact (Hjf Hi)).
    assert (Hir : i <> ref).
    { intros ->. destruct (Z.eq_dec ref 255) as [->|Hne]; [lia|]. destruct (Hrefs Hne) as (_ & _ & Hru & _). congruence. }
    split; [lia|]. split; [rewrite Hu4o by lia; exact H2|]. intros n l' Hn Hin. destruct (Hdep _ _ Hn) as [[-> ->]|[_ Hn']].
    + apply in_app_or in Hin. assert (In i (a ++ b)) as Hiab by (apply in_or_app; destruct Hin as [Hin|[Hin|Hin]]; [left; exact Hin|congruence|right; exact Hin]).
      exact (H3 _ _ (Hlin _ Hiab) Hiab).
    + exact (H3 _ _ Hn' Hin).
  - intros n l' Hn. destruct (Hdep _ _ Hn) as [[-> ->]|[Hne Hn']].
    + split.
      * apply nodup_insert.
        -- destruct Hl as [Hl|[Hl _]]; [rewrite <- El; apply (k_depth _ _ _ _ T _ _ Hl)|]. rewrite <- El, Hl. constructor.
        -- intros Hin. exact (Hjd _ _ (Hlin _ Hin) Hin).
      * intros i Hi. destruct (Z.eq_dec i j) as [->|Hij].
        -- split; [lia|]. exists v. split; [exact Pl2|]. split; [exact Hvne|]. split; [exact Hvle|]. lia.
        -- assert (In i (a ++ b)) as Hiab by (apply in_app_or in Hi; apply in_or_app; destruct Hi as [Hi|[Hi|Hi]]; [left; exact Hi|congruence|right; exact Hi]).
           destruct (k_depth _ _ _ _ T _ _ (Hlin _ Hiab)) as [_ Hd']. destruct (Hd' _ Hiab) as (H1 & rl & H2 & H3 & H4 & H5). split; [lia|].
           exists rl. split; [rewrite Pl3 by lia; exact H2|]. split; [exact H3|]. split; [exact H4|]. lia.
    + destruct (k_depth _ _ _ _ T _ _ Hn') as [Hnd Hd']. split; [exact Hnd|]. intros i Hi. destruct (Hd' _ Hi) as (H1 & rl & H2 & H3 & H4 & H5). split; [lia|].
      assert (i <> j) by (intros ->; exact (Hjd _ _ Hn' Hi)).
      exists rl. split; [rewrite Pl3 by lia; exact H2|]. split; [exact H3|]. split; [exact H4|]. intros Hle. apply H5. lia.
  - intros n n' l1 l2 i Hn Hn' Hi Hi'.
    assert (Hcase : forall n l', zget depths n = Ok l' -> In i l' -> (i = j /\ n = c_depth c) \/ (i <> j /\ exists l'', zget (c_depths c) n = Ok l'' /\ In i l'')).
    { clear -Hdep Hlin Hjd. intros n l' Hn Hin. destruct (Hdep _ _ Hn) as [[-> ->]|[Hne Hn']].
      - destruct (Z.eq_dec i j) as [->|Hij]; [left; auto|right]. split; [exact Hij|].
        assert (In i (a ++ b)) as Hiab by (apply in_app_or in Hin; apply in_or_app; destruct Hin as [Hi|[Hi|Hi]]; [left; exact Hi|congruence|right; exact Hi]).
        exists (a ++ b). split; [exact (Hlin _ Hiab)|exact Hiab].
      - right. split; [intros ->; exact (Hjd _ _ Hn' Hin)|]. eauto. }
    destruct (Hcase _ _ Hn Hi) as [[-> ->]|[Hij (m1 & Hm1 & Hm1')]]; destruct (Hcase _ _ Hn' Hi') as [[Hij' ->]|[Hij' (m2 & Hm2 & Hm2')]]; try congruence; try reflexivity.
    exact (k_once _ _ _ _ T _ _ _ _ _ Hm1 Hm2 Hm1' Hm2').
  - unfold setL. destruct (eqb_list_spec [] (p ++ [x])) as [E|_]; [destruct p; discriminate|]. apply (k_root _ _ _ _ T).
  - intros q q' i. unfold setL. destruct (eqb_list_spec q (p ++ [x])) as [->|Hq]; destruct (eqb_list_spec q' (p ++ [x])) as [->|Hq'].
    + reflexivity.
    + intros E1 E2. injection E1 as <-. exfalso. exact (Hjl _ _ E2 eq_refl).
    + intros E1 E2. injection E2 as <-. exfalso. exact (Hjl _ _ E1 eq_refl).
    + apply (k_inj _ _ _ _ T).
  - intros q i. unfold setL. destruct (eqb_list_spec q (p ++ [x])) as [->|Hq].
    + intros E _. injection E as <-. split; [lia|]. split; [exact Hu4j|]. exists (a ++ j :: b).
      rewrite zlen_app, zlen_cons, zlen_nil. replace (zlen p + (1 + 0) - 1) with (c_depth c) by lia. split; [exact Pd2|].
      apply in_or_app. right. left. reflexivity.
    + intros HL Hne. destruct (k_live _ _ _ _ T _ _ HL Hne) as (H1 & H2 & l0 & H3 & H4). split; [exact H1|].
      assert (i <> j) by (eapply Hjl; eauto).
      assert (i <> ref). { intros ->. destruct (Z.eq_dec ref 255) as [->|Hne']; [|destruct (Hrefs Hne') as (HL' & _); apply Hq; exact (k_inj _ _ _ _ T _ _ _ HL HL')].
        pose proof (live_range _ _ _ _ _ _ T HL). lia. }
      assert (1 <= i < zlen (c_states c)) by (pose proof (live_range _ _ _ _ _ _ T HL); lia).
      split; [rewrite Hu4o by lia; exact H2|].
      destruct (Z.eq_dec (zlen q - 1) (c_depth c)) as [E|E].
      * exists (a ++ j :: b). rewrite E. split; [exact Pd2|]. rewrite E in H3. destruct Hl as [Hl|[Hl0 Hl9]].
        -- rewrite Hl in H3. injection H3 as <-. rewrite El in H4. apply in_app_or in H4. apply in_or_app. destruct H4 as [H4|H4]; [left|right; right]; exact H4.
        -- apply zget_ok_range in H3. lia.
      * exists l0. split; [|exact H4]. rewrite Pd3; [exact H3|exact E|]. apply zget_ok_range in H3. exact H3.
Qed.
