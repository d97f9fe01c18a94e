(** Decision trees of rules whose elements are single elements or sets that are one range: feeding whole rules, and matching. *)
From Verif Require Import Base BaseFacts Spec_Helpers Model_Helpers Model_Scanner Model_Tree Spec_Tree Proofs_Helpers Proofs_Tree Proofs_Tree2 Proofs_Tree3.

Section Letters.
Context {AB : alphabet}.

Lemma track_ext c c' L r e : track c L r e -> c_states c' = c_states c -> c_uses c' = c_uses c -> c_rules c' = c_rules c ->
  c_freed c' = c_freed c -> c_depths c' = c_depths c -> track c' L r e.
Proof. intros T E1 E2 E3 E4 E5. destruct T. constructor; rewrite ?E1, ?E2, ?E3, ?E4, ?E5; assumption. Qed.
Lemma track_next c L r e r' : track c L r e -> r < r' -> track c L r' 0.
Proof.
  intros T H. constructor; try apply T. intros n l Hn. destruct (k_depth _ _ _ _ T n l Hn) as [H1 H2]. split; [exact H1|].
  intros j Hj. destruct (H2 j Hj) as (H3 & rl & H4 & H5 & H6 & H7). split; [exact H3|]. exists rl. split; [exact H4|]. split; [exact H5|].
  split; [intros x Hx; specialize (H6 x Hx); lia|]. intros _ x Hx. specialize (H6 x Hx). lia.
Qed.

(** ** Freeing *)
Lemma NoDup_app_intro (a b : list Z) : NoDup a -> NoDup b -> (forall x, In x a -> ~ In x b) -> NoDup (a ++ b).
Proof.
  induction a as [|x a IH]; intros Ha Hb H; [exact Hb|]. inversion Ha; subst. cbn [app]. constructor.
  - intros Hin. apply in_app_or in Hin. destruct Hin as [Hin|Hin]; [contradiction|]. exact (H x (or_introl eq_refl) Hin).
  - apply IH; [assumption|exact Hb|]. intros y Hy. apply H. right. exact Hy.
Qed.
Lemma split_unused_spec c l : (forall j, In j l -> 1 <= j /\ exists u, zget (c_uses c) (j - 1) = Ok u) -> NoDup l ->
  exists free kept, split_unused c l = Ok (free, kept) /\ NoDup free /\ NoDup kept /\
    (forall j, In j free <-> In j l /\ zget (c_uses c) (j - 1) = Ok 0) /\
    (forall j, In j kept <-> In j l /\ zget (c_uses c) (j - 1) <> Ok 0).
Proof.
  induction l as [|i l IH]; intros H Hnd; cbn [split_unused].
  - exists [], []. split; [reflexivity|]. split; [constructor|]. split; [constructor|]. split; intros j; cbn [In]; tauto.
  - inversion Hnd as [|? ? Hni Hnd']; subst. destruct (H i (or_introl eq_refl)) as (Hi & u & Hu).
    destruct (IH (fun j Hj => H j (or_intror Hj)) Hnd') as (free & kept & -> & N1 & N2 & F & K).
    unfold unused. replace (i =? 0) with false by lia. rewrite Hu. cbn [bind]. destruct (Z.eqb_spec u 0) as [->|Hne].
    + exists (i :: free), kept. split; [reflexivity|]. split; [constructor; [rewrite F; tauto|exact N1]|]. split; [exact N2|].
      split; intros j; cbn [In]; [rewrite F|rewrite K]; (split; [|intuition (subst; congruence)]).
      * intros [<-|[H1 H2]]; auto.
      * intros [H1 H2]; auto.
    + exists free, (i :: kept). split; [reflexivity|]. split; [exact N1|]. split; [constructor; [rewrite K; tauto|exact N2]|].
      assert (Hc : zget (c_uses c) (i - 1) <> Ok 0) by (rewrite Hu; congruence).
      split; intros j; cbn [In]; [rewrite F|rewrite K].
      * split; [intros [H1 H2]; auto|]. intros [[<-|H1] H2]; [contradiction|auto].
      * split; [intros [<-|[H1 H2]]; auto|]. intros [[<-|H1] H2]; auto.
Qed.

Lemma free_spec c L r e p j : track c L r e -> c_depth c = zlen p -> L p = Some j ->
  exists c', freeUnusedStates c = Ok c' /\ track c' L r e /\ c_states c' = c_states c /\ c_rule c' = c_rule c /\
    c_depth c' = c_depth c /\ c_to c' = c_to c.
Proof.
  intros T Ed Hp. unfold freeUnusedStates. rewrite Ed. destruct (Z.eqb_spec (zlen p) 0) as [E|E].
  - exists c. split; [reflexivity|]. auto.
  - assert (Hne : p <> []) by (intros ->; apply E; reflexivity). destruct (k_live _ _ _ _ T _ _ Hp Hne) as (_ & _ & l & Hl & _).
    rewrite Hl. cbn [bind]. destruct (k_depth _ _ _ _ T _ _ Hl) as [Hnd Hd].
    destruct (split_unused_spec c l) as (free & kept & -> & N1 & N2 & F & K); [|exact Hnd|].
    { intros i Hi. destruct (Hd i Hi) as [Hr _]. split; [lia|]. destruct (zget_in_range (c_uses c) (i - 1)) as (u & Hu); [|eauto].
      rewrite (k_uses _ _ _ _ T). lia. }
    pose proof (zget_ok_range _ _ _ Hl) as Hrange. cbn [bind]. rewrite zset_ok by exact Hrange. cbn [bind].
    eexists. split; [reflexivity|]. cbn [c_states c_rule c_depth c_to with_depths with_freed]. split; [|auto].
    (* every new list is a part of the old one at the same depth *)
    assert (Hsub : forall n l', zget (upd (c_depths c) (Z.to_nat (zlen p - 1)) kept) n = Ok l' ->
      exists l0, zget (c_depths c) n = Ok l0 /\ NoDup l' /\ (forall i, In i l' -> In i l0) /\ (n = zlen p - 1 -> l' = kept) /\ (n <> zlen p - 1 -> l' = l0)).
    { intros n l' Hn. destruct (Z.eq_dec n (zlen p - 1)) as [->|Hnn].
      - rewrite zget_upd_same in Hn by exact Hrange. injection Hn as <-. exists l. split; [exact Hl|]. split; [exact N2|].
        split; [intros i Hi; apply K in Hi; tauto|]. split; [reflexivity|contradiction].
      - pose proof (zget_ok_range _ _ _ Hn) as Hnr. rewrite zget_upd_other in Hn by lia. exists l'. split; [exact Hn|].
        split; [exact (proj1 (k_depth _ _ _ _ T _ _ Hn))|]. split; [auto|]. split; [contradiction|auto]. }
    constructor; cbn [c_states c_uses c_rules c_freed c_depths with_depths with_freed]; try apply T.
    + apply NoDup_app_intro; [apply T|exact N1|]. intros i Hi Hi'. apply F in Hi'. destruct Hi' as [Hi' _].
      destruct (k_freed _ _ _ _ T _ Hi) as (_ & _ & Hno). exact (Hno _ _ Hl Hi').
    + intros i Hi. apply in_app_or in Hi. destruct Hi as [Hi|Hi].
      * destruct (k_freed _ _ _ _ T _ Hi) as (H1 & H2 & H3). split; [exact H1|]. split; [exact H2|]. intros n l' Hn Hi'.
        destruct (Hsub _ _ Hn) as (l0 & H4 & _ & H5 & _). exact (H3 _ _ H4 (H5 _ Hi')).
      * apply F in Hi. destruct Hi as [Hi Hu]. split; [apply Hd; exact Hi|]. split; [exact Hu|]. intros n l' Hn Hi'.
        destruct (Hsub _ _ Hn) as (l0 & H4 & _ & H5 & H6 & _). pose proof (k_once _ _ _ _ T _ _ _ _ _ H4 Hl (H5 _ Hi') Hi) as E'.
        rewrite (H6 E') in Hi'. apply K in Hi'. tauto.
    + intros n l' Hn. destruct (Hsub _ _ Hn) as (l0 & H4 & H5 & H6 & _). split; [exact H5|]. intros i Hi.
      exact (proj2 (k_depth _ _ _ _ T _ _ H4) i (H6 _ Hi)).
    + intros n n' l1 l2 i H1 H2 H3 H4. destruct (Hsub _ _ H1) as (a & A1 & _ & A2 & _). destruct (Hsub _ _ H2) as (b & B1 & _ & B2 & _).
      exact (k_once _ _ _ _ T _ _ _ _ _ A1 B1 (A2 _ H3) (B2 _ H4)).
    + intros q i Hq Hqne. destruct (k_live _ _ _ _ T _ _ Hq Hqne) as (H1 & H2 & l0 & H3 & H4). split; [exact H1|]. split; [exact H2|].
      destruct (Z.eq_dec (zlen q - 1) (zlen p - 1)) as [Eq|Eq].
      * rewrite Eq in H3 |- *. rewrite Hl in H3. injection H3 as <-. exists kept. split; [apply zget_upd_same; exact Hrange|].
        apply K. split; [exact H4|]. rewrite H2. congruence.
      * exists l0. split; [|exact H4]. pose proof (zget_ok_range _ _ _ H3). rewrite zget_upd_other by lia. exact H3.
Qed.

(** ** Paths are short *)
Definition live_path (L : list Z -> option Z) (p : list Z) : Prop := forall q, is_prefix q p -> exists j, L q = Some j.
Lemma live_path_states c L r e p : track c L r e -> live_path L p ->
  exists l, NoDup l /\ length l = S (length p) /\ forall j, In j l -> exists q, is_prefix q p /\ L q = Some j.
Proof.
  intros T. induction p as [|x p IH] using rev_ind; intros Hl.
  - exists [0]. split; [constructor; [intros []|constructor]|]. split; [reflexivity|]. intros j [<-|[]]. exists []. split; [exists []; reflexivity|apply T].
  - destruct IH as (l & N & E & H).
    { intros q (w & ->). apply Hl. exists (w ++ [x]). rewrite app_assoc. reflexivity. }
    destruct (Hl (p ++ [x])) as (j & Hj); [exists []; symmetry; apply app_nil_r|]. exists (j :: l). split; [|split].
    + constructor; [|exact N]. intros Hin. destruct (H _ Hin) as (q & (w & E1) & Hq). pose proof (k_inj _ _ _ _ T _ _ _ Hj Hq) as E2.
      apply (f_equal (@length Z)) in E1. apply (f_equal (@length Z)) in E2. rewrite app_length in E1, E2. cbn [length] in E2. lia.
    + cbn [length]. rewrite app_length, E. cbn [length]. lia.
    + intros i [<-|Hi]; [exists (p ++ [x]); split; [exists []; symmetry; apply app_nil_r|exact Hj]|].
      destruct (H _ Hi) as (q & (w & E1) & Hq). exists q. split; [|exact Hq]. exists (w ++ [x]). rewrite app_assoc, <- E1. reflexivity.
Qed.
Lemma live_path_short c L r e p : track c L r e -> live_path L p -> zlen p <= 253.
Proof.
  intros T H. destruct (live_path_states _ _ _ _ _ T H) as (l & N & E & Hl).
  assert (Hle : (length l <= length (map Z.of_nat (seq 0 (Z.to_nat (zlen (c_states c))))))%nat).
  { apply NoDup_incl_length; [exact N|]. intros j Hj. destruct (Hl _ Hj) as (q & _ & Hq). pose proof (live_range _ _ _ _ _ _ T Hq).
    apply in_map_iff. exists (Z.to_nat j). split; [lia|]. apply in_seq. lia. }
  rewrite map_length, seq_length in Hle. pose proof (k_len _ _ _ _ T). unfold zlen in *. lia.
Qed.

Lemma next_spec c L r e p : track c L r e -> c_depth c = zlen p -> live_path L p ->
  exists c', next_round c = Ok (c', c_to c) /\ track c' L r e /\ c_states c' = c_states c /\ c_rule c' = c_rule c /\
    c_depth c' = zlen p + 1 /\ c_to c' = [].
Proof.
  intros T Ed Hl. destruct (Hl p) as (j & Hj); [exists []; symmetry; apply app_nil_r|].
  destruct (free_spec _ _ _ _ _ _ T Ed Hj) as (c1 & E1 & T1 & S1 & R1 & D1 & To1). unfold next_round. rewrite E1. cbn [bind].
  pose proof (live_path_short _ _ _ _ _ T Hl). pose proof (zlen_nonneg p). rewrite D1, Ed.
  rewrite u8_id by (unfold byte; lia). replace (zlen p + 1 =? 0) with false by lia. rewrite To1. eexists. split; [reflexivity|].
  cbn [c_states c_rule c_depth c_to]. split; [|auto]. eapply track_ext; [exact T1|reflexivity..].
Qed.

(** ** One rule *)
Section Rule.
  Variables (k : kind) (sets : set_reader) (headLen : Z).
  (** [feed_loop] over elements instead of bytes *)
  Fixpoint feed_elems (es : list element) (c : compiler) (from : list Z) : outcome compiler :=
    match es with
    | [] => Ok c
    | e :: es =>
        do c <- ofold (feed_state k sets headLen e (match es with [] => c_rule c | _ => 255 end)) from c;
        do ' (c, from) <- next_round c;
        feed_elems es c from
    end.
  Lemma feed_loop_elems n : forall s es c from, scan_loop n k s = Ok es -> feed_loop k sets n headLen s c from = feed_elems es c from.
  Proof.
    induction n as [|n IH]; intros s es c from; cbn [scan_loop feed_loop].
    - destruct (HasNext s); [discriminate|]. intros [= <-]. reflexivity.
    - destruct (HasNext s) eqn:Eh; [|intros [= <-]; reflexivity]. destruct (Next k s) as [[s' e]| | |]; cbn [bind]; try discriminate.
      intros H. apply bind_ok in H. destruct H as (es' & Hes & H). injection H as <-. cbn [feed_elems].
      assert (Em : (if HasNext s' then 255 else c_rule c) = match es' with [] => c_rule c | _ => 255 end).
      { destruct n; cbn [scan_loop] in Hes; destruct (HasNext s'); try discriminate; try (injection Hes as <-; reflexivity).
        apply bind_ok in Hes. destruct Hes as ([s2 e2] & _ & Hes). apply bind_ok in Hes. destruct Hes as (r2 & _ & Hes). injection Hes as <-. reflexivity. }
      rewrite Em. destruct (ofold _ from c) as [c'| | |]; cbn [bind]; try reflexivity.
      destruct (next_round c') as [[c2 from2]| | |]; cbn [bind]; try reflexivity. apply IH. exact Hes.
  Qed.

  Variables (P : list (list Z * Z)) (r : Z) (Hr : 0 <= r < 255) (Hidx : indexed P).

  (** An element of a rule whose elements are those of the letter [a] *)
  Definition stands (e : element) (a : Z) : Prop :=
    letter a /\ hi a < k_succ k (hi a) /\
    match e with
    | Single x => x = a /\ hi a = a
    | InSet s => s <> 255 /\ forall each c, sets s each c = fst (each (Ok c) (a, hi a))
    end.
  Lemma feed_state_step el rest x p c L s : track c L r (zlen p) -> c_rule c = r -> c_depth c = zlen p -> c_to c = [] ->
    nodes c L P (p ++ x :: rest) r (zlen p) -> L p = Some s -> stands el x ->
    (feed_state k sets headLen el (match rest with [] => r | _ => 255 end) c s = hit_limits /\ (zlen (c_states c) = 254 /\ rest <> [] \/ 254 <= zlen P)) \/
    exists c' L', feed_state k sets headLen el (match rest with [] => r | _ => 255 end) c s = Ok c' /\ stepped P r c c' L L' p x rest.
  Proof.
    intros T Er Ed Eto N Hs (Hlet & Hx & Hel). destruct (node_of P r c L p s x _ N Hs) as (st & Hst & Hnode). pose proof (live_range _ _ _ _ _ _ T Hs) as Hsr.
    unfold feed_state. rewrite Hst. cbn [bind]. rewrite zset_ok by lia. cbn [bind].
    set (c1 := with_states c (upd (c_states c) (Z.to_nat s) (UpdateHeadLen st headLen))).
    assert (T1 : track c1 L r (zlen p)) by (eapply track_ext; [exact (track_states _ _ _ _ (upd (c_states c) (Z.to_nat s) (UpdateHeadLen st headLen)) (c_grown c) T (zlen_upd _ _ _))|reflexivity..]).
    assert (N1 : nodes c1 L P (p ++ x :: rest) r (zlen p)).
    { intros q i Hq. destruct (N q i Hq) as (st' & H1 & H2). unfold c1. cbn [c_states with_states]. destruct (Z.eq_dec i s) as [->|Hne].
      - rewrite zget_upd_same by lia. eexists. split; [reflexivity|]. rewrite Hst in H1. injection H1 as <-. exact H2.
      - pose proof (zget_ok_range _ _ _ H1). rewrite zget_upd_other by lia. eauto. }
    assert (El : zlen (c_states c1) = zlen (c_states c)) by apply zlen_upd. rewrite <- El.
    replace (match el with Single g => AppendRange k c1 s g g (match rest with [] => r | _ => 255 end)
      | InSet set => if set =? 255 then Panic else sets set (append_callback k s (match rest with [] => r | _ => 255 end)) c1 end)
      with (AppendRange k c1 s x (hi x) (match rest with [] => r | _ => 255 end)).
    2: { destruct el as [set|y]; [|destruct Hel as [-> ->]; reflexivity]. destruct Hel as [Hel1 Hel2]. replace (set =? 255) with false by lia. rewrite Hel2. reflexivity. }
    destruct (append_step k P r Hr Hidx c1 L p s x rest T1 Er Ed Eto N1 Hs Hlet Hx) as [H|(c' & L' & H1 & H2)]; [left; exact H|right].
    exists c', L'. split; [exact H1|]. destruct H2 as (A & B & C & D & E & F & G). rewrite El in G. repeat (split; [assumption|]). exact G.
  Qed.

  Lemma feed_letters : forall rest x el els p c L s, track c L r (zlen p) -> c_rule c = r -> c_depth c = zlen p -> c_to c = [] ->
    nodes c L P (p ++ x :: rest) r (zlen p) -> L p = Some s -> live_path L p -> stands el x -> Forall2 stands els rest ->
    (feed_elems (el :: els) c [s] = hit_limits /\ (254 < zlen (c_states c) + zlen rest \/ 254 <= zlen P)) \/
    exists c' L', feed_elems (el :: els) c [s] = Ok c' /\ track c' L' r (zlen (p ++ x :: rest)) /\
      nodes c' L' P (p ++ x :: rest) r (zlen (p ++ x :: rest)) /\ zlen (c_states c') <= zlen (c_states c) + zlen rest.
  Proof.
    induction rest as [|y rest IH]; intros x el els p c L s T Er Ed Eto N Hs Hlive Hx1 Hx2;
      pose proof (feed_state_step el _ x p c L s T Er Ed Eto N Hs Hx1) as Hstep; inversion Hx2 as [|el2 y2 els2 rest2 Hy Hx3 Eq1 Eq2]; subst els; try (clear Eq2; subst y2 rest2); cbv iota in Hstep; cbn [feed_elems ofold]; rewrite ?Er.
    - (* the last element *)
      destruct Hstep as [[-> Hfull]|(c2 & L2 & -> & (T2 & R2 & D2 & N2 & HL2 & _ & Hgrow))]; [left; split; [reflexivity|]; destruct Hfull as [[_ Hfull]|Hfull]; [contradiction|right; exact Hfull]|right]. cbn [bind].
      assert (Hlive2 : live_path L2 p).
      { intros q (w & Eq). rewrite HL2; [apply Hlive; exists w; exact Eq|]. intros ->. apply (f_equal (@length Z)) in Eq. rewrite !app_length in Eq. cbn in Eq. lia. }
      destruct (next_spec _ _ _ _ p T2 D2 Hlive2) as (c3 & -> & T3 & S3 & R3 & D3 & To3). cbn [bind].
      exists c3, L2. rewrite zlen_app, zlen_cons, zlen_nil. replace (1 + 0) with 1 by lia. split; [reflexivity|]. split; [exact T3|].
      rewrite S3. split; [|lia]. intros q i Hq. rewrite S3. exact (N2 q i Hq).
    - destruct Hstep as [[-> Hfull]|(c2 & L2 & -> & (T2 & R2 & D2 & N2 & HL2 & Hto & Hgrow))];
        [left; split; [reflexivity|]; pose proof (zlen_nonneg rest); rewrite zlen_cons; destruct Hfull as [[Hfull _]|Hfull]; [left; lia|right; exact Hfull]|]. cbn [bind].
      assert (Hlive2 : live_path L2 p).
      { intros q (w & Eq). rewrite HL2; [apply Hlive; exists w; exact Eq|]. intros ->. apply (f_equal (@length Z)) in Eq. rewrite !app_length in Eq. cbn in Eq. lia. }
      destruct (next_spec _ _ _ _ p T2 D2 Hlive2) as (c3 & -> & T3 & S3 & R3 & D3 & To3). cbn [bind].
      destruct (Hto ltac:(discriminate)) as (j & Hj & HLj). rewrite Hj.
      assert (Ez : zlen (p ++ [x]) = zlen p + 1) by (rewrite zlen_app, zlen_cons, zlen_nil; lia).
      assert (Ep : p ++ x :: y :: rest = (p ++ [x]) ++ y :: rest) by (rewrite <- app_assoc; reflexivity).
      rewrite Ep. rewrite zlen_cons. destruct (IH y el2 els2 (p ++ [x]) c3 L2 j) as [[H1 H2]|(c4 & L4 & H1 & H2 & H3 & H4)];
        [| | | | | | | | |left; rewrite S3 in H2; split; [exact H1|]; destruct H2; [left; lia|right; assumption]|
         right; rewrite S3 in H4; exists c4, L4; split; [exact H1|]; split; [exact H2|]; split; [exact H3|lia]].
      + rewrite Ez. exact T3.
      + congruence.
      + lia.
      + exact To3.
      + rewrite Ez, <- Ep. intros q i Hq. rewrite S3. exact (N2 q i Hq).
      + exact HLj.
      + intros q (w & Eq). destruct (list_eq_dec Z.eq_dec q (p ++ [x])) as [->|Hne]; [eauto|]. apply Hlive2.
        destruct (@exists_last Z w) as (w' & z & ->).
        { intros ->. rewrite app_nil_r in Eq. congruence. }
        rewrite app_assoc in Eq. apply app_inj_tail in Eq. destruct Eq as [-> _]. exists w'. reflexivity.
      + exact Hy.
      + exact Hx3.
  Qed.
End Rule.

(** Between rules *)
Definition settled (c : compiler) (P : list (list Z * Z)) (r : Z) : Prop :=
  exists L, track c L r 0 /\ forall q j, L q = Some j -> exists st, zget (c_states c) j = Ok st /\ node_ok P L q (s_trans st).
Definition rooted (c : compiler) : compiler := with_states c (match c_states c with [] => [state_empty] | l => l end).

Lemma nodes_settled c L P xs r : indexed P -> 0 <= r < 255 -> nodes c L P xs r (zlen xs) ->
  forall q j, L q = Some j -> exists st, zget (c_states c) j = Ok st /\ node_ok (P ++ [(xs, r)]) L q (s_trans st).
Proof.
  intros Hidx Hr N q j Hq. destruct (N q j Hq) as (st & H1 & H2). exists st. split; [exact H1|].
  destruct (before (zlen xs) q xs) eqn:Eb; [exact H2|]. apply node_off; [exact Hidx|exact H2|]. intros x (w & E). subst xs. revert Eb. unfold before.
  rewrite !zlen_app, zlen_cons, zlen_nil. pose proof (zlen_nonneg w). replace (zlen q <? zlen q + (1 + 0) + zlen w) with true by lia.
  rewrite <- app_assoc, firstn_app, Nat.sub_diag, firstn_O, app_nil_r, firstn_all. destruct (eqb_list_spec q q); [discriminate|congruence].
Qed.

(** What the data of a rule say is a pattern of letters. *)
Definition pattern_of (k : kind) (sets : set_reader) (d e : list Z * Z) : Prop :=
  (exists es, scan k (fst d) = Ok es /\ Forall2 (stands k sets) es (fst e)) /\ snd d = snd e /\ fst e <> [].

Lemma Start_head k rule s : Start k rule = Ok s -> exists h, zget rule 1 = Ok h.
Proof.
  unfold Start, startChecks. destruct (zlen rule <? k_min k); [discriminate|]. destruct (zget rule 4) as [o| | |]; cbn [bind]; try discriminate.
  destruct (o =? 0); [discriminate|]. destruct (zget rule 1) as [h| | |]; cbn [bind]; try discriminate. eauto.
Qed.

Lemma Feed_settled k sets c P d e r' : indexed P -> settled (rooted c) P (snd e) -> pattern_of k sets d e -> 0 <= snd e < r' -> r' <= 255 ->
  (compiler_Feed k sets c (fst d) (snd d) = hit_limits /\ (254 < zlen (c_states (rooted c)) + (zlen (fst e) - 1) \/ 254 <= zlen P)) \/
  exists c', compiler_Feed k sets c (fst d) (snd d) = Ok c' /\ c_states c' <> [] /\ settled (rooted c') (P ++ [e]) r' /\
    zlen (c_states (rooted c')) <= zlen (c_states (rooted c)) + (zlen (fst e) - 1).
Proof.
  intros Hidx (L & T & Hn) ((es & Hscan & Hok) & Hi & Hne) Hr Hr'. unfold compiler_Feed. unfold scan in Hscan. apply bind_ok in Hscan. destruct Hscan as (s & Es & Hscan).
  rewrite Es. cbn [bind]. destruct (Start_head _ _ _ Es) as (h & ->). cbn [bind]. rewrite (feed_loop_elems _ _ _ _ _ _ _ _ Hscan).
  destruct e as [xs r]. cbn [fst snd] in *. destruct xs as [|x rest]; [congruence|]. rewrite Hi. inversion Hok as [|el x2 els rest2 Hok1 Hok2 Eq1 [Eq2 Eq3]]. subst es x2 rest2.
  set (c1 := mkCompiler _ r 0 [] (c_freed c) (c_uses c) (c_rules c) (c_depths c) (c_grown c)).
  assert (T1 : track c1 L r 0) by (eapply track_ext; [exact T|reflexivity..]).
  assert (N1 : nodes c1 L P ([] ++ x :: rest) r (zlen (@nil Z))).
  { intros q j Hq. destruct (Hn q j Hq) as (st & H1 & H2). exists st. split; [exact H1|]. unfold before. pose proof (zlen_nonneg q).
    rewrite zlen_nil. replace (zlen q <? 0) with false by lia. exact H2. }
  assert (Hl1 : live_path L []) by (intros q (w & E); destruct q; [exists 0; apply T|discriminate]).
  destruct (feed_letters k sets h P r ltac:(lia) Hidx rest x el els [] c1 L 0 T1 eq_refl eq_refl eq_refl N1 (k_root _ _ _ _ T) Hl1 Hok1 Hok2)
    as [[-> Hfull]|(c' & L' & -> & T' & N' & Hgrow)]; change (c_states c1) with (c_states (rooted c)) in *; rewrite zlen_cons;
    [left; split; [reflexivity|]; destruct Hfull; [left; lia|right; assumption]|right].
  exists c'. split; [reflexivity|]. pose proof (k_len _ _ _ _ T') as Hlen. assert (Hs : c_states c' <> []) by (intros E; rewrite E, zlen_nil in Hlen; lia).
  split; [exact Hs|]. assert (Hroot : rooted c' = c') by (unfold rooted; destruct (c_states c') eqn:E; [contradiction|]; rewrite <- E; destruct c'; reflexivity).
  rewrite Hroot. split; [|lia]. exists L'. split; [apply (track_next _ _ r _ _ T'); lia|]. exact (nodes_settled c' L' P (x :: rest) r Hidx ltac:(lia) N').
Qed.

Lemma Begin_settled r : 0 <= r -> settled (rooted compiler_Begin) [] r.
Proof.
  intros Hr. exists (fun q => match q with [] => Some 0 | _ => None end). split.
  - constructor; cbn [rooted compiler_Begin c_states c_uses c_rules c_freed c_depths with_states].
    + rewrite zlen_cons, zlen_nil. lia.
    + reflexivity.
    + reflexivity.
    + constructor.
    + intros j [].
    + intros n l Hn. apply zget_ok_range in Hn. rewrite zlen_nil in Hn. lia.
    + intros n n' l l' j Hn. apply zget_ok_range in Hn. rewrite zlen_nil in Hn. lia.
    + reflexivity.
    + intros [|x p] [|y q] j; congruence.
    + intros [|x p] j; congruence.
  - intros [|x q] j [= <-]. exists state_empty. split; [reflexivity|]. split; [split; constructor|]. split; [cbn [s_trans state_empty]; rewrite zlen_nil; lia|].
    intros x. cbn. intros (ys & i & [] & _).
Qed.

Lemma increasing_weaken l : forall a b, increasing b l -> a <= b -> increasing a l.
Proof. destruct l as [|i l]; cbn; [auto|]. intros a b [H1 H2] H. split; [lia|exact H2]. Qed.

Lemma steps_nonneg k sets rules Q : Forall2 (pattern_of k sets) rules Q -> 0 <= steps Q.
Proof.
  induction 1 as [|d e ds es (_ & _ & Hne) _ IH]; cbn [steps fold_right]; [lia|]. fold (steps es). pose proof (zlen_nonneg (fst e)).
  assert (zlen (fst e) <> 0) by (intros E; apply Hne; apply zlen_0_nil; exact E). lia.
Qed.
Lemma compile_settled k sets : forall rules Q c P r, Forall2 (pattern_of k sets) rules Q -> increasing r (map snd Q) -> 0 <= r -> indexed P ->
  settled (rooted c) P r -> (Q = [] -> c_states c <> []) ->
  (ofold (fun c d => compiler_Feed k sets c (fst d) (snd d)) rules c = hit_limits /\
    (254 < zlen (c_states (rooted c)) + steps Q \/ 254 < zlen P + zlen Q)) \/
  exists c' r', ofold (fun c d => compiler_Feed k sets c (fst d) (snd d)) rules c = Ok c' /\ c_states c' <> [] /\ settled (rooted c') (P ++ Q) r' /\ indexed (P ++ Q).
Proof.
  induction rules as [|d rules IH]; intros Q c P r H Hinc Hr Hidx Hset Hne; inversion H as [|? e ? Q' Hd Hrest]; subst.
  - right. exists c, r. cbn [ofold]. rewrite app_nil_r. auto.
  - cbn [map increasing] in Hinc. destruct Hinc as [Hi Hinc]. cbn [ofold].
    assert (Hset' : settled (rooted c) P (snd e)).
    { destruct (Z.eq_dec r (snd e)) as [<-|Hn]; [exact Hset|]. destruct Hset as (L & T & Hl). exists L. split; [apply (track_next _ _ r 0); [exact T|lia]|exact Hl]. }
    destruct (Feed_settled k sets c P d e (snd e + 1) Hidx Hset' Hd ltac:(lia) ltac:(lia)) as [[-> Hfull]|(c1 & -> & Hs1 & Hset1 & Hgrow)]; cbn [steps fold_right]; fold (steps Q'); rewrite zlen_cons;
      pose proof (steps_nonneg _ _ _ _ Hrest); pose proof (zlen_nonneg Q').
    { left. split; [reflexivity|]. destruct Hfull; [left|right]; lia. }
    cbn [bind].
    assert (Hidx1 : indexed (P ++ [e])).
    { intros xs i Hin. apply in_app_or in Hin. destruct Hin as [Hin|[E|[]]]; [exact (Hidx _ _ Hin)|]. subst e. cbn [snd] in Hi. lia. }
    destruct (IH Q' c1 (P ++ [e]) (snd e + 1) Hrest Hinc ltac:(lia) Hidx1 Hset1 (fun _ => Hs1)) as [[-> Hfull]|(c2 & r2 & -> & G1 & G2 & G3)].
    { left. split; [reflexivity|]. rewrite zlen_app, zlen_cons, zlen_nil in Hfull. destruct Hfull; [left|right]; lia. }
    right.
    exists c2, r2. rewrite <- app_assoc in G2, G3. auto.
Qed.

(** ** Matching *)
Section Matching.
  Variables (P : list (list Z * Z)) (Hidx : indexed P) (Hne : forall xs r, In (xs, r) P -> xs <> []).
  Fixpoint walk (p : list Z) (best : Z) (rest : list Z) : Z :=
    match rest with
    | [] => best
    | x :: rest => walk (p ++ [x]) (if first_rule P (p ++ [x]) =? 255 then best else first_rule P (p ++ [x])) rest
    end.
  Lemma no_ext_first p : ~ ext P p -> first_rule P p = 255.
  Proof. intros H. destruct (Z.eq_dec (first_rule P p) 255) as [E|E]; [exact E|]. exfalso. apply H. apply first_found; assumption. Qed.
  Lemma walk_dead : forall rest p best, ~ pext P p -> walk p best rest = best.
  Proof.
    induction rest as [|x rest IH]; intros p best H; cbn [walk]; [reflexivity|].
    assert (Hx : ~ ext P (p ++ [x])).
    { intros (xs & i & Hin & w & E). apply H. exists xs, i, (x :: w). split; [exact Hin|]. split; [rewrite E, <- app_assoc; reflexivity|discriminate]. }
    rewrite (no_ext_first _ Hx). rewrite Z.eqb_refl. apply IH. intros (xs & i & w & Hin & E & _). apply Hx. exists xs, i. split; [exact Hin|exists w; exact E].
  Qed.
  Lemma match_walk c L r : track c L r 0 -> (forall q j, L q = Some j -> exists st, zget (c_states c) j = Ok st /\ node_ok P L q (s_trans st)) ->
    forall rest p j best, L p = Some j -> match_loop (mkTree (c_states c) j best true) rest = Ok (walk p best (map name rest)).
  Proof.
    intros T N. induction rest as [|x rest IH]; intros p j best Hp; cbn [match_loop walk map]; [reflexivity|].
    destruct (N _ _ Hp) as (st & Hst & (Ho & Hl & Hn)). unfold tree_Feed. cbn [d_scanning d_states d_index d_best negb]. rewrite Hst. cbn [bind].
    rewrite Trigger_spec by assumption. specialize (Hn (name x)). destruct (lookup (s_trans st) (name x)) as [t|]; cbn [bind].
    - destruct Hn as (H1 & H2 & H3). rewrite <- H2. replace (if negb (t_match t =? 255) then t_match t else best) with (if t_match t =? 255 then best else t_match t) by (destruct (t_match t =? 255); reflexivity).
      destruct H3 as [[H3 H4]|[H3 H4]].
      + rewrite H3, Z.eqb_refl. cbn [negb d_scanning d_best]. rewrite walk_dead by exact H4. reflexivity.
      + pose proof (live_range _ _ _ _ _ _ T H3). pose proof (k_len _ _ _ _ T). replace (t_next t =? 255) with false by lia. cbn [negb d_scanning].
        rewrite (IH (p ++ [name x]) _ _ H3). reflexivity.
    - rewrite Z.eqb_refl. cbn [negb d_scanning d_best]. rewrite (no_ext_first _ Hn). rewrite Z.eqb_refl. rewrite walk_dead; [reflexivity|].
      intros (xs & i & w & Hin & E & _). apply Hn. exists xs, i. split; [exact Hin|exists w; exact E].
  Qed.

  (** The best match among patterns of at most the given length *)
  Definition best_upto (input : list Z) (n : nat) (m : Z) : Prop :=
    (m = 255 /\ forall xs r, In (xs, r) P -> is_prefix xs input -> (n < length xs)%nat) \/
    (exists before xs after, P = before ++ (xs, m) :: after /\ is_prefix xs input /\ (length xs <= n)%nat /\
       (forall ys r, In (ys, r) P -> is_prefix ys input -> (length ys <= n)%nat -> (length ys <= length xs)%nat) /\
       (forall ys r, In (ys, r) before -> is_prefix ys input -> (length ys <= n)%nat -> (length ys < length xs)%nat)).
  Lemma prefix_at ys p x rest : is_prefix ys (p ++ x :: rest) -> length ys = S (length p) -> ys = p ++ [x].
  Proof.
    intros (w & E) Hl. assert (E2 : firstn (length ys) (p ++ x :: rest) = ys) by (rewrite E, firstn_app, Nat.sub_diag, firstn_O, app_nil_r, firstn_all; reflexivity).
    rewrite <- E2, Hl. replace (p ++ x :: rest) with ((p ++ [x]) ++ rest) by (rewrite <- app_assoc; reflexivity).
    rewrite firstn_app. replace (S (length p)) with (length (p ++ [x])) by (rewrite app_length; cbn; lia). rewrite Nat.sub_diag, firstn_O, app_nil_r, firstn_all. reflexivity.
  Qed.
  Lemma find_first (f : list Z * Z -> bool) l e : find f l = Some e -> exists a b, l = a ++ e :: b /\ f e = true /\ forall y, In y a -> f y = false.
  Proof.
    induction l as [|y l IH]; cbn [find]; [discriminate|]. destruct (f y) eqn:E.
    - intros [= <-]. exists [], l. split; [reflexivity|]. split; [exact E|]. intros z [].
    - intros H. destruct (IH H) as (a & b & -> & H1 & H2). exists (y :: a), b. split; [reflexivity|]. split; [exact H1|]. intros z [<-|Hz]; auto.
  Qed.
  Lemma walk_best : forall rest p best, best_upto (p ++ rest) (length p) best -> best_upto (p ++ rest) (length (p ++ rest)) (walk p best rest).
  Proof.
    induction rest as [|x rest IH]; intros p best H; cbn [walk]; [rewrite app_nil_r in *; exact H|].
    replace (p ++ x :: rest) with ((p ++ [x]) ++ rest) by (rewrite <- app_assoc; reflexivity). apply IH.
    replace ((p ++ [x]) ++ rest) with (p ++ x :: rest) by (rewrite <- app_assoc; reflexivity).
    rewrite app_length. cbn [length]. replace (length p + 1)%nat with (S (length p)) by lia.
    destruct (find (fun e => eqb_list (fst e) (p ++ [x])) P) as [e|] eqn:Ef.
    - assert (Efr : first_rule P (p ++ [x]) = snd e) by (unfold first_rule; rewrite Ef; reflexivity). rewrite Efr.
      destruct (find_first _ _ _ Ef) as (a & b & EP & Ee & Ha). destruct e as [ys i]. cbn [fst snd] in *.
      destruct (eqb_list_spec ys (p ++ [x])) as [->|]; [|discriminate].
      assert (Hi : 0 <= i < 255) by (apply (Hidx (p ++ [x])); rewrite EP; apply in_or_app; right; left; reflexivity).
      replace (i =? 255) with false by lia. right. exists a, (p ++ [x]), b. split; [exact EP|]. split; [exists rest; rewrite <- app_assoc; reflexivity|].
      rewrite app_length. cbn [length]. split; [lia|]. split; [intros; lia|]. intros ys j Hin Hp Hl.
      destruct (Nat.eq_dec (length ys) (S (length p))) as [E|E]; [|lia]. pose proof (prefix_at _ _ _ _ Hp E) as ->.
      specialize (Ha _ Hin). cbn [fst] in Ha. destruct (eqb_list_spec (p ++ [x]) (p ++ [x])); congruence.
    - assert (Efr : first_rule P (p ++ [x]) = 255) by (unfold first_rule; rewrite Ef; reflexivity). rewrite Efr, Z.eqb_refl.
      assert (Hno : forall ys i, In (ys, i) P -> is_prefix ys (p ++ x :: rest) -> length ys <> S (length p)).
      { intros ys i Hin Hp E. pose proof (prefix_at _ _ _ _ Hp E) as ->. pose proof (find_none _ _ Ef _ Hin) as Hf. cbn [fst] in Hf.
        destruct (eqb_list_spec (p ++ [x]) (p ++ [x])); congruence. }
      destruct H as [[-> H]|(a & xs & b & EP & H1 & H2 & H3 & H4)].
      + left. split; [reflexivity|]. intros xs i Hin Hp. specialize (H _ _ Hin Hp). specialize (Hno _ _ Hin Hp). lia.
      + right. exists a, xs, b. split; [exact EP|]. split; [exact H1|]. split; [lia|]. split.
        * intros ys i Hin Hp Hl. specialize (Hno _ _ Hin Hp). apply (H3 ys i Hin Hp). lia.
        * intros ys i Hin Hp Hl. assert (Hin' : In (ys, i) P) by (rewrite EP; apply in_or_app; left; exact Hin). specialize (Hno _ _ Hin' Hp).
          apply (H4 ys i Hin Hp). lia.
  Qed.
  Lemma walk_right input : best_match P input (walk [] 255 input).
  Proof.
    pose proof (walk_best input [] 255) as H. cbn [app length] in H.
    assert (H0 : best_upto input 0 255).
    { left. split; [reflexivity|]. intros xs r Hin _. specialize (Hne _ _ Hin). destruct xs; [congruence|cbn; lia]. }
    assert (Hlen : forall ys, is_prefix ys input -> (length ys <= length input)%nat) by (intros ys (w & ->); rewrite app_length; lia).
    destruct (H H0) as [[H1 H2]|(a & xs & b & EP & H1 & H2 & H3 & H4)].
    - left. split; [exact H1|]. intros xs r Hin Hp. specialize (H2 _ _ Hin Hp). specialize (Hlen _ Hp). lia.
    - right. exists a, xs, b. split; [exact EP|]. split; [exact H1|]. split; intros ys r Hin Hp; eauto.
  Qed.
End Matching.

(** Compiling works or hits a limit, and the tree it gives is right. *)
Lemma compile_right k sets rules P : Forall2 (pattern_of k sets) rules P -> rules <> [] -> increasing 0 (map snd P) ->
  (compile k sets rules = hit_limits /\ ~ within_limits P) \/
  exists states, compile k sets rules = Ok states /\ 1 <= zlen states <= 254 /\
    forall input index best, exists m, tree_Match (mkTree states index best false) input = Ok m /\ best_match P (map name input) m.
Proof.
  intros H Hne Hinc. unfold compile.
  assert (Hne' : P = [] -> c_states compiler_Begin <> []) by (intros ->; inversion H; subst; congruence).
  destruct (compile_settled k sets rules P compiler_Begin [] 0 H Hinc ltac:(lia) ltac:(intros xs r []) (Begin_settled 0 ltac:(lia)) Hne')
    as [[-> Hfull]|(c & r & -> & Hs & (L & T & N) & Hidx)].
  { left. split; [reflexivity|]. unfold within_limits. cbn [rooted compiler_Begin c_states with_states] in Hfull. rewrite zlen_cons, !zlen_nil in Hfull. lia. }
  right. cbn [app bind] in *.
  assert (Hroot : rooted c = c) by (unfold rooted; destruct (c_states c) eqn:E; [contradiction|]; rewrite <- E; destruct c; reflexivity).
  rewrite Hroot in *. exists (c_states c). split; [reflexivity|]. split; [apply T|]. intros input index best.
  assert (Hpne : forall xs r0, In (xs, r0) P -> xs <> []).
  { intros xs i Hin. clear - H Hin. induction H as [|d e ds es (_ & _ & Hn) _ IH]; [destruct Hin|]. destruct Hin as [->|Hin]; [exact Hn|exact (IH Hin)]. }
  exists (walk P [] 255 (map name input)). split; [|exact (walk_right P Hidx Hpne (map name input))].
  unfold tree_Match, tree_BeginSequence. cbn [d_scanning bind d_states]. rewrite <- (match_walk P Hidx Hpne c L r) with (j := 0); [reflexivity|exact T|exact N|apply T].
Qed.

Lemma trees_right k sets data rules states : Forall2 (pattern_of k sets) data rules -> data <> [] -> increasing 0 (map snd rules) ->
  compile k sets data = Ok states ->
  forall input index best, exists m, tree_Match (mkTree states index best false) input = Ok m /\ best_match rules (map name input) m.
Proof.
  intros H Hne Hi E. destruct (compile_right k sets data rules H Hne Hi) as [[E' _]|(st & E' & _ & Hm)]; rewrite E in E'; [discriminate|].
  injection E' as <-. exact Hm.
Qed.
Lemma trees_compile k sets data rules : Forall2 (pattern_of k sets) data rules -> increasing 0 (map snd rules) ->
  compile k sets data = Err "DecisionTreeCompiler hit a limit" /\ ~ within_limits rules \/ exists states, compile k sets data = Ok states /\ zlen states <= 254.
Proof.
  intros H Hi. destruct data as [|d data].
  - right. exists []. split; [reflexivity|]. rewrite zlen_nil. lia.
  - destruct (compile_right k sets (d :: data) rules H ltac:(discriminate) Hi) as [[-> Hfull]|(st & -> & Hl & _)]; [left; split; [reflexivity|exact Hfull]|right].
    exists st. split; [reflexivity|lia].
Qed.
End Letters.

(** ** Scanned elements are in range *)
Lemma enterBlock_data s s' : enterBlock s = Ok s' -> sc_data s' = sc_data s.
Proof.
  unfold enterBlock. destruct (sc_left s =? 0); [|intros [= <-]; reflexivity]. destruct (zget _ _); cbn [bind]; try discriminate.
  destruct (negb _); [discriminate|]. destruct (_ || _); [|discriminate]. destruct (zget _ _); cbn [bind]; try discriminate. intros [= <-]. reflexivity.
Qed.
Lemma control_data s s' ok : parseFragmentControl s = Ok (s', ok) -> sc_data s' = sc_data s.
Proof.
  unfold parseFragmentControl. destruct (zget (sc_data s) (sc_index s)) as [ctrl| | |]; cbn [bind]; try discriminate.
  destruct (zget (sc_data s) (1 + sc_block s)) as [bl| | |]; cbn [bind]; try discriminate.
  intros H. repeat match type of H with context [if ?b then _ else _] => destruct b end; injection H as <- _; reflexivity.
Qed.
Lemma after_data s s' : after_element s = Ok s' -> sc_data s' = sc_data s.
Proof.
  unfold after_element, advanceControl. destruct (_ >=? _).
  - intros H. apply bind_ok in H. destruct H as (u & _ & H). injection H as <-. reflexivity.
  - destruct (_ && _); [|intros [= <-]; reflexivity]. intros H. apply bind_ok in H. destruct H as (s1 & H1 & H).
    apply bind_ok in H. destruct H as ([s2 ok] & H2 & H). destruct ok; [|discriminate]. injection H as <-.
    rewrite (control_data _ _ _ H2). exact (enterBlock_data _ _ H1).
Qed.
Lemma Next_valid k s s' e : Next k s = Ok (s', e) -> sc_data s' = sc_data s /\
  forall x, e = Single x -> k_valid k x = true /\ exists i b, zfrom (sc_data s) i = Ok b /\ k_decode k b = Ok x.
Proof.
  unfold Next. destruct (sc_sets s >? 0).
  - destruct (_ >=? _); [discriminate|]. intros H. apply bind_ok in H. destruct H as (set & _ & H). apply bind_ok in H. destruct H as (s1 & H1 & H).
    injection H as <- <-. split; [exact (after_data _ _ H1)|]. intros x E. discriminate.
  - destruct (sc_elems s >? 0); [|discriminate]. destruct (_ >=? _); [discriminate|]. intros H. apply bind_ok in H. destruct H as (b & Hb & H).
    apply bind_ok in H. destruct H as (x & Hx & H). destruct (k_valid k x) eqn:Ev; [|discriminate]. cbn [negb] in H.
    apply bind_ok in H. destruct H as (s1 & H1 & H). injection H as <- <-. split; [exact (after_data _ _ H1)|]. intros y [= <-]. eauto 6.
Qed.
Lemma scan_valid k data es x : scan k data = Ok es -> In (Single x) es ->
  k_valid k x = true /\ exists i b, zfrom data i = Ok b /\ k_decode k b = Ok x.
Proof.
  unfold scan. intros H. apply bind_ok in H. destruct H as (s & Hs & H).
  assert (Ed : sc_data s = data).
  { unfold Start in Hs. apply bind_ok in Hs. destruct Hs as (s0 & H0 & Hs). apply bind_ok in Hs. destruct Hs as ([s1 ok] & H1 & Hs). injection Hs as <-.
    rewrite (control_data _ _ _ H1). unfold startChecks in H0. destruct (_ <? _); [discriminate|].
    repeat match type of H0 with
      | bind _ _ = Ok _ => apply bind_ok in H0; let v := fresh in let E := fresh in destruct H0 as (v & E & H0)
      | (if ?b then _ else _) = Ok _ => destruct b; [discriminate|]
      end.
    cbv zeta in H0. repeat match type of H0 with
      | (if ?b then invalid_rule else _) = Ok _ => destruct b; [discriminate|]
      end.
    repeat match type of H0 with (if ?b then _ else _) = Ok _ => destruct b end; try discriminate; injection H0 as <-; reflexivity. }
  rewrite <- Ed. clear Ed Hs. revert s es H. generalize (length data). induction n as [|n IH]; intros s es; cbn [scan_loop].
  - destruct (HasNext s); [discriminate|]. intros [= <-] [].
  - destruct (HasNext s); [|intros [= <-] []]. intros H. apply bind_ok in H. destruct H as ([s1 e] & H1 & H). apply bind_ok in H. destruct H as (es' & H2 & H).
    injection H as <-. destruct (Next_valid _ _ _ _ H1) as [Hd Hv]. intros [->|Hin]; [exact (Hv _ eq_refl)|]. rewrite <- Hd. exact (IH _ _ H2 Hin).
Qed.
Lemma glyph_succ data es x : bytes data -> scan glyph_kind data = Ok es -> In (Single x) es -> x < k_succ glyph_kind x.
Proof.
  intros Hb H Hin. destruct (scan_valid _ _ _ _ H Hin) as (Hv & i & b & Hf & Hd). cbn [k_valid k_decode k_succ glyph_kind] in *.
  assert (Hbb : bytes b).
  { unfold zfrom in Hf. destruct ((0 <=? i) && _); [|discriminate]. injection Hf as <-. apply bytes_skipn. exact Hb. }
  rewrite decode16_spec in Hd by exact Hbb. destruct (zlen b <? 2); [discriminate|]. assert (Ex : x = le_value (firstn 2 b)) by congruence.
  pose proof (proj1 (le_value_range (firstn 2 b) (bytes_firstn 2 _ Hbb))) as H0. rewrite <- Ex in H0. apply Z.ltb_lt in Hv. unfold u16. rewrite Z.mod_small by lia. lia.
Qed.
Lemma i32_range v : - 2147483648 <= i32 v < 2147483648.
Proof. unfold i32, u32. pose proof (Z.mod_pos_bound v 4294967296). destruct (Z.ltb_spec (v mod 4294967296) 2147483648); lia. Qed.
Lemma utf8_succ data es x : scan utf8_kind data = Ok es -> In (Single x) es -> x <> 2147483647 -> x < k_succ utf8_kind x.
Proof.
  intros H Hin Hx. destruct (scan_valid _ _ _ _ H Hin) as (_ & i & b & Hf & Hd). cbn [k_decode k_succ utf8_kind] in *.
  apply bind_ok in Hd. destruct Hd as (v & _ & Hd). injection Hd as <-. pose proof (i32_range v). set (y := i32 v) in *. clearbody y.
  unfold i32, u32. destruct (Z_lt_ge_dec y (-1)).
  - replace ((y + 1) mod 4294967296) with (y + 1 + 4294967296) by (apply Z.mod_unique with (-1); lia).
    replace (y + 1 + 4294967296 <? 2147483648) with false by lia. lia.
  - rewrite Z.mod_small by lia. replace (y + 1 <? 2147483648) with true by lia. lia.
Qed.

(** ** The two kinds *)
(** Every element is a letter of its own. *)
Lemma only_between (a x : Z) : a <= x <= a -> x = a.
Proof. lia. Qed.
Definition elements : alphabet := {| hi := fun x => x; letter := fun _ => True; name := fun x => x;
  letter_hi := fun a _ => Z.le_refl a; name_in := fun a x _ => only_between a x; name_out := fun x _ => conj (Z.le_refl x) (Z.le_refl x) |}.
Lemma elements_name input : map (@name elements) input = input.
Proof. apply map_id. Qed.

Definition glyph_rule_of (d e : list Z * Z) : Prop :=
  bytes (fst d) /\ scan glyph_kind (fst d) = Ok (map Single (fst e)) /\ snd d = snd e /\ fst e <> [].
Definition utf8_rule_of (d e : list Z * Z) : Prop :=
  scan utf8_kind (fst d) = Ok (map Single (fst e)) /\ snd d = snd e /\ fst e <> [] /\ ~ In 2147483647 (fst e).
Lemma singles_stand k sets xs : (forall x, In (Single x) (map Single xs) -> x < k_succ k x) -> Forall2 (@stands elements k sets) (map Single xs) xs.
Proof.
  induction xs as [|x xs IH]; intros H; cbn [map]; constructor.
  - split; [exact I|]. cbn. split; [apply H; left; reflexivity|auto].
  - apply IH. intros y Hy. apply H. right. exact Hy.
Qed.
Lemma glyph_patterns sets data rules : Forall2 glyph_rule_of data rules -> Forall2 (@pattern_of elements glyph_kind sets) data rules.
Proof.
  induction 1 as [|d e ds es (H1 & H2 & H3 & H4) _ IH]; constructor; [|exact IH]. split; [|auto]. exists (map Single (fst e)). split; [exact H2|].
  apply singles_stand. intros x Hx. exact (glyph_succ (fst d) _ x H1 H2 Hx).
Qed.
Lemma utf8_patterns sets data rules : Forall2 utf8_rule_of data rules -> Forall2 (@pattern_of elements utf8_kind sets) data rules.
Proof.
  induction 1 as [|d e ds es (H2 & H3 & H4 & H5) _ IH]; constructor; [|exact IH]. split; [|auto]. exists (map Single (fst e)). split; [exact H2|].
  apply singles_stand. intros x Hx. apply (utf8_succ (fst d) _ x H2 Hx). intros ->. apply in_map_iff in Hx. destruct Hx as (y & [= ->] & Hx). contradiction.
Qed.
Lemma glyph_trees_right sets data rules states : Forall2 glyph_rule_of data rules -> data <> [] -> increasing 0 (map snd rules) ->
  compile glyph_kind sets data = Ok states ->
  forall input index best, exists m, tree_Match (mkTree states index best false) input = Ok m /\ best_match rules input m.
Proof.
  intros H Hne Hi E input index best. destruct (trees_right _ _ _ _ _ (glyph_patterns sets _ _ H) Hne Hi E input index best) as (m & H1 & H2).
  rewrite elements_name in H2. eauto.
Qed.
Lemma utf8_trees_right sets data rules states : Forall2 utf8_rule_of data rules -> data <> [] -> increasing 0 (map snd rules) ->
  compile utf8_kind sets data = Ok states ->
  forall input index best, exists m, tree_Match (mkTree states index best false) input = Ok m /\ best_match rules input m.
Proof.
  intros H Hne Hi E input index best. destruct (trees_right _ _ _ _ _ (utf8_patterns sets _ _ H) Hne Hi E input index best) as (m & H1 & H2).
  rewrite elements_name in H2. eauto.
Qed.
Lemma glyph_trees_compile sets data rules : Forall2 glyph_rule_of data rules -> increasing 0 (map snd rules) ->
  compile glyph_kind sets data = Err "DecisionTreeCompiler hit a limit" /\ ~ within_limits rules \/ exists states, compile glyph_kind sets data = Ok states /\ zlen states <= 254.
Proof. intros H. apply (@trees_compile elements) with (rules := rules). exact (glyph_patterns sets _ _ H). Qed.
Lemma utf8_trees_compile sets data rules : Forall2 utf8_rule_of data rules -> increasing 0 (map snd rules) ->
  compile utf8_kind sets data = Err "DecisionTreeCompiler hit a limit" /\ ~ within_limits rules \/ exists states, compile utf8_kind sets data = Ok states /\ zlen states <= 254.
Proof. intros H. apply (@trees_compile elements) with (rules := rules). exact (utf8_patterns sets _ _ H). Qed.
