(** Proofs about the circular buffer. *)
From Verif Require Import Base BaseFacts Model_Helpers Model_CircularBuffer Spec_CircularBuffer.

Lemma zget_copy_into {T} (l src : list T) a b i :
  (a <= b)%nat -> (b <= length l)%nat -> 0 <= i ->
  zget (copy_into l a b src) i =
  let n := Nat.min (b - a) (length src) in
  if (Z.of_nat a <=? i) && (i <? Z.of_nat (a + n)) then zget src (i - Z.of_nat a) else zget l i.
Proof.
  intros Hab Hb Hi. unfold copy_into. cbv zeta. set (n := Nat.min (b - a) (length src)).
  assert (Hn1 : (n <= b - a)%nat) by (unfold n; lia).
  assert (Hn2 : (n <= length src)%nat) by (unfold n; lia).
  assert (La : zlen (firstn a l) = Z.of_nat a) by (rewrite zlen_firstn; unfold zlen; lia).
  assert (Ls : zlen (firstn n src) = Z.of_nat n) by (rewrite zlen_firstn; unfold zlen; lia).
  destruct (Z.leb_spec (Z.of_nat a) i) as [H1|H1]; cbn [andb].
  - rewrite zget_app_r by lia. rewrite La.
    destruct (Z.ltb_spec i (Z.of_nat (a + n))) as [H2|H2].
    + rewrite zget_app_l by lia. unfold zget. destruct (Z.ltb_spec (i - Z.of_nat a) 0); [lia|].
      rewrite nth_error_firstn. destruct (Nat.ltb_spec (Z.to_nat (i - Z.of_nat a)) n); [reflexivity|lia].
    + rewrite zget_app_r by lia. rewrite Ls. unfold zget.
      destruct (Z.ltb_spec (i - Z.of_nat a - Z.of_nat n) 0); [lia|]. destruct (Z.ltb_spec i 0); [lia|].
      rewrite nth_error_skipn. replace (a + n + Z.to_nat (i - Z.of_nat a - Z.of_nat n))%nat with (Z.to_nat i) by lia.
      reflexivity.
  - rewrite zget_app_l by lia. unfold zget. destruct (Z.ltb_spec i 0); [lia|].
    rewrite nth_error_firstn. destruct (Nat.ltb_spec (Z.to_nat i) a); [reflexivity|lia].
Qed.

Lemma length_copy_into {T} (l src : list T) a b :
  (a <= b)%nat -> (b <= length l)%nat -> length (copy_into l a b src) = length l.
Proof.
  intros Hab Hb. unfold copy_into. cbv zeta.
  rewrite !app_length, !firstn_length, skipn_length. lia.
Qed.

Lemma zget_firstn {T} (l : list T) n i : i < Z.of_nat n -> zget (firstn n l) i = zget l i.
Proof.
  intros H. unfold zget. destruct (Z.ltb_spec i 0); [reflexivity|].
  rewrite nth_error_firstn. destruct (Nat.ltb_spec (Z.to_nat i) n); [reflexivity|lia].
Qed.

Lemma zget_skipn {T} (l : list T) n i : 0 <= i -> zget (skipn n l) i = zget l (Z.of_nat n + i).
Proof.
  intros H. unfold zget. destruct (Z.ltb_spec i 0); [lia|]. destruct (Z.ltb_spec (Z.of_nat n + i) 0); [lia|].
  rewrite nth_error_skipn. replace (n + Z.to_nat i)%nat with (Z.to_nat (Z.of_nat n + i)) by lia. reflexivity.
Qed.

Lemma u16_id x : 0 <= x < 65536 -> u16 x = x.
Proof. unfold u16; lia. Qed.

Section CB.
  Context {T : Type} (zero : T).
  Implicit Types s : cbuf T.

  Definition wrap s i := if cb_head s + i <? cb_capacity s then cb_head s + i
                         else cb_head s + i - cb_capacity s.

  Definition cb_ok s : Prop :=
    zlen (elems (cb_buffer s)) = cb_capacity s /\
    0 <= cb_capacity s <= 32768 /\ 0 <= cb_num s <= cb_capacity s /\
    0 <= cb_head s /\ (cb_head s < cb_capacity s \/ (cb_head s = 0 /\ cb_capacity s = 0)) /\
    0 <= cb_peeks s /\ (cb_peeks s < cb_num s \/ cb_peeks s = 0).

  Definition cb_rep s (q : lqueue T) : Prop :=
    cb_ok s /\ q_cap q = cb_capacity s /\ Z.of_nat (q_cursor q) = cb_peeks s /\
    zlen (q_items q) = cb_num s /\
    forall i, 0 <= i < cb_num s -> zget (elems (cb_buffer s)) (wrap s i) = zget (q_items q) i.

  Lemma wrap_range s i : cb_ok s -> 0 <= i < cb_capacity s -> 0 <= wrap s i < cb_capacity s.
  Proof. intros (H1 & H2 & H3 & H4 & H5 & H6) Hi. unfold wrap. destruct (Z.ltb_spec (cb_head s + i) (cb_capacity s)); lia. Qed.

  Lemma last_index s : cb_ok s -> 0 < cb_num s -> unsafeLastElemIndex s = wrap s (cb_num s - 1).
  Proof.
    intros (H1 & H2 & H3 & H4 & H5 & H6) Hn. unfold unsafeLastElemIndex, wrap. cbv zeta.
    rewrite (u16_id (cb_head s + cb_num s)) by lia. rewrite u16_id by lia.
    destruct (Z.ltb_spec (cb_head s + cb_num s - 1) (cb_head s)); [lia|].
    replace (cb_head s + (cb_num s - 1)) with (cb_head s + cb_num s - 1) by lia.
    destruct (Z.ltb_spec (cb_head s + cb_num s - 1) (cb_capacity s)); [reflexivity|].
    rewrite u16_id; lia.
  Qed.

  Lemma peek_index s : cb_ok s -> 0 < cb_capacity s -> unsafePeekElemIndex s = wrap s (cb_peeks s).
  Proof.
    intros (H1 & H2 & H3 & H4 & H5 & H6) Hn. unfold unsafePeekElemIndex, wrap. cbv zeta.
    rewrite (u16_id (cb_head s + cb_peeks s)) by lia.
    destruct (Z.ltb_spec (cb_head s + cb_peeks s) (cb_head s)); [lia|].
    destruct (Z.ltb_spec (cb_head s + cb_peeks s) (cb_capacity s)); [reflexivity|].
    rewrite u16_id; lia.
  Qed.

  Lemma init_rep : cb_rep (@cb_init T) q_init.
  Proof.
    split; [unfold cb_ok; cbn; rewrite zlen_nil; lia|]. cbn. repeat split; auto. intros; lia.
  Qed.

  Lemma push_rep s q x : cb_rep s q ->
    cb_rep (fst (cb_Push s x)) (fst (q_step zero q (OpPush x))) /\
    obs_of (fun _ => ObsUnit) (snd (cb_Push s x)) = snd (q_step zero q (OpPush x)).
  Proof.
    intros (Hok & Hcap & Hcur & Hlen & Hget). destruct q as [items cap cur]. cbn [q_items q_cap q_cursor q_step] in *.
    unfold cb_Push. destruct (Z.geb_spec (cb_num s) (cb_capacity s)) as [Hf|Hf].
    - destruct (Z.ltb_spec (Z.of_nat (length items)) cap); [unfold zlen in Hlen; lia|].
      cbn [fst snd obs_of]. split; [|reflexivity]. split; [exact Hok|]. cbn. auto.
    - destruct (Z.ltb_spec (Z.of_nat (length items)) cap); [|unfold zlen in Hlen; lia].
      pose proof Hok as (H1 & H2 & H3 & H4 & H5 & H6).
      set (s1 := with_num s (u16 (cb_num s + 1))).
      assert (Hn1 : cb_num s1 = cb_num s + 1) by (unfold s1; cbn; apply u16_id; lia).
      assert (Hok1 : cb_ok s1).
      { unfold cb_ok. rewrite Hn1. cbn. repeat split; auto; lia. }
      assert (Hw : forall i, wrap s1 i = wrap s i) by reflexivity.
      rewrite last_index by (auto; lia).
      pose proof (wrap_range s1 (cb_num s1 - 1) Hok1 ltac:(destruct Hok1 as (_&_&?&_); lia)) as Hr.
      assert (Hb1 : elems (cb_buffer s1) = elems (cb_buffer s)) by reflexivity.
      assert (Hc1 : cb_capacity s1 = cb_capacity s) by reflexivity.
      rewrite zset_ok by (rewrite Hb1; lia). cbn [fst snd obs_of]. split; [|reflexivity].
      split; [|split; [|split; [|split]]]; cbn [q_items q_cap q_cursor].
      + unfold cb_ok in *. cbn [cb_buffer with_buffer elems cb_capacity cb_num cb_head cb_peeks] in *.
        rewrite zlen_upd. tauto.
      + exact Hcap.
      + exact Hcur.
      + rewrite zlen_app, zlen_cons, zlen_nil. change (zlen items + (1 + 0) = cb_num s1). lia.
      + intros i Hi. cbn [with_buffer cb_num cb_buffer elems] in *.
        change (wrap (with_buffer s1 _) i) with (wrap s i).
        assert (Hi' : 0 <= i < cb_num s + 1) by lia.
        destruct (Z.eq_dec i (cb_num s)) as [->|Hne].
        * replace (wrap s1 (cb_num s1 - 1)) with (wrap s (cb_num s)) in * by (rewrite Hw; f_equal; lia).
          rewrite Hb1 in *. rewrite zget_upd_same by lia.
          rewrite zget_app_r by lia. rewrite Hlen, Z.sub_diag. reflexivity.
        * rewrite zget_upd_other.
          -- rewrite Hb1. rewrite zget_app_l by lia. apply Hget. lia.
          -- lia.
          -- rewrite Hw. unfold wrap. destruct (Z.ltb_spec (cb_head s + (cb_num s1 - 1)) (cb_capacity s));
               destruct (Z.ltb_spec (cb_head s + i) (cb_capacity s)); lia.
  Qed.

  Lemma items_last (l : list T) : l <> [] -> exists r x, rev l = x :: r /\ l = rev r ++ [x] /\ zget l (zlen l - 1) = Ok x.
  Proof.
    intros H. destruct (rev l) as [|x r] eqn:E.
    - apply (f_equal (@rev T)) in E. rewrite rev_involutive in E. contradiction.
    - exists r, x. assert (E2 : l = rev r ++ [x]) by (rewrite <- (rev_involutive l), E; reflexivity).
      split; [reflexivity|]. split; [exact E2|]. rewrite E2.
      rewrite zget_app_r by (rewrite zlen_app, zlen_cons, zlen_nil; lia).
      rewrite zlen_app, zlen_cons, zlen_nil. replace (zlen (rev r) + (1 + 0) - 1 - zlen (rev r)) with 0 by lia. reflexivity.
  Qed.

  Lemma head_rep s q : cb_rep s q ->
    obs_of ObsVal (cb_Head s) = match q_items q with [] => ObsPanic | x :: _ => ObsVal x end.
  Proof.
    intros (Hok & Hcap & Hcur & Hlen & Hget). unfold cb_Head, cb_IsEmpty.
    destruct (Z.eqb_spec (cb_num s) 0) as [E|E].
    - rewrite E in Hlen. apply zlen_0_nil in Hlen. rewrite Hlen. reflexivity.
    - destruct (q_items q) as [|x r] eqn:Eq; [rewrite zlen_nil in Hlen; lia|].
      pose proof Hok as (H1 & H2 & H3 & H4 & H5 & H6).
      specialize (Hget 0 ltac:(lia)). rewrite zget_cons_0 in Hget.
      replace (wrap s 0) with (cb_head s) in Hget; [rewrite Hget; reflexivity|].
      unfold wrap. destruct (Z.ltb_spec (cb_head s + 0) (cb_capacity s)); lia.
  Qed.

  Lemma tail_rep s q : cb_rep s q ->
    obs_of ObsVal (cb_Tail s) = match rev (q_items q) with [] => ObsPanic | x :: _ => ObsVal x end.
  Proof.
    intros (Hok & Hcap & Hcur & Hlen & Hget). unfold cb_Tail, cb_IsEmpty.
    destruct (Z.eqb_spec (cb_num s) 0) as [E|E].
    - rewrite E in Hlen. apply zlen_0_nil in Hlen. rewrite Hlen. reflexivity.
    - destruct (items_last (q_items q)) as (r & x & Hr & _ & Hx).
      { intros Hn. rewrite Hn, zlen_nil in Hlen. lia. }
      pose proof Hok as (H1 & H2 & H3 & H4 & H5 & H6).
      rewrite Hr, last_index by (auto; lia). rewrite Hget by lia. rewrite <- Hlen, Hx. reflexivity.
  Qed.

  Lemma pophead_rep s q : cb_rep s q ->
    q_cursor q = 0%nat \/ (S (q_cursor q) < length (q_items q))%nat ->
    cb_rep (fst (cb_PopHead s)) (fst (q_step zero q OpPopHead)) /\
    obs_of ObsVal (snd (cb_PopHead s)) = snd (q_step zero q OpPopHead).
  Proof.
    intros R Hc. pose proof (head_rep s q R) as Hh. destruct R as (Hok & Hcap & Hcur & Hlen & Hget).
    destruct q as [items cap cur]. cbn [q_items q_cap q_cursor q_step] in *.
    unfold cb_PopHead. unfold cb_Head in Hh. unfold cb_IsEmpty in *.
    destruct (Z.eqb_spec (cb_num s) 0) as [E|E].
    - rewrite E in Hlen. apply zlen_0_nil in Hlen. subst items. cbn [fst snd obs_of].
      split; [|reflexivity]. split; [exact Hok|]. cbn. rewrite zlen_nil. auto.
    - destruct items as [|x r]; [rewrite zlen_nil in Hlen; lia|].
      destruct (zget (elems (cb_buffer s)) (cb_head s)) as [y| | |] eqn:Ey; cbn [obs_of] in Hh; try discriminate.
      inversion Hh; subst y. cbn [fst snd obs_of]. split; [|reflexivity].
      pose proof Hok as (H1 & H2 & H3 & H4 & H5 & H6).
      rewrite zlen_cons in Hlen.
      set (s1 := with_head (with_num s (u16 (cb_num s - 1))) (u16 (cb_head (with_num s (u16 (cb_num s - 1))) + 1))).
      assert (En : cb_num s1 = cb_num s - 1) by (cbn; apply u16_id; lia).
      assert (Eh : cb_head s1 = cb_head s + 1) by (cbn; apply u16_id; lia).
      assert (Ec : cb_capacity s1 = cb_capacity s) by reflexivity.
      assert (Eb : cb_buffer s1 = cb_buffer s) by reflexivity.
      assert (Ep : cb_peeks s1 = cb_peeks s) by reflexivity.
      set (s2 := if cb_head s1 =? cb_capacity s1 then with_head s1 0 else s1).
      assert (En2 : cb_num s2 = cb_num s - 1) by (unfold s2; destruct (_ =? _); cbn; auto).
      assert (Ec2 : cb_capacity s2 = cb_capacity s) by (unfold s2; destruct (_ =? _); cbn; auto).
      assert (Eb2 : cb_buffer s2 = cb_buffer s) by (unfold s2; destruct (_ =? _); cbn; auto).
      assert (Ep2 : cb_peeks s2 = cb_peeks s) by (unfold s2; destruct (_ =? _); cbn; auto).
      assert (Eh2 : cb_head s2 = if cb_head s + 1 =? cb_capacity s then 0 else cb_head s + 1).
      { unfold s2. rewrite Eh, Ec. destruct (cb_head s + 1 =? cb_capacity s); [reflexivity|exact Eh]. }
      clearbody s2. clear s1 En Eh Ec Eb Ep.
      split; [|split; [|split; [|split]]]; cbn [q_items q_cap q_cursor].
      + unfold cb_ok. rewrite En2, Ec2, Eb2, Ep2, Eh2. cbn [length] in Hc. unfold zlen in Hlen.
        destruct (Z.eqb_spec (cb_head s + 1) (cb_capacity s)); repeat split; try lia.
      + lia.
      + lia.
      + lia.
      + intros i Hi. rewrite Eb2. specialize (Hget (i + 1) ltac:(lia)).
        rewrite (zget_cons_S x r) in Hget by lia. replace (i + 1 - 1) with i in Hget by lia.
        rewrite <- Hget. f_equal. unfold wrap. rewrite Ec2, Eh2.
        destruct (Z.eqb_spec (cb_head s + 1) (cb_capacity s));
        destruct (Z.ltb_spec (cb_head s + (i + 1)) (cb_capacity s)).
        * lia.
        * destruct (Z.ltb_spec (0 + i) (cb_capacity s)); lia.
        * destruct (Z.ltb_spec (cb_head s + 1 + i) (cb_capacity s)); lia.
        * destruct (Z.ltb_spec (cb_head s + 1 + i) (cb_capacity s)); lia.
  Qed.

  Lemma poptail_rep s q : cb_rep s q ->
    q_cursor q = 0%nat \/ (S (q_cursor q) < length (q_items q))%nat ->
    cb_rep (fst (cb_PopTail s)) (fst (q_step zero q OpPopTail)) /\
    obs_of ObsVal (snd (cb_PopTail s)) = snd (q_step zero q OpPopTail).
  Proof.
    intros R Hc. pose proof (tail_rep s q R) as Hh. destruct R as (Hok & Hcap & Hcur & Hlen & Hget).
    destruct q as [items cap cur]. cbn [q_items q_cap q_cursor q_step] in *.
    unfold cb_PopTail. unfold cb_Tail in Hh. unfold cb_IsEmpty in *.
    destruct (Z.eqb_spec (cb_num s) 0) as [E|E].
    - rewrite E in Hlen. apply zlen_0_nil in Hlen. subst items. cbn [fst snd obs_of rev].
      split; [|reflexivity]. split; [exact Hok|]. cbn. rewrite zlen_nil. auto.
    - destruct (items_last items) as (r & x & Hr & Hi & _).
      { intros Hn. rewrite Hn, zlen_nil in Hlen. lia. }
      rewrite Hr in *.
      destruct (zget (elems (cb_buffer s)) (unsafeLastElemIndex s)) as [y| | |] eqn:Ey; cbn [obs_of] in Hh; try discriminate.
      inversion Hh; subst y. cbn [fst snd obs_of]. split; [|reflexivity].
      pose proof Hok as (H1 & H2 & H3 & H4 & H5 & H6).
      assert (Hl2 : zlen (rev r) = cb_num s - 1).
      { rewrite Hi in Hlen. rewrite zlen_app, zlen_cons, zlen_nil in Hlen. lia. }
      split; [|split; [|split; [|split]]]; cbn [q_items q_cap q_cursor with_num cb_num cb_capacity cb_peeks cb_buffer].
      + unfold cb_ok. cbn [with_num cb_num cb_capacity cb_peeks cb_buffer cb_head].
        rewrite u16_id by lia. unfold zlen in Hlen. repeat split; try lia.
      + exact Hcap.
      + exact Hcur.
      + rewrite u16_id by lia. exact Hl2.
      + rewrite u16_id by lia. intros i Hi2. match goal with |- zget _ ?w = _ => change w with (wrap s i) end.
        rewrite Hget by lia. rewrite Hi at 1. apply zget_app_l. lia.
  Qed.

  Lemma peek_rep s q : cb_rep s q ->
    cb_rep (fst (cb_PeekAhead zero s)) (fst (q_step zero q OpPeek)) /\
    obs_of (fun p => ObsPeek (fst p) (snd p)) (snd (cb_PeekAhead zero s)) = snd (q_step zero q OpPeek).
  Proof.
    intros (Hok & Hcap & Hcur & Hlen & Hget). pose proof Hok as (H1 & H2 & H3 & H4 & H5 & H6).
    destruct q as [items cap cur]. cbn [q_items q_cap q_cursor q_step] in *.
    unfold cb_PeekAhead, cb_IsEmpty.
    destruct (Z.eqb_spec (cb_num s) 0) as [E|E].
    - rewrite E in Hlen. apply zlen_0_nil in Hlen. subst items. cbn [nth_error].
      destruct cur; cbn [nth_error fst snd obs_of];
      (split; [|reflexivity]); (split; [exact Hok|]); cbn; rewrite zlen_nil; auto.
    - rewrite (u16_id (cb_num s - 1)) by lia.
      destruct (Z.eqb_spec (cb_peeks s) (cb_num s - 1)) as [Ep|Ep].
      + rewrite peek_index by (auto; lia). rewrite Hget by lia.
        assert (N1 : nth_error items (S cur) = None) by (apply nth_error_None; unfold zlen in Hlen; lia).
        rewrite N1. destruct (nth_error items cur) as [y|] eqn:Ey; [|apply nth_error_None in Ey; unfold zlen in Hlen; lia].
        cbn [fst snd].
        assert (G : zget items (cb_peeks s) = Ok y).
        { apply zget_some. split; [lia|]. replace (Z.to_nat (cb_peeks s)) with cur by lia. exact Ey. }
        rewrite G. split; [|reflexivity]. split; [exact Hok|]. cbn. auto.
      + set (s1 := with_peeks s (u16 (cb_peeks s + 1))).
        assert (Ep1 : cb_peeks s1 = cb_peeks s + 1) by (cbn; apply u16_id; lia).
        assert (Hok1 : cb_ok s1).
        { unfold cb_ok in *. rewrite Ep1. cbn. repeat split; try lia. }
        rewrite peek_index by (auto; cbn; lia). rewrite Ep1.
        change (elems (cb_buffer s1)) with (elems (cb_buffer s)).
        change (wrap s1 (cb_peeks s + 1)) with (wrap s (cb_peeks s + 1)). rewrite Hget by lia.
        destruct (nth_error items (S cur)) as [y|] eqn:Ey; [|apply nth_error_None in Ey; unfold zlen in Hlen; lia].
        assert (G : zget items (cb_peeks s + 1) = Ok y).
        { apply zget_some. split; [lia|]. replace (Z.to_nat (cb_peeks s + 1)) with (S cur) by lia. exact Ey. }
        rewrite G. cbn [fst snd bind obs_of]. split; [|reflexivity].
        split; [exact Hok1|]. cbn [q_items q_cap q_cursor]. rewrite Ep1. split; [exact Hcap|]. split; [lia|]. split; [exact Hlen|].
        exact Hget.
  Qed.

  Lemma confirm_rep s q : cb_rep s q ->
    cb_rep (cb_ConfirmPeeks s) (fst (q_step zero q OpConfirm)).
  Proof.
    intros (Hok & Hcap & Hcur & Hlen & Hget). pose proof Hok as (H1 & H2 & H3 & H4 & H5 & H6).
    destruct q as [items cap cur]. cbn [q_items q_cap q_cursor q_step fst] in *.
    unfold cb_ConfirmPeeks. cbv zeta.
    destruct (Z.eq_dec (cb_capacity s) 0) as [Ez|Ez].
    - assert (Eh : unsafePeekElemIndex s = 0).
      { unfold unsafePeekElemIndex. replace (cb_head s) with 0 by lia. replace (cb_peeks s) with 0 by lia.
        rewrite Ez. reflexivity. }
      rewrite Eh. unfold cb_rep, cb_ok. cbn [with_head with_num with_peeks cb_buffer cb_capacity cb_head cb_num cb_peeks q_items q_cap q_cursor].
      replace (cb_peeks s) with 0 by lia. replace cur with 0%nat by lia. cbn [skipn].
      rewrite u16_id by lia. repeat split; try lia. 
    - pose proof (peek_index s Hok ltac:(lia)) as Hp.
      pose proof (wrap_range s (cb_peeks s) Hok ltac:(lia)) as Hw.
      unfold cb_rep, cb_ok. cbn [with_head with_num with_peeks cb_buffer cb_capacity cb_head cb_num cb_peeks q_items q_cap q_cursor].
      rewrite Hp. rewrite u16_id by lia. repeat split; try lia.
      + rewrite zlen_skipn. lia.
      + intros i Hi. rewrite zget_skipn by lia. rewrite <- Hget by lia. f_equal.
        unfold wrap. cbn [with_head with_num with_peeks cb_head cb_capacity].
        replace (Z.of_nat cur) with (cb_peeks s) by lia.
        destruct (Z.ltb_spec (cb_head s + cb_peeks s) (cb_capacity s));
        destruct (Z.ltb_spec (cb_head s + (cb_peeks s + i)) (cb_capacity s)).
        * destruct (Z.ltb_spec (cb_head s + cb_peeks s + i) (cb_capacity s)); lia.
        * destruct (Z.ltb_spec (cb_head s + cb_peeks s + i) (cb_capacity s)); lia.
        * lia.
        * destruct (Z.ltb_spec (cb_head s + cb_peeks s - cb_capacity s + i) (cb_capacity s)); lia.
  Qed.

  Lemma grow_len (b : slice T) n : 0 <= n ->
    exists e, elems (GrowSliceByN zero b n) = elems b ++ e /\ zlen e = n.
  Proof.
    intros Hn. unfold GrowSliceByN. destruct (Z.geb_spec (Z.of_nat (length (spare b))) n); cbn [elems].
    - eexists. split; [reflexivity|]. rewrite zlen_firstn. unfold zlen. lia.
    - eexists. split; [reflexivity|]. rewrite zlen_repeat. lia.
  Qed.

  (** The capacity change, for every state except an empty one whose head position
      equals the new capacity. *)
  Lemma setcap_rep s q c : cb_rep s q -> 0 <= c <= 32768 ->
    (cb_num s = 0 -> c < cb_capacity s -> cb_head s = c -> c = 0) ->
    cb_rep (fst (cb_SetCapacity zero s c)) (fst (q_setcap q c)) /\
    obs_of ObsBool (snd (cb_SetCapacity zero s c)) = snd (q_setcap q c).
  Proof.
    intros (Hok & Hcap & Hcur & Hlen & Hget) Hc Hne. pose proof Hok as (H1 & H2 & H3 & H4 & H5 & H6).
    destruct q as [items cap cur]. cbn [q_items q_cap q_cursor] in *.
    unfold cb_SetCapacity, q_setcap. cbn [q_items q_cap q_cursor].
    change (Z.of_nat (length items)) with (zlen items). rewrite Hlen.
    destruct (Z.eqb_spec (cb_capacity s) c) as [E0|E0].
    { destruct (Z.ltb_spec c (cb_num s)); [lia|]. cbn [fst snd obs_of]. split; [|reflexivity].
      split; [exact Hok|]. cbn. auto. }
    destruct (Z.ltb_spec c (cb_num s)) as [E1|E1].
    { cbn [fst snd obs_of]. split; [|reflexivity]. split; [exact Hok|]. cbn. auto. }
    destruct (Z.ltb_spec c (cb_capacity s)) as [E2|E2].
    - (* shrinking *)
      rewrite (u16_id (cb_capacity s - c)), (u16_id (cb_capacity s - cb_head s)), (u16_id (c - cb_num s)) by lia.
      set (l := elems (cb_buffer s)) in *. set (sp := spare (cb_buffer s)).
      assert (Hll : length l = Z.to_nat (cb_capacity s)) by (unfold zlen in H1; lia).
      destruct (Z.gtb_spec (cb_num s) (cb_capacity s - cb_head s)) as [E3|E3].
      + (* wrapped contents *)
        assert (Hh : 0 <= cb_head s - (cb_capacity s - c)) by lia.
        rewrite (u16_id (cb_head s - (cb_capacity s - c))) by lia.
        unfold copy_within. rewrite !zslice_ok by lia. cbn [bind].
        set (src := firstn (Z.to_nat (zlen l - cb_head s)) (skipn (Z.to_nat (cb_head s)) l)).
        assert (Ls : zlen src = cb_capacity s - cb_head s).
        { unfold src. rewrite zlen_firstn, zlen_skipn. lia. }
        set (a := Z.to_nat (cb_head s - (cb_capacity s - c))).
        set (l' := copy_into l a (Z.to_nat (zlen l)) src).
        assert (Ll' : zlen l' = cb_capacity s).
        { unfold l', zlen. rewrite length_copy_into by (unfold a; lia). lia. }
        rewrite Ll'. destruct (Z.leb_spec c (cb_capacity s)); [|lia].
        cbn [fst snd obs_of]. split; [|reflexivity].
        split; [|split; [|split; [|split]]]; cbn [q_items q_cap q_cursor cb_capacity cb_peeks cb_num].
        * unfold cb_ok; cbn [cb_buffer elems cb_capacity cb_num cb_head cb_peeks].
          rewrite zlen_firstn. repeat split; try lia.
        * reflexivity.
        * exact Hcur.
        * exact Hlen.
        * cbn [cb_buffer elems]. intros i Hi. rewrite <- Hget by lia.
          assert (Lsn : length src = Z.to_nat (cb_capacity s - cb_head s)) by (unfold zlen in Ls; lia).
          unfold wrap. cbn [cb_head cb_capacity].
          destruct (Z.ltb_spec (cb_head s - (cb_capacity s - c) + i) c) as [E4|E4].
          -- destruct (Z.ltb_spec (cb_head s + i) (cb_capacity s)); [|lia].
             rewrite zget_firstn by lia. unfold l'. rewrite zget_copy_into by (unfold a; lia).
             cbv zeta. rewrite Lsn.
             destruct (Z.leb_spec (Z.of_nat a) (cb_head s - (cb_capacity s - c) + i)); [|unfold a in *; lia].
             destruct (Z.ltb_spec (cb_head s - (cb_capacity s - c) + i)
               (Z.of_nat (a + Nat.min (Z.to_nat (zlen l) - a) (Z.to_nat (cb_capacity s - cb_head s))))); [|unfold a in *; lia].
             cbn [andb]. unfold src. rewrite zget_firstn by (unfold a; lia).
             rewrite zget_skipn by (unfold a; lia). f_equal. unfold a; lia.
          -- destruct (Z.ltb_spec (cb_head s + i) (cb_capacity s)); [lia|].
             rewrite zget_firstn by lia. unfold l'. rewrite zget_copy_into by (unfold a; lia).
             cbv zeta.
             destruct (Z.leb_spec (Z.of_nat a) (cb_head s - (cb_capacity s - c) + i - c)); [unfold a in *; lia|].
             cbn [andb]. f_equal. lia.
      + destruct (Z.gtb_spec (cb_head s) (c - cb_num s)) as [E4|E4].
        * (* moved to the front *)
          rewrite (u16_id (cb_head s + cb_num s)) by lia.
          unfold copy_within. rewrite !zslice_ok by lia. cbn [bind].
          set (src := firstn (Z.to_nat (cb_head s + cb_num s - cb_head s)) (skipn (Z.to_nat (cb_head s)) l)).
          assert (Ls : zlen src = cb_num s).
          { unfold src. rewrite zlen_firstn, zlen_skipn. lia. }
          set (l' := copy_into l (Z.to_nat 0) (Z.to_nat (cb_num s)) src).
          assert (Ll' : zlen l' = cb_capacity s).
          { unfold l', zlen. rewrite length_copy_into by lia. lia. }
          rewrite Ll'. destruct (Z.leb_spec c (cb_capacity s)); [|lia].
          cbn [fst snd obs_of]. split; [|reflexivity].
          split; [|split; [|split; [|split]]]; cbn [q_items q_cap q_cursor cb_capacity cb_peeks cb_num].
          -- unfold cb_ok; cbn [cb_buffer elems cb_capacity cb_num cb_head cb_peeks].
             rewrite zlen_firstn. repeat split; try lia.
          -- reflexivity.
          -- exact Hcur.
          -- exact Hlen.
          -- cbn [cb_buffer elems]. intros i Hi. rewrite <- Hget by lia.
             assert (Lsn : length src = Z.to_nat (cb_num s)) by (unfold zlen in Ls; lia).
             unfold wrap. cbn [cb_head cb_capacity].
             destruct (Z.ltb_spec (0 + i) c); [|lia].
             destruct (Z.ltb_spec (cb_head s + i) (cb_capacity s)); [|lia].
             rewrite zget_firstn by lia. unfold l'. rewrite zget_copy_into by lia.
             cbv zeta. rewrite Lsn.
             destruct (Z.leb_spec (Z.of_nat (Z.to_nat 0)) (0 + i)); [|lia].
             destruct (Z.ltb_spec (0 + i) (Z.of_nat (Z.to_nat 0 + Nat.min (Z.to_nat (cb_num s) - Z.to_nat 0) (Z.to_nat (cb_num s))))); [|lia].
             cbn [andb]. unfold src. rewrite zget_firstn by lia. rewrite zget_skipn by lia. f_equal. lia.
        * rewrite H1. destruct (Z.leb_spec c (cb_capacity s)); [|lia].
          cbn [fst snd obs_of]. split; [|reflexivity].
          split; [|split; [|split; [|split]]]; cbn [q_items q_cap q_cursor cb_capacity cb_peeks cb_num].
          -- unfold cb_ok; cbn [cb_buffer elems cb_capacity cb_num cb_head cb_peeks].
             rewrite zlen_firstn. repeat split; try lia.
          -- reflexivity.
          -- exact Hcur.
          -- exact Hlen.
          -- cbn [cb_buffer elems]. intros i Hi. rewrite <- Hget by lia.
             unfold wrap. cbn [cb_head cb_capacity].
             destruct (Z.ltb_spec (cb_head s + i) c); [|lia].
             destruct (Z.ltb_spec (cb_head s + i) (cb_capacity s)); [|lia].
             apply zget_firstn. lia.
    - (* growing *)
      rewrite (u16_id (c - cb_capacity s)), (u16_id (cb_capacity s - cb_head s)) by lia.
      destruct (grow_len (cb_buffer s) (c - cb_capacity s) ltac:(lia)) as (e & Ee & Le).
      set (l := elems (cb_buffer s)) in *.
      assert (Hll : length l = Z.to_nat (cb_capacity s)) by (unfold zlen in H1; lia).
      rewrite Ee.
      destruct (Z.gtb_spec (cb_num s) (cb_capacity s - cb_head s)) as [E3|E3].
      + rewrite (u16_id (cb_head s + (c - cb_capacity s))) by lia.
        unfold copy_within. rewrite zlen_app, H1, Le.
        rewrite zslice_ok by (rewrite ?zlen_app; lia). cbn [bind].
        rewrite zslice_ok by (rewrite ?zlen_app; lia). cbn [bind].
        set (src := firstn (Z.to_nat (cb_capacity s - cb_head s)) (skipn (Z.to_nat (cb_head s)) (l ++ e))).
        assert (Ls : zlen src = cb_capacity s - cb_head s).
        { unfold src. rewrite zlen_firstn, zlen_skipn, zlen_app. lia. }
        assert (Lsn : length src = Z.to_nat (cb_capacity s - cb_head s)) by (unfold zlen in Ls; lia).
        assert (Lle : length (l ++ e) = Z.to_nat c).
        { rewrite app_length. unfold zlen in Le. lia. }
        cbn [fst snd obs_of]. split; [|reflexivity].
        split; [|split; [|split; [|split]]]; cbn [q_items q_cap q_cursor cb_capacity cb_peeks cb_num].
        * unfold cb_ok; cbn [cb_buffer elems cb_capacity cb_num cb_head cb_peeks].
          unfold zlen at 1. rewrite length_copy_into by lia. repeat split; try lia.
        * reflexivity.
        * exact Hcur.
        * exact Hlen.
        * cbn [cb_buffer elems]. intros i Hi. rewrite <- Hget by lia.
          unfold wrap. cbn [cb_head cb_capacity].
          destruct (Z.ltb_spec (cb_head s + (c - cb_capacity s) + i) c) as [E4|E4].
          -- destruct (Z.ltb_spec (cb_head s + i) (cb_capacity s)); [|lia].
             rewrite zget_copy_into by lia. cbv zeta. rewrite Lsn.
             destruct (Z.leb_spec (Z.of_nat (Z.to_nat (cb_head s + (c - cb_capacity s)))) (cb_head s + (c - cb_capacity s) + i)); [|lia].
             match goal with |- context [?x <? ?y] => destruct (Z.ltb_spec x y) end; [|lia].
             cbn [andb]. unfold src. rewrite zget_firstn by lia. rewrite zget_skipn by lia.
             rewrite zget_app_l by lia. f_equal. lia.
          -- destruct (Z.ltb_spec (cb_head s + i) (cb_capacity s)); [lia|].
             rewrite zget_copy_into by lia. cbv zeta.
             destruct (Z.leb_spec (Z.of_nat (Z.to_nat (cb_head s + (c - cb_capacity s)))) (cb_head s + (c - cb_capacity s) + i - c)); [lia|].
             cbn [andb]. rewrite zget_app_l by lia. f_equal. lia.
      + cbn [fst snd obs_of]. split; [|reflexivity].
        split; [|split; [|split; [|split]]]; cbn [q_items q_cap q_cursor cb_capacity cb_peeks cb_num].
        * unfold cb_ok; cbn [cb_buffer elems cb_capacity cb_num cb_head cb_peeks].
          rewrite Ee, zlen_app. repeat split; try lia.
        * reflexivity.
        * exact Hcur.
        * exact Hlen.
        * cbn [cb_buffer elems]. intros i Hi. rewrite <- Hget by lia. rewrite Ee.
          unfold wrap. cbn [cb_head cb_capacity].
          destruct (Z.ltb_spec (cb_head s + i) c); [|lia].
          destruct (Z.ltb_spec (cb_head s + i) (cb_capacity s)); [|lia].
          apply zget_app_l. lia.
  Qed.

  Lemma step_rep s q op : cb_rep s q -> q_guard q op ->
    cb_rep (fst (cb_step zero s op)) (fst (q_step zero q op)) /\
    snd (cb_step zero s op) = snd (q_step zero q op).
  Proof.
    intros R G. pose proof R as (Hok & Hcap & Hcur & Hlen & Hget).
    destruct op; cbn [cb_step].
    - pose proof (push_rep s q x R) as H. destruct (cb_Push s x). exact H.
    - pose proof (pophead_rep s q R G) as H. destruct (cb_PopHead s). exact H.
    - pose proof (poptail_rep s q R G) as H. destruct (cb_PopTail s). exact H.
    - destruct q as [items cap cur]. split; [exact R|]. exact (head_rep s _ R).
    - destruct q as [items cap cur]. split; [exact R|]. exact (tail_rep s _ R).
    - pose proof (peek_rep s q R) as H. destruct (cb_PeekAhead zero s). exact H.
    - destruct q as [items cap cur]. split; [|reflexivity].
      destruct Hok as (H1 & H2 & H3 & H4 & H5 & H6).
      split; [unfold cb_ok; cbn; tauto || (repeat split; auto; lia)|].
      cbn in *. auto.
    - pose proof (confirm_rep s q R) as H. destruct q as [items cap cur]. split; [exact H|reflexivity].
    - destruct q as [items cap cur]. split; [|reflexivity].
      destruct Hok as (H1 & H2 & H3 & H4 & H5 & H6).
      split; [unfold cb_ok; cbn; repeat split; auto; lia|].
      cbn in *. rewrite zlen_nil. repeat split; auto. intros; lia.
    - cbn in G. destruct G as [Gc Ge].
      pose proof (setcap_rep s q c R Gc) as H. destruct q as [items cap cur]. cbn [q_step].
      destruct (cb_SetCapacity zero s c). apply H. cbn in *.
      intros Hn Hlt. rewrite Hn in Hlen. apply zlen_0_nil in Hlen. specialize (Ge Hlen). lia.
    - cbn in G. destruct q as [items cap cur]. cbn [q_step]. unfold cb_SetMinCapacity. cbn in Hcap. subst cap.
      destruct (Z.geb_spec (cb_capacity s) c).
      + split; [exact R|reflexivity].
      + pose proof (setcap_rep s _ c R G ltac:(lia)) as H'.
        destruct (cb_SetCapacity zero s c). exact H'.
    - destruct q as [items cap cur]. split; [exact R|]. cbn in *. unfold zlen in Hlen. rewrite Hlen. reflexivity.
    - destruct q as [items cap cur]. split; [exact R|]. cbn in *. rewrite Hcap. reflexivity.
  Qed.

  Lemma run_rep s q ops : cb_rep s q -> q_guarded zero q ops ->
    snd (cb_run zero s ops) = snd (q_run zero q ops) /\
    cb_rep (fst (cb_run zero s ops)) (fst (q_run zero q ops)).
  Proof.
    revert s q. induction ops as [|op ops IH]; intros s q R G; cbn [cb_run q_run].
    - split; [reflexivity|exact R].
    - cbn [q_guarded] in G. destruct G as [G1 G2].
      destruct (step_rep s q op R G1) as [R' O].
      destruct (cb_step zero s op) as [s' o]; destruct (q_step zero q op) as [q' o']. cbn [fst snd] in *. subst o'.
      destruct (IH s' q' R' G2) as [IH1 IH2].
      destruct (cb_run zero s' ops); destruct (q_run zero q' ops). cbn [fst snd] in *. subst. auto.
  Qed.

  Lemma cb_history ops : q_guarded zero q_init ops ->
    snd (cb_run zero cb_init ops) = snd (q_run zero q_init ops).
  Proof. intros G. apply run_rep; [apply init_rep|exact G]. Qed.

  (** C07: capacity changes of an empty buffer. *)
  Lemma empty_setcap_usable s q c x : cb_rep s q -> q_items q = [] -> 0 < c <= 32768 ->
    cb_head s <> c \/ cb_capacity s <= c ->
    exists s1 s2, cb_SetCapacity zero s c = (s1, Ok true) /\ cb_Push s1 x = (s2, Ok tt) /\ cb_Head s2 = Ok x.
  Proof.
    intros R Hi Hc Hh. pose proof R as (Hok & Hcap & Hcur & Hlen & Hget).
    rewrite Hi, zlen_nil in Hlen.
    destruct (setcap_rep s q c R ltac:(lia) ltac:(lia)) as [R1 O1].
    unfold q_setcap in *. rewrite Hi in *. cbn [length] in *.
    destruct (Z.ltb_spec c (Z.of_nat 0)); [lia|]. cbn [fst snd] in *.
    destruct (cb_SetCapacity zero s c) as [s1 o1] eqn:E1. cbn [fst snd] in *.
    destruct o1; cbn [obs_of] in O1; try discriminate. inversion O1; subst.
    pose proof (push_rep s1 _ x R1) as [R2 O2]. cbn [q_step] in R2, O2. cbn [length] in *.
    destruct (Z.ltb_spec (Z.of_nat 0) c); [|lia]. cbn [fst snd app] in *.
    destruct (cb_Push s1 x) as [s2 o2] eqn:E2. cbn [fst snd] in *.
    destruct o2 as [[]| | |]; cbn [obs_of] in O2; try discriminate.
    pose proof (head_rep s2 _ R2) as Hd. cbn [q_items] in Hd.
    exists s1, s2. split; [reflexivity|]. split; [exact E2|].
    destruct (cb_Head s2); cbn [obs_of] in Hd; congruence.
  Qed.

  (** C08 *)
  Lemma push_tail s q x : cb_rep s q -> cb_num s < cb_capacity s ->
    exists s', cb_Push s x = (s', Ok tt) /\ cb_Tail s' = Ok x /\
      (forall i, 0 <= i < cb_num s -> wrap s' i <> unsafeLastElemIndex s').
  Proof.
    intros R Hn. pose proof R as (Hok & Hcap & Hcur & Hlen & Hget).
    pose proof Hok as (H1 & H2 & H3 & H4 & H5 & H6).
    pose proof (push_rep s q x R) as [R2 O2]. destruct q as [items cap cur]. cbn [q_step] in R2, O2. cbn [q_items q_cap q_cursor] in *.
    destruct (Z.ltb_spec (Z.of_nat (length items)) cap); [|unfold zlen in Hlen; lia]. cbn [fst snd] in *.
    destruct (cb_Push s x) as [s2 o2] eqn:E2. cbn [fst snd] in *.
    destruct o2 as [[]| | |]; cbn [obs_of] in O2; try discriminate.
    exists s2. split; [reflexivity|].
    pose proof (tail_rep s2 _ R2) as Hd. cbn [q_items] in Hd. rewrite rev_app_distr in Hd. cbn [rev app] in Hd.
    split; [destruct (cb_Tail s2); cbn [obs_of] in Hd; congruence|].
    pose proof R2 as (Hok2 & _ & _ & Hl2 & _). cbn [q_items] in Hl2. rewrite zlen_app, zlen_cons, zlen_nil in Hl2.
    intros i Hi. rewrite last_index by (auto; lia).
    destruct Hok2 as (I1 & I2 & I3 & I4 & I5 & I6).
    unfold wrap. destruct (Z.ltb_spec (cb_head s2 + i) (cb_capacity s2)); destruct (Z.ltb_spec (cb_head s2 + (cb_num s2 - 1)) (cb_capacity s2)); lia.
  Qed.
End CB.

(** ** Capacities above 32768 *)
Lemma cb_run_app {T} (zero : T) s a b :
  fst (cb_run zero s (a ++ b)) = fst (cb_run zero (fst (cb_run zero s a)) b).
Proof.
  revert s. induction a as [|op a IH]; intros s; cbn [app cb_run]; [reflexivity|].
  destruct (cb_step zero s op) as [s' o]. specialize (IH s').
  destruct (cb_run zero s' (a ++ b)); destruct (cb_run zero s' a). cbn [fst] in *. exact IH.
Qed.

Definition big_state (s : cbuf Z) h n : Prop :=
  zlen (elems (cb_buffer s)) = 40000 /\ cb_capacity s = 40000 /\ cb_head s = h /\ cb_num s = n.

Lemma big_push s h n x : big_state s h n -> 0 <= h < 40000 -> 0 <= n < 40000 ->
  exists s', cb_Push s x = (s', Ok tt) /\ big_state s' h (n + 1).
Proof.
  intros (H1 & H2 & H3 & H4) Hh Hn. unfold cb_Push. rewrite H4, H2.
  destruct (Z.geb_spec n 40000); [lia|].
  set (s1 := with_num s (u16 (n + 1))).
  assert (Hr : 0 <= unsafeLastElemIndex s1 < 40000).
  { unfold unsafeLastElemIndex. cbv zeta. subst s1. cbn [with_num cb_head cb_num cb_capacity].
    rewrite H3, H2. rewrite (u16_id (n + 1)) by lia.
    repeat match goal with |- context [?a <? ?b] => destruct (Z.ltb_spec a b) end; unfold u16 in *; lia. }
  assert (Eb : elems (cb_buffer s1) = elems (cb_buffer s)) by reflexivity.
  rewrite zset_ok by (rewrite Eb; lia).
  eexists. split; [reflexivity|]. unfold big_state.
  cbn [with_buffer cb_buffer cb_capacity cb_head cb_num elems]. rewrite zlen_upd.
  split; [exact H1|]. split; [exact H2|]. split; [exact H3|]. cbn. apply u16_id. lia.
Qed.

Lemma big_pop s h : big_state s h 1 -> 0 <= h < 39999 ->
  big_state (fst (cb_PopHead s)) (h + 1) 0.
Proof.
  intros (H1 & H2 & H3 & H4) Hh. unfold cb_PopHead, cb_IsEmpty. rewrite H4, H3. cbn [Z.eqb].
  replace (1 =? 0) with false by reflexivity.
  destruct (zget_in_range (elems (cb_buffer s)) h ltac:(lia)) as [e Ee]. rewrite Ee.
  cbn [fst]. unfold big_state. cbn [with_head with_num cb_head cb_capacity cb_num cb_buffer].
  rewrite H3, H2. rewrite (u16_id (h + 1)) by lia. destruct (Z.eqb_spec (h + 1) 40000); [lia|].
  cbn [with_head with_num cb_head cb_capacity cb_num cb_buffer]. rewrite H2. repeat split; auto.
Qed.

Fixpoint push_pops (k : nat) : list (cb_op Z) :=
  match k with O => [] | S k' => OpPush 0 :: OpPopHead :: push_pops k' end.

Lemma big_push_pops k s h : big_state s h 0 -> 0 <= h -> h + Z.of_nat k < 40000 ->
  big_state (fst (cb_run 0 s (push_pops k))) (h + Z.of_nat k) 0.
Proof.
  revert s h. induction k as [|k IH]; intros s h B Hh Hk.
  - cbn. replace (h + Z.of_nat 0) with h by lia. exact B.
  - cbn [push_pops cb_run cb_step].
    destruct (big_push s h 0 0 B ltac:(lia) ltac:(lia)) as (s1 & -> & B1).
    pose proof (big_pop s1 h B1 ltac:(lia)) as B2.
    destruct (cb_PopHead s1) as [s2 o2]. cbn [fst] in B2.
    specialize (IH s2 (h + 1) B2 ltac:(lia) ltac:(lia)).
    destruct (cb_run 0 s2 (push_pops k)). cbn [fst] in *.
    replace (h + Z.of_nat (S k)) with (h + 1 + Z.of_nat k) by lia. exact IH.
Qed.

Lemma big_pushes k s h n : big_state s h n -> 0 <= h < 40000 -> 0 <= n -> n + Z.of_nat k <= 40000 ->
  big_state (fst (cb_run 0 s (repeat (OpPush 0) k))) h (n + Z.of_nat k).
Proof.
  revert s n. induction k as [|k IH]; intros s n B Hh Hn Hk.
  - cbn. replace (n + Z.of_nat 0) with n by lia. exact B.
  - cbn [repeat cb_run cb_step].
    destruct (big_push s h n 0 B ltac:(lia) ltac:(lia)) as (s1 & -> & B1).
    specialize (IH s1 (n + 1) B1 ltac:(lia) ltac:(lia) ltac:(lia)).
    destruct (cb_run 0 s1 (repeat (OpPush 0) k)). cbn [fst] in *.
    replace (n + Z.of_nat (S k)) with (n + 1 + Z.of_nat k) by lia. exact IH.
Qed.

Lemma setcap_fresh c : 0 < c < 65536 ->
  exists s, cb_SetCapacity 0 (@cb_init Z) c = (s, Ok true) /\
    zlen (elems (cb_buffer s)) = c /\ cb_capacity s = c /\ cb_head s = 0 /\ cb_num s = 0.
Proof.
  intros Hc. unfold cb_SetCapacity. cbn [cb_init cb_capacity cb_num cb_head cb_buffer cb_peeks].
  destruct (Z.eqb_spec 0 c); [lia|]. destruct (Z.ltb_spec c 0); [lia|].
  replace (0 >? u16 (0 - 0)) with false by reflexivity.
  eexists. split; [reflexivity|]. cbn [cb_buffer cb_capacity cb_head cb_num].
  rewrite (u16_id (c - 0)) by lia.
  destruct (grow_len 0 (mkSlice [] []) (c - 0) ltac:(lia)) as (e & -> & He).
  cbn [elems app]. rewrite He. repeat split. lia.
Qed.

Lemma big_reach : exists ops s, s = fst (cb_run 0 cb_init ops) /\ big_state s 30000 39999.
Proof.
  destruct (setcap_fresh 40000 ltac:(lia)) as (s0 & E0 & B).
  assert (K1 : exists k, Z.of_nat k = 30000) by (exists (Z.to_nat 30000); apply Z2Nat.id; lia).
  assert (K2 : exists k, Z.of_nat k = 39999) by (exists (Z.to_nat 39999); apply Z2Nat.id; lia).
  destruct K1 as [k1 K1]. destruct K2 as [k2 K2].
  pose proof (big_push_pops k1 s0 0 B ltac:(lia) ltac:(lia)) as B1. rewrite K1 in B1.
  pose proof (big_pushes k2 _ _ 0 B1 ltac:(lia) ltac:(lia) ltac:(lia)) as B2. rewrite K2 in B2.
  exists (OpSetCap 40000 :: push_pops k1 ++ repeat (OpPush 0) k2). eexists. split; [reflexivity|].
  assert (E : fst (cb_run 0 cb_init (OpSetCap 40000 :: push_pops k1 ++ repeat (OpPush 0) k2)) =
              fst (cb_run 0 s0 (push_pops k1 ++ repeat (OpPush 0) k2))).
  { cbn [cb_run cb_step]. rewrite E0. destruct (cb_run 0 s0 (push_pops k1 ++ repeat (OpPush 0) k2)). reflexivity. }
  rewrite E, cb_run_app. exact B2.
Qed.

Lemma big_overwrite : exists ops s y x s',
  s = fst (cb_run 0 cb_init ops) /\ cb_num s < cb_capacity s /\ cb_capacity s <= 65535 /\
  cb_Head s = Ok y /\ cb_Push s x = (s', Ok tt) /\ cb_Head s' = Ok x /\ x <> y.
Proof.
  destruct big_reach as (ops & s2 & Hs & H1 & H2 & H3 & H4).
  destruct (zget_in_range (elems (cb_buffer s2)) 30000 ltac:(lia)) as [y Hy].
  exists ops, s2, y, (y + 1).
  assert (Ph : exists s', cb_Push s2 (y + 1) = (s', Ok tt) /\ cb_num s' = 40000 /\ cb_head s' = 30000 /\
     zget (elems (cb_buffer s')) 30000 = Ok (y + 1)).
  { unfold cb_Push. rewrite H4, H2. destruct (Z.geb_spec 39999 40000); [lia|].
    set (s3 := with_num s2 (u16 (39999 + 1))).
    assert (Ei : unsafeLastElemIndex s3 = 30000).
    { unfold unsafeLastElemIndex, s3. cbn [with_num cb_head cb_num cb_capacity]. rewrite H3, H2. reflexivity. }
    assert (Eb : elems (cb_buffer s3) = elems (cb_buffer s2)) by reflexivity.
    rewrite Ei, Eb, zset_ok by lia. eexists. split; [reflexivity|].
    split; [reflexivity|]. split; [exact H3|]. cbn [with_buffer cb_buffer elems].
    apply zget_upd_same. lia. }
  destruct Ph as (s' & P1 & P2 & P3 & P4). exists s'.
  split; [exact Hs|]. split; [lia|]. split; [lia|].
  split. { unfold cb_Head, cb_IsEmpty. rewrite H4, H3. exact Hy. }
  split; [exact P1|]. split; [|lia].
  unfold cb_Head, cb_IsEmpty. rewrite P2, P3. exact P4.
Qed.
