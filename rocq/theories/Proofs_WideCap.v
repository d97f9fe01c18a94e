(** Proofs about circular buffers of any 16-bit capacity. *)
From Verif Require Import Base BaseFacts Model_Helpers Model_CircularBuffer Spec_CircularBuffer Proofs_CircularBuffer Spec_WideCap.

Lemma mod_sub a b : 0 < b -> b <= a < 2 * b -> a mod b = a - b.
Proof. intros. symmetry. apply Z.mod_unique with 1; lia. Qed.

Section W.
  Context {T : Type} (zero : T).
  Implicit Types s : cbuf T.

  Lemma last_wide s : cb_shape s -> 0 < cb_num s ->
    unsafeLastElemIndex s =
    (cb_head s + cb_num s - 1 + (if cb_head s + cb_num s - 1 <? 65536 then 0 else 1)) mod cb_capacity s.
  Proof.
    intros (H1 & H2 & H3 & H4) Hn. unfold unsafeLastElemIndex. cbv zeta.
    assert (E : u16 (u16 (cb_head s + cb_num s) - 1) =
      if cb_head s + cb_num s - 1 <? 65536 then cb_head s + cb_num s - 1 else cb_head s + cb_num s - 1 - 65536).
    { unfold u16. destruct (Z.ltb_spec (cb_head s + cb_num s - 1) 65536); lia. }
    rewrite E. destruct (Z.ltb_spec (cb_head s + cb_num s - 1) 65536) as [A|A].
    - destruct (Z.ltb_spec (cb_head s + cb_num s - 1) (cb_head s)); [lia|].
      rewrite Z.add_0_r.
      destruct (Z.ltb_spec (cb_head s + cb_num s - 1) (cb_capacity s)).
      + symmetry. apply Z.mod_small. lia.
      + rewrite mod_sub by lia. apply u16_id. lia.
    - destruct (Z.ltb_spec (cb_head s + cb_num s - 1 - 65536) (cb_head s)); [|lia].
      rewrite (u16_id (cb_capacity s - cb_head s)) by lia. rewrite u16_id by lia.
      rewrite mod_sub by lia. lia.
  Qed.

  Lemma push_wide s x : cb_shape s -> cb_num s < cb_capacity s ->
    exists s', cb_Push s x = (s', Ok tt) /\ cb_Tail s' = Ok x /\
      cb_shape s' /\ cb_capacity s' = cb_capacity s /\ cb_head s' = cb_head s /\ cb_num s' = cb_num s + 1 /\
      cb_peeks s' = cb_peeks s /\
      forall i, 0 <= i < cb_capacity s ->
        zget (elems (cb_buffer s')) i =
        if i =? (if cb_head s + cb_num s <? 65536 then next_place s else (next_place s + 1) mod cb_capacity s)
        then Ok x else zget (elems (cb_buffer s)) i.
  Proof.
    intros W Hn. pose proof W as (H1 & H2 & H3 & H4).
    set (p := if cb_head s + cb_num s <? 65536 then next_place s else (next_place s + 1) mod cb_capacity s).
    assert (Hp : 0 <= p < cb_capacity s)
      by (unfold p, next_place; destruct (_ <? _); apply Z.mod_pos_bound; lia).
    set (s1 := with_num s (u16 (cb_num s + 1))).
    assert (N1 : cb_num s1 = cb_num s + 1) by (unfold s1; cbn; apply u16_id; lia).
    assert (W1 : cb_shape s1) by (unfold cb_shape; rewrite N1; cbn; repeat split; auto; lia).
    assert (L1 : unsafeLastElemIndex s1 = p).
    { rewrite last_wide by (auto; lia). rewrite N1. cbn [s1 with_num cb_head cb_capacity].
      replace (cb_head s + (cb_num s + 1) - 1) with (cb_head s + cb_num s) by lia.
      unfold p, next_place. destruct (cb_head s + cb_num s <? 65536).
      - rewrite Z.add_0_r. reflexivity.
      - rewrite Zplus_mod_idemp_l. reflexivity. }
    assert (E : cb_Push s x = (with_buffer s1 (mkSlice (upd (elems (cb_buffer s)) (Z.to_nat p) x) (spare (cb_buffer s))), Ok tt)).
    { unfold cb_Push. destruct (Z.geb_spec (cb_num s) (cb_capacity s)); [lia|].
      fold s1. rewrite L1. change (elems (cb_buffer s1)) with (elems (cb_buffer s)).
      rewrite zset_ok by lia. reflexivity. }
    eexists. split; [exact E|].
    set (s2 := with_buffer s1 _).
    assert (L2 : unsafeLastElemIndex s2 = p) by exact L1.
    assert (B2 : elems (cb_buffer s2) = upd (elems (cb_buffer s)) (Z.to_nat p) x) by reflexivity.
    assert (N2 : cb_num s2 = cb_num s + 1) by exact N1.
    split.
    { unfold cb_Tail, cb_IsEmpty. rewrite N2. destruct (Z.eqb_spec (cb_num s + 1) 0); [lia|].
      rewrite L2, B2. apply zget_upd_same. lia. }
    split. { unfold cb_shape. rewrite N2, B2, zlen_upd. cbn. repeat split; auto; lia. }
    split; [reflexivity|]. split; [reflexivity|]. split; [exact N2|]. split; [reflexivity|].
    intros i Hi. rewrite B2. destruct (Z.eqb_spec i p) as [->|Ne].
    - apply zget_upd_same. lia.
    - apply zget_upd_other; lia.
  Qed.

  Lemma push_head_wide s x : cb_shape s -> 0 < cb_num s < cb_capacity s ->
    cb_Head (fst (cb_Push s x)) =
    if (cb_num s + 1 =? cb_capacity s) && (65536 <=? cb_head s + cb_num s) then Ok x else cb_Head s.
  Proof.
    intros W Hn. pose proof W as (H1 & H2 & H3 & H4).
    destruct (push_wide s x W ltac:(lia)) as (s' & E & _ & _ & _ & Hh & Hnum & _ & G).
    rewrite E. cbn [fst]. unfold cb_Head, cb_IsEmpty. rewrite Hnum, Hh.
    destruct (Z.eqb_spec (cb_num s + 1) 0); [lia|]. destruct (Z.eqb_spec (cb_num s) 0); [lia|].
    rewrite G by lia. unfold next_place.
    destruct (Z.ltb_spec (cb_head s + cb_num s) 65536) as [A|A];
      destruct (Z.leb_spec 65536 (cb_head s + cb_num s)) as [A'|A']; try lia; rewrite ?andb_false_r, ?andb_true_r.
    - destruct (Z.eqb_spec (cb_head s) ((cb_head s + cb_num s) mod cb_capacity s)) as [Q|Q]; [|reflexivity].
      destruct (Z_lt_le_dec (cb_head s + cb_num s) (cb_capacity s)) as [B|B].
      + rewrite Z.mod_small in Q; lia.
      + rewrite mod_sub in Q; lia.
    - rewrite Zplus_mod_idemp_l. rewrite mod_sub by lia.
      destruct (Z.eqb_spec (cb_head s) (cb_head s + cb_num s + 1 - cb_capacity s));
        destruct (Z.eqb_spec (cb_num s + 1) (cb_capacity s)); try lia; reflexivity.
  Qed.

  Lemma setcap_wide s c x : cb_shape s -> cb_num s = 0 -> 0 < c <= 65535 ->
    exists s1 s2, cb_SetCapacity zero s c = (s1, Ok true) /\ cb_Push s1 x = (s2, Ok tt) /\
      cb_Head s2 = if (cb_head s =? c) && (c <? cb_capacity s) then Panic else Ok x.
  Proof.
    intros W Hn Hc. pose proof W as (H1 & H2 & H3 & H4).
    assert (F : forall s1, cb_shape s1 -> cb_num s1 = 0 ->
              exists s2, cb_Push s1 x = (s2, Ok tt) /\ cb_Head s2 = Ok x).
    { intros s1 W1 N1. pose proof W1 as (I1 & I2 & I3 & I4).
      destruct (push_wide s1 x W1 ltac:(lia)) as (s2 & E & _ & _ & _ & Hh & Hnum & _ & G).
      exists s2. split; [exact E|]. unfold cb_Head, cb_IsEmpty. rewrite Hnum, Hh, N1. cbn [Z.add Z.eqb].
      change (0 + 1 =? 0) with false. cbv iota.
      rewrite G by lia. rewrite N1, Z.add_0_r. destruct (Z.ltb_spec (cb_head s1) 65536); [|lia].
      unfold next_place. rewrite N1, Z.add_0_r, Z.mod_small, Z.eqb_refl by lia. reflexivity. }
    unfold cb_SetCapacity. destruct (Z.eqb_spec (cb_capacity s) c) as [Ec|Ec].
    { destruct (F s W Hn) as (s2 & A & B). exists s, s2. split; [reflexivity|]. split; [exact A|].
      destruct (Z.ltb_spec c (cb_capacity s)); [lia|]. rewrite andb_false_r. exact B. }
    rewrite Hn. destruct (Z.ltb_spec c 0); [lia|].
    rewrite (u16_id (cb_capacity s - cb_head s)) by lia.
    destruct (Z.gtb_spec 0 (cb_capacity s - cb_head s)); [lia|].
    destruct (Z.ltb_spec c (cb_capacity s)) as [Lt|Ge].
    - rewrite andb_true_r. rewrite Z.sub_0_r, (u16_id c) by lia. rewrite Z.add_0_r, (u16_id (cb_head s)) by lia.
      destruct (Z.gtb_spec (cb_head s) c) as [Gt|Le].
      + destruct (Z.eqb_spec (cb_head s) c); [lia|].
        unfold copy_within, zslice.
        destruct (Z.leb_spec 0 0); [|lia]. destruct (Z.leb_spec 0 (zlen (elems (cb_buffer s)))); [|lia].
        destruct (Z.leb_spec 0 (cb_head s)); [|lia]. destruct (Z.leb_spec (cb_head s) (cb_head s)); [|lia].
        destruct (Z.leb_spec (cb_head s) (zlen (elems (cb_buffer s)))); [|lia].
        cbn [andb bind].
        set (l' := copy_into _ _ _ _).
        assert (Ll : zlen l' = cb_capacity s).
        { unfold l', zlen. rewrite length_copy_into by (unfold zlen in *; lia). exact H1. }
        rewrite Ll. destruct (Z.leb_spec c (cb_capacity s)); [|lia].
        set (s1 := mkCbuf _ _ _ _ _).
        destruct (F s1) as (s2 & A & B).
        { unfold cb_shape, s1. cbn. rewrite zlen_firstn. unfold zlen in *. lia. }
        { reflexivity. }
        exists s1, s2. auto.
      + destruct (Z.leb_spec c (zlen (elems (cb_buffer s)))); [|lia].
        set (s1 := mkCbuf _ _ _ _ _).
        destruct (Z.eqb_spec (cb_head s) c) as [Eh|Nh].
        * assert (Lf : zlen (firstn (Z.to_nat c) (elems (cb_buffer s))) = c).
          { rewrite zlen_firstn. unfold zlen in *. lia. }
          set (s1' := with_num s1 (u16 (0 + 1))).
          assert (L1 : unsafeLastElemIndex s1' = 0).
          { unfold unsafeLastElemIndex, s1', s1. cbn [with_num cb_head cb_num cb_capacity].
            rewrite Eh. change (u16 (0 + 1)) with 1. rewrite (u16_id (c + 1)), (u16_id (c + 1 - 1)) by lia.
            destruct (Z.ltb_spec (c + 1 - 1) c); [lia|]. destruct (Z.ltb_spec (c + 1 - 1) c); [lia|].
            rewrite u16_id; lia. }
          eexists s1, _. split; [reflexivity|]. split.
          { unfold cb_Push. change (cb_num s1) with 0. change (cb_capacity s1) with c.
            destruct (Z.geb_spec 0 c); [lia|]. fold s1'. rewrite L1.
            change (elems (cb_buffer s1')) with (firstn (Z.to_nat c) (elems (cb_buffer s))).
            rewrite zset_ok by lia. reflexivity. }
          unfold cb_Head, cb_IsEmpty. cbn [with_buffer cb_num cb_head cb_buffer elems].
          change (cb_num s1') with 1. cbn [Z.eqb]. change (cb_head s1') with (cb_head s).
          apply zget_panic. right. rewrite zlen_upd. lia.
        * destruct (F s1) as (s2 & A & B).
          { unfold cb_shape, s1. cbn. rewrite zlen_firstn. unfold zlen in *. lia. }
          { reflexivity. }
          exists s1, s2. auto.
    - rewrite andb_false_r. set (s1 := mkCbuf _ _ _ _ _).
      assert (Lg : zlen (elems (cb_buffer s1)) = c).
      { unfold s1, GrowSliceByN. cbn [cb_buffer]. rewrite (u16_id (c - cb_capacity s)) by lia.
        destruct (Z.geb_spec (Z.of_nat (length (spare (cb_buffer s)))) (c - cb_capacity s)); cbn [elems];
          rewrite zlen_app; rewrite ?zlen_firstn, ?zlen_repeat; unfold zlen in *; lia. }
      destruct (F s1) as (s2 & A & B).
      { unfold cb_shape. rewrite Lg. unfold s1. cbn. lia. }
      { reflexivity. }
      exists s1, s2. auto.
  Qed.
End W.
