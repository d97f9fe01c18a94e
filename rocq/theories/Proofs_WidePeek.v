(** Proofs about look-ahead and removal in circular buffers of any 16-bit capacity. *)
From Verif Require Import Base BaseFacts Model_Helpers Model_CircularBuffer Spec_CircularBuffer Proofs_CircularBuffer
  Spec_WideCap Proofs_WideCap.

Section W.
  Context {T : Type} (zero : T).
  Implicit Types s : cbuf T.

  Lemma peek_wide s : cb_shape s -> 0 <= cb_peeks s < cb_capacity s ->
    unsafePeekElemIndex s = (cb_head s + cb_peeks s) mod cb_capacity s.
  Proof.
    intros (H1 & H2 & H3 & H4) Hp. unfold unsafePeekElemIndex. cbv zeta.
    destruct (Z_lt_le_dec (cb_head s + cb_peeks s) 65536) as [A|A].
    - rewrite (u16_id (cb_head s + cb_peeks s)) by lia.
      destruct (Z.ltb_spec (cb_head s + cb_peeks s) (cb_head s)); [lia|].
      destruct (Z.ltb_spec (cb_head s + cb_peeks s) (cb_capacity s)).
      + symmetry. apply Z.mod_small. lia.
      + rewrite mod_sub by lia. apply u16_id. lia.
    - replace (u16 (cb_head s + cb_peeks s)) with (cb_head s + cb_peeks s - 65536) by (unfold u16; lia).
      destruct (Z.ltb_spec (cb_head s + cb_peeks s - 65536) (cb_head s)); [|lia].
      rewrite (u16_id (cb_capacity s - cb_head s)) by lia. rewrite u16_id by lia.
      rewrite mod_sub by lia. lia.
  Qed.

  Lemma look_wide s : cb_shape s -> 0 <= cb_peeks s < cb_num s ->
    exists x, zget (elems (cb_buffer s)) ((cb_head s + Z.min (cb_peeks s + 1) (cb_num s - 1)) mod cb_capacity s) = Ok x /\
      cb_PeekAhead zero s = (with_peeks s (Z.min (cb_peeks s + 1) (cb_num s - 1)), Ok (x, cb_peeks s + 1 <? cb_num s)).
  Proof.
    intros W Hp. pose proof W as (H1 & H2 & H3 & H4).
    destruct (zget_in_range (elems (cb_buffer s)) ((cb_head s + Z.min (cb_peeks s + 1) (cb_num s - 1)) mod cb_capacity s)) as [x Hx].
    { rewrite H1. apply Z.mod_pos_bound. lia. }
    exists x. split; [exact Hx|]. unfold cb_PeekAhead, cb_IsEmpty.
    destruct (Z.eqb_spec (cb_num s) 0); [lia|]. rewrite (u16_id (cb_num s - 1)) by lia.
    destruct (Z.eqb_spec (cb_peeks s) (cb_num s - 1)) as [E|E].
    - rewrite Z.min_r in * by lia. rewrite peek_wide by (auto; lia). rewrite E at 1. rewrite Hx. cbn [bind].
      destruct (Z.ltb_spec (cb_peeks s + 1) (cb_num s)); [lia|]. rewrite <- E. destruct s; reflexivity.
    - rewrite Z.min_l in * by lia. rewrite (u16_id (cb_peeks s + 1)) by lia.
      rewrite peek_wide; [|exact W|cbn; lia]. cbn [with_peeks cb_head cb_peeks cb_capacity cb_buffer].
      rewrite Hx. cbn [bind]. destruct (Z.ltb_spec (cb_peeks s + 1) (cb_num s)); [|lia]. reflexivity.
  Qed.

  Lemma confirm_wide s : cb_shape s -> 0 <= cb_peeks s < cb_num s ->
    cb_ConfirmPeeks s =
    mkCbuf (cb_buffer s) (cb_capacity s) ((cb_head s + cb_peeks s) mod cb_capacity s) (cb_num s - cb_peeks s) 0.
  Proof.
    intros W Hp. pose proof W as (H1 & H2 & H3 & H4).
    unfold cb_ConfirmPeeks. rewrite peek_wide by (auto; lia). destruct s as [b c h n p]. cbn in *.
    rewrite u16_id by lia. reflexivity.
  Qed.

  Lemma pop_wide s : cb_shape s -> 0 < cb_num s ->
    exists x, zget (elems (cb_buffer s)) (cb_head s) = Ok x /\
      cb_PopHead s =
      (mkCbuf (cb_buffer s) (cb_capacity s) ((cb_head s + 1) mod cb_capacity s) (cb_num s - 1) (cb_peeks s), Ok x).
  Proof.
    intros W Hn. pose proof W as (H1 & H2 & H3 & H4).
    destruct (zget_in_range (elems (cb_buffer s)) (cb_head s)) as [x Hx]; [lia|].
    exists x. split; [exact Hx|]. unfold cb_PopHead, cb_IsEmpty. rewrite Hx.
    destruct (Z.eqb_spec (cb_num s) 0); [lia|]. destruct s as [b c h m p]. cbn in *.
    rewrite (u16_id (m - 1)), (u16_id (h + 1)) by lia.
    destruct (Z.eqb_spec (h + 1) c) as [E|E].
    - rewrite E, Z_mod_same_full. reflexivity.
    - rewrite Z.mod_small by lia. reflexivity.
  Qed.
End W.
