(** Theorems C06 for look-ahead and removal, every 16-bit capacity. *)
From Coq Require Import Lia.
From Verif Require Import Base Model_Helpers Model_CircularBuffer Spec_CircularBuffer Proofs_CircularBuffer
  Spec_WideCap Proofs_WideCap Proofs_WidePeek.

(** ** C06, single calls. Full statement as in [Properties_CircularBuffer]. Unlike [Push] and
    the tail reads (C08), looking ahead, confirming and removing the head use the right places
    at every capacity. Missing: calls with a look-ahead behind the last element. *)
Theorem C06_look_partial : forall T (zero : T) (s : cbuf T), cb_shape s -> 0 <= cb_peeks s < cb_num s ->
  exists x, zget (elems (cb_buffer s)) ((cb_head s + Z.min (cb_peeks s + 1) (cb_num s - 1)) mod cb_capacity s) = Ok x /\
    cb_PeekAhead zero s = (with_peeks s (Z.min (cb_peeks s + 1) (cb_num s - 1)), Ok (x, cb_peeks s + 1 <? cb_num s)).
Proof. exact @look_wide. Qed.
Print Assumptions C06_look_partial.
Theorem C06_confirm_partial : forall T (s : cbuf T), cb_shape s -> 0 <= cb_peeks s < cb_num s ->
  cb_ConfirmPeeks s =
  mkCbuf (cb_buffer s) (cb_capacity s) ((cb_head s + cb_peeks s) mod cb_capacity s) (cb_num s - cb_peeks s) 0.
Proof. exact @confirm_wide. Qed.
Print Assumptions C06_confirm_partial.
Theorem C06_pop_partial : forall T (s : cbuf T), cb_shape s -> 0 < cb_num s ->
  exists x, zget (elems (cb_buffer s)) (cb_head s) = Ok x /\
    cb_PopHead s =
    (mkCbuf (cb_buffer s) (cb_capacity s) ((cb_head s + 1) mod cb_capacity s) (cb_num s - 1) (cb_peeks s), Ok x).
Proof. exact @pop_wide. Qed.
Print Assumptions C06_pop_partial.
Example C06_look_ex :
  let s := fst (cb_run 0 cb_init [OpSetCap 3; OpPush 4; OpPush 5; OpPopHead; OpPush 6; OpPush 7; OpPeek]) in
  cb_shape s /\ cb_head s = 1 /\ cb_num s = 3 /\ cb_peeks s = 1 /\
  snd (cb_PeekAhead 0 s) = Ok (7, true) /\ snd (cb_PopHead s) = Ok 5 /\
  cb_Head (cb_ConfirmPeeks (fst (cb_PeekAhead 0 s))) = Ok 7.
Proof. vm_compute. intuition discriminate. Qed.
(** A reachable buffer of capacity 40000 whose first position and fill level add up to 69999. *)
Example C06_wide_ex : exists ops,
  let s := fst (cb_run 0 cb_init ops) in
  cb_shape s /\ cb_capacity s = 40000 /\ cb_head s = 30000 /\ cb_num s = 39999 /\
  cb_head (fst (cb_PopHead s)) = 30001 /\ cb_num (fst (cb_PopHead s)) = 39998.
Proof.
  destruct big_reach as (ops & s & Hs & H1 & H2 & H3 & H4). exists ops. rewrite <- Hs. cbv zeta.
  assert (W : cb_shape s) by (unfold cb_shape; rewrite H1, H2, H3, H4; lia).
  destruct (pop_wide s W ltac:(lia)) as (x & _ & E). rewrite E. cbn [fst cb_head cb_num]. rewrite H2, H3, H4.
  repeat split; auto; exact (proj1 W) || (unfold cb_shape in W; intuition lia).
Qed.
