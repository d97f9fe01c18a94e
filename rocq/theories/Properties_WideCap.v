(** Theorems C07 and C08 for every 16-bit capacity. *)
From Coq Require Import Lia.
From Verif Require Import Base Model_Helpers Model_CircularBuffer Spec_CircularBuffer Proofs_CircularBuffer
  Spec_WideCap Proofs_WideCap.

(** ** C07. Full statement: after [SetCapacity] an empty buffer gives back what is pushed.
    Exactly one case fails, whatever the capacities: the new capacity is smaller and equals
    the position of the first element. Missing: buffers left in that state before. *)
Theorem C07_exact_partial : forall T (zero : T) (s : cbuf T) c x,
  cb_shape s -> cb_num s = 0 -> 0 < c <= 65535 ->
  exists s1 s2, cb_SetCapacity zero s c = (s1, Ok true) /\ cb_Push s1 x = (s2, Ok tt) /\
    cb_Head s2 = if (cb_head s =? c) && (c <? cb_capacity s) then Panic else Ok x.
Proof. exact @setcap_wide. Qed.
Print Assumptions C07_exact_partial.
Example C07_exact_ex :
  let s := fst (cb_run 0 cb_init [OpSetCap 5; OpPush 1; OpPopHead; OpPush 2; OpPopHead]) in
  cb_shape s /\ cb_num s = 0 /\ cb_head s = 2 /\
  cb_Head (fst (cb_Push (fst (cb_SetCapacity 0 s 2)) 9)) = Panic /\
  cb_Head (fst (cb_Push (fst (cb_SetCapacity 0 s 1)) 9)) = Ok 9 /\
  cb_Head (fst (cb_Push (fst (cb_SetCapacity 0 s 7)) 9)) = Ok 9.
Proof. vm_compute. intuition discriminate. Qed.

(** ** C08. Full statement: the pushed element is written behind the elements stored. It is
    if first position and fill level add up to less than 65536; otherwise it is written one
    place too far. The tail read returns it in both cases, and no other place changes. *)
Theorem C08_place_partial : forall T (s : cbuf T) x,
  cb_shape s -> cb_num s < cb_capacity s ->
  exists s', cb_Push s x = (s', Ok tt) /\ cb_Tail s' = Ok x /\
    cb_shape s' /\ cb_capacity s' = cb_capacity s /\ cb_head s' = cb_head s /\ cb_num s' = cb_num s + 1 /\
    cb_peeks s' = cb_peeks s /\
    forall i, 0 <= i < cb_capacity s ->
      zget (elems (cb_buffer s')) i =
      if i =? (if cb_head s + cb_num s <? 65536 then next_place s else (next_place s + 1) mod cb_capacity s)
      then Ok x else zget (elems (cb_buffer s)) i.
Proof. exact @push_wide. Qed.
Print Assumptions C08_place_partial.
Example C08_place_ex :
  let s := fst (cb_run 0 cb_init [OpSetCap 3; OpPush 4; OpPush 5; OpPopHead; OpPush 6]) in
  cb_shape s /\ cb_num s < cb_capacity s /\ next_place s = 0 /\
  elems (cb_buffer s) = [4; 5; 6] /\ elems (cb_buffer (fst (cb_Push s 7))) = [7; 5; 6].
Proof. vm_compute. intuition discriminate. Qed.

(** The first element is overwritten exactly by the push that fills a buffer whose first
    position and fill level add up to 65536 or more. *)
Theorem C08_head_partial : forall T (s : cbuf T) x,
  cb_shape s -> 0 < cb_num s < cb_capacity s ->
  cb_Head (fst (cb_Push s x)) =
  if (cb_num s + 1 =? cb_capacity s) && (65536 <=? cb_head s + cb_num s) then Ok x else cb_Head s.
Proof. exact @push_head_wide. Qed.
Print Assumptions C08_head_partial.
Example C08_head_ex : exists ops,
  let s := fst (cb_run 0 cb_init ops) in
  cb_shape s /\ 0 < cb_num s < cb_capacity s /\ 65536 <= cb_head s + cb_num s /\
  cb_Head (fst (cb_Push s 8)) = Ok 8 /\ cb_Head (fst (cb_Push s 9)) = Ok 9.
Proof.
  destruct big_reach as (ops & s & Hs & H1 & H2 & H3 & H4). exists ops. rewrite <- Hs. cbv zeta.
  assert (W : cb_shape s) by (unfold cb_shape; rewrite H1, H2, H3, H4; lia).
  split; [exact W|]. rewrite H2, H3, H4. split; [lia|]. split; [lia|].
  rewrite !push_head_wide by (auto; lia). rewrite H2, H3, H4. split; reflexivity.
Qed.
