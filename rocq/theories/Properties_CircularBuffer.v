(** Theorems C06, C07, C08 (circular buffer). *)
From Coq Require Import Lia.
From Verif Require Import Base Model_Helpers Model_CircularBuffer Spec_CircularBuffer Proofs_CircularBuffer.

(** ** C06. Full statement: [forall ops, snd (cb_run zero cb_init ops) = snd (q_run zero q_init ops)].
    It is false (next theorem); the partial version excludes removals after which a pending
    look-ahead stands behind the last element, reducing the capacity of an empty buffer (C07) and capacities
    above 32768 (C08). *)
Theorem C06_circular_buffer_partial : forall T (zero : T) (ops : list (cb_op T)),
  q_guarded zero q_init ops ->
  snd (cb_run zero cb_init ops) = snd (q_run zero q_init ops).
Proof. exact @cb_history. Qed.
Print Assumptions C06_circular_buffer_partial.
Example C06_ex :
  let ops := [OpSetCap 3; OpPush 1; OpPush 2; OpPopHead; OpPush 3; OpPush 4; OpPush 5; OpPeek;
              OpPopHead; OpPeek; OpDiscard; OpPush 5; OpPeek; OpSetCap 5; OpPeek; OpPeek; OpConfirm; OpPush 6; OpTail; OpSetCap 2; OpHead; OpPopTail; OpSize] in
  q_guarded 0 q_init ops /\
  snd (cb_run 0 cb_init ops) =
    [ObsBool true; ObsUnit; ObsUnit; ObsVal 1; ObsUnit; ObsUnit; ObsPanic; ObsPeek 3 true;
     ObsVal 2; ObsPeek 4 false; ObsUnit; ObsUnit; ObsPeek 4 true; ObsBool true;
     ObsPeek 5 true; ObsPeek 5 false; ObsUnit; ObsUnit; ObsVal 6; ObsBool true; ObsVal 5; ObsVal 6; ObsNum 1].
Proof.
  split; [|reflexivity]. vm_compute.
  repeat split; try discriminate; try (left; reflexivity); try (right; lia); intros; discriminate.
Qed.

(** Popping under a pending look-ahead: one element is left, yet the look-ahead reports a
    further element and the next look-ahead panics. *)
Theorem C06_circular_buffer_refuted : exists ops,
  snd (cb_run 0 cb_init ops) <> snd (q_run 0 q_init ops) /\
  skipn 6 (snd (cb_run 0 cb_init ops)) = [ObsNum 1; ObsPeek 2 true; ObsPanic].
Proof.
  exists [OpSetCap 2; OpPush 1; OpPush 2; OpPeek; OpPopHead; OpTail; OpSize; OpPeek; OpPeek].
  split; [vm_compute; discriminate|vm_compute; reflexivity].
Qed.
Print Assumptions C06_circular_buffer_refuted.

(** ** C07. False in general: shrinking an empty buffer to exactly its head position. *)
Theorem C07_set_capacity_refuted : exists ops,
  snd (cb_run 0 cb_init ops) <> snd (q_run 0 q_init ops) /\
  skipn 5 (snd (cb_run 0 cb_init ops)) = [ObsBool true; ObsUnit; ObsPanic] /\
  skipn 5 (snd (q_run 0 q_init ops)) = [ObsBool true; ObsUnit; ObsVal 7].
Proof.
  exists [OpSetCap 3; OpPush 0; OpPopHead; OpPush 0; OpPopHead; OpSetCap 2; OpPush 7; OpHead].
  repeat split; vm_compute; try discriminate; reflexivity.
Qed.
Print Assumptions C07_set_capacity_refuted.

(** Missing from the full statement: an empty buffer whose head position equals a smaller
    new capacity. [s] is any state representing an empty queue, in particular any state
    reached by a guarded history ([C06_reachable_rep]). *)
Theorem C07_set_capacity_partial : forall T (zero : T) (s : cbuf T) q c x,
  cb_rep s q -> q_items q = [] -> 0 < c <= 32768 ->
  cb_head s <> c \/ cb_capacity s <= c ->
  exists s1 s2, cb_SetCapacity zero s c = (s1, Ok true) /\ cb_Push s1 x = (s2, Ok tt) /\ cb_Head s2 = Ok x.
Proof. exact @empty_setcap_usable. Qed.
Print Assumptions C07_set_capacity_partial.

Theorem C06_reachable_rep : forall T (zero : T) ops, q_guarded zero q_init ops ->
  cb_rep (fst (cb_run zero cb_init ops)) (fst (q_run zero q_init ops)).
Proof. exact (fun T zero ops G => proj2 (run_rep zero cb_init q_init ops init_rep G)). Qed.
Print Assumptions C06_reachable_rep.
Example C07_ex :
  let ops := [OpSetCap 5; OpPush 0; OpPopHead; OpPush 0; OpPopHead] in
  let s := fst (cb_run 0 cb_init ops) in
  q_guarded 0 q_init ops /\ q_items (fst (q_run 0 q_init ops)) = [] /\ cb_head s = 2 /\
  cb_Head (fst (cb_Push (fst (cb_SetCapacity 0 s 3)) 9)) = Ok 9.
Proof. cbn; intuition discriminate || reflexivity. Qed.

(** ** C08. False above 32768: pushing into a non-full buffer overwrites the head. *)
Theorem C08_any_capacity_refuted : exists ops s y x s',
  s = fst (cb_run 0 cb_init ops) /\ cb_num s < cb_capacity s /\ cb_capacity s <= 65535 /\
  cb_Head s = Ok y /\ cb_Push s x = (s', Ok tt) /\ cb_Head s' = Ok x /\ x <> y.
Proof. exact big_overwrite. Qed.
Print Assumptions C08_any_capacity_refuted.

(** Up to capacity 32768 (part of [cb_rep]) the statement holds for every head position
    and fill level. *)
Theorem C08_capacity_32768_partial : forall T (zero : T) (s : cbuf T) q x,
  cb_rep s q -> cb_num s < cb_capacity s ->
  exists s', cb_Push s x = (s', Ok tt) /\ cb_Tail s' = Ok x /\
    (forall i, 0 <= i < cb_num s -> wrap s' i <> unsafeLastElemIndex s').
Proof. exact @push_tail. Qed.
Print Assumptions C08_capacity_32768_partial.
Example C08_ex : let s := fst (cb_run 0 cb_init [OpSetCap 2; OpPush 4; OpPush 5; OpPopHead]) in
  cb_num s < cb_capacity s /\ cb_head s = 1 /\ cb_Tail (fst (cb_Push s 6)) = Ok 6 /\ cb_Head (fst (cb_Push s 6)) = Ok 5.
Proof. vm_compute. auto. Qed.
