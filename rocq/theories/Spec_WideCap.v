(** Independent statements about circular buffers of any 16-bit capacity. *)
From Verif Require Import Base Model_Helpers Model_CircularBuffer.

(** The storage has as many places as the capacity says, the first element is one of
    them, and no more elements are stored than there are places. *)
Definition cb_shape {T} (s : cbuf T) : Prop :=
  zlen (elems (cb_buffer s)) = cb_capacity s /\ cb_capacity s <= 65535 /\
  0 <= cb_num s <= cb_capacity s /\ 0 <= cb_head s < cb_capacity s.

(** The place the next element belongs to, counted from the first element around the end. *)
Definition next_place {T} (s : cbuf T) : Z := (cb_head s + cb_num s) mod cb_capacity s.
