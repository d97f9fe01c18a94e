(** Specifications for helpers.go, independent of the model. *)
From Coq Require Import Sorted.
From Verif Require Import Base Model_Helpers.

(** Little endian value of a byte string and the little endian digits of a number. *)
Fixpoint le_value (l : list Z) : Z :=
  match l with [] => 0 | b :: r => b + 256 * le_value r end.

Fixpoint le_digits (n : nat) (v : Z) : list Z :=
  match n with O => [] | S k => v mod 256 :: le_digits k (v / 256) end.

(** Value of a decimal ASCII string. *)
Definition decimal_value (l : list Z) : Z := fold_left (fun acc d => acc * 10 + (d - 48)) l 0.

(** A plain growing array of booleans with the BoolList operations. *)
Inductive barr_op := BPush (v : bool) | BSet (i : Z) (v : bool) | BAll (v : bool).

Definition barr_step (l : list bool) (op : barr_op) : list bool :=
  match op with
  | BPush v => l ++ [v]
  | BSet i v =>
    map (fun p => if Z.of_nat (fst p) =? i then v else snd p) (combine (seq 0 (length l)) l)
  | BAll v => repeat v (length l)
  end.

(** Strict total orders given by boolean tests. *)
Definition strict_total_order {T} (ltb eqb : T -> T -> bool) : Prop :=
  (forall x y, eqb x y = true <-> x = y) /\
  (forall x, ltb x x = false) /\
  (forall x y z, ltb x y = true -> ltb y z = true -> ltb x z = true) /\
  (forall x y, ltb x y = true \/ x = y \/ ltb y x = true).

Definition sorted_le {T} (ltb : T -> T -> bool) (l : list T) : Prop :=
  StronglySorted (fun x y => ltb y x = false) l.
Definition sorted_lt {T} (ltb : T -> T -> bool) (l : list T) : Prop :=
  StronglySorted (fun x y => ltb x y = true) l.

(** Number of elements smaller than the target. *)
Definition count_less {T} (ltb : T -> T -> bool) (t : T) (l : list T) : nat :=
  length (filter (fun x => ltb x t) l).

(** What it means for [decode]/[append] to be a little endian codec of [w] bytes:
    decoding reads exactly the first [w] bytes (panics when there are fewer),
    appending leaves the buffer as a prefix, and both round trips hold. *)
Definition codec_round_trip (decode : list Z -> outcome Z) (append : list Z -> Z -> list Z) (w : nat) : Prop :=
  (forall buf, bytes buf -> decode buf = if zlen buf <? Z.of_nat w then Panic else Ok (le_value (firstn w buf))) /\
  (forall buf v, append buf v = buf ++ le_digits w v) /\
  (forall v rest, bytes rest -> decode (append [] v ++ rest) = Ok (v mod 256 ^ Z.of_nat w)) /\
  (forall b rest v, bytes (b ++ rest) -> length b = w -> decode (b ++ rest) = Ok v ->
     0 <= v < 256 ^ Z.of_nat w /\ append [] v = b).

(** Abstract effect of a BoolList call. *)
Definition bl_abs (op : bl_op) : barr_op :=
  match op with
  | BLPush v => BPush v
  | BLSet i v => BSet i v
  | BLSetU8 i v => BSet i v
  | BLAllTrue => BAll true
  | BLAllFalse => BAll false
  end.

Definition bl_op_wf (op : bl_op) : Prop :=
  match op with BLSetU8 i _ => 0 <= i < 256 | _ => True end.

