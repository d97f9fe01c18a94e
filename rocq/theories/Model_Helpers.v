(** Model of /repo/internal/helpers.go. *)
From Verif Require Import Base.

(** ** Little endian codecs *)

(** internal/helpers.go:135-138 *)
Definition DecodeUint16LE (buffer : list Z) : outcome Z :=
  if zlen buffer <? 2 then Panic else
  do b0 <- zget buffer 0; do b1 <- zget buffer 1;
  Ok (Z.lor b0 (u16 (Z.shiftl b1 8))).

(** internal/helpers.go:140-143 *)
Definition DecodeUint24LE (buffer : list Z) : outcome Z :=
  if zlen buffer <? 3 then Panic else
  do b0 <- zget buffer 0; do b1 <- zget buffer 1; do b2 <- zget buffer 2;
  Ok (Z.lor (Z.lor (u32 (Z.shiftl b0 0)) (u32 (Z.shiftl b1 8))) (u32 (Z.shiftl b2 16))).

(** internal/helpers.go:145-149 *)
Definition DecodeUint32LE (buffer : list Z) : outcome Z :=
  if zlen buffer <? 4 then Panic else
  do b0 <- zget buffer 0; do b1 <- zget buffer 1; do b2 <- zget buffer 2; do b3 <- zget buffer 3;
  Ok (Z.lor (Z.lor (Z.lor (u32 (Z.shiftl b0 0)) (u32 (Z.shiftl b1 8)))
       (u32 (Z.shiftl b2 16))) (u32 (Z.shiftl b3 24))).

(** internal/helpers.go:151-154 *)
Definition DecodeDate (buffer : list Z) : outcome (Z * Z * Z) :=
  if zlen buffer <? 4 then Panic else
  do head <- zslice buffer 0 2;
  do year <- DecodeUint16LE head;
  do month <- zget buffer 2;
  do day <- zget buffer 3;
  Ok (year, month, day).

(** internal/helpers.go:156-161 *)
Definition DecodeUint64LE (buffer : list Z) : outcome Z :=
  if zlen buffer <? 8 then Panic else
  do b0 <- zget buffer 0; do b1 <- zget buffer 1; do b2 <- zget buffer 2; do b3 <- zget buffer 3;
  do b4 <- zget buffer 4; do b5 <- zget buffer 5; do b6 <- zget buffer 6; do b7 <- zget buffer 7;
  Ok (Z.lor (Z.lor (Z.lor (Z.lor (Z.lor (Z.lor (Z.lor
        (u64 (Z.shiftl b0 0)) (u64 (Z.shiftl b1 8))) (u64 (Z.shiftl b2 16)))
        (u64 (Z.shiftl b3 24))) (u64 (Z.shiftl b4 32))) (u64 (Z.shiftl b5 40)))
        (u64 (Z.shiftl b6 48))) (u64 (Z.shiftl b7 56))).

(** internal/helpers.go:163-165 *)
Definition AppendUint8 (buffer : list Z) (value : Z) : list Z := buffer ++ [value].

(** internal/helpers.go:167-169; [byte(x)] keeps the low eight bits. *)
Definition AppendUint16LE (buffer : list Z) (value : Z) : list Z :=
  buffer ++ [u8 value; u8 (Z.shiftr value 8)].

(** internal/helpers.go:171-175; the buffer is written in place, so the new contents
    are returned. *)
Definition EncodeUint16LE (buffer : list Z) (value : Z) : outcome (list Z) :=
  if zlen buffer <? 2 then Panic else
  do buffer <- zset buffer 0 (u8 value);
  zset buffer 1 (u8 (Z.shiftr value 8)).

(** internal/helpers.go:177-179 *)
Definition AppendUint24LE (buffer : list Z) (value : Z) : list Z :=
  buffer ++ [u8 value; u8 (Z.shiftr value 8); u8 (Z.shiftr value 16)].

(** internal/helpers.go:181-186 *)
Definition EncodeUint24LE (buffer : list Z) (value : Z) : outcome (list Z) :=
  if zlen buffer <? 3 then Panic else
  do buffer <- zset buffer 0 (u8 value);
  do buffer <- zset buffer 1 (u8 (Z.shiftr value 8));
  zset buffer 2 (u8 (Z.shiftr value 16)).

(** internal/helpers.go:188-190 *)
Definition AppendUint32LE (buffer : list Z) (value : Z) : list Z :=
  buffer ++ [u8 value; u8 (Z.shiftr value 8); u8 (Z.shiftr value 16); u8 (Z.shiftr value 24)].

(** internal/helpers.go:192-198 *)
Definition EncodeUint32LE (buffer : list Z) (value : Z) : outcome (list Z) :=
  if zlen buffer <? 4 then Panic else
  do buffer <- zset buffer 0 (u8 value);
  do buffer <- zset buffer 1 (u8 (Z.shiftr value 8));
  do buffer <- zset buffer 2 (u8 (Z.shiftr value 16));
  zset buffer 3 (u8 (Z.shiftr value 24)).

(** internal/helpers.go:200-206 *)
Definition AppendUint64LE (buffer : list Z) (value : Z) : list Z :=
  buffer ++ [u8 value; u8 (Z.shiftr value 8); u8 (Z.shiftr value 16); u8 (Z.shiftr value 24);
             u8 (Z.shiftr value 32); u8 (Z.shiftr value 40); u8 (Z.shiftr value 48);
             u8 (Z.shiftr value 56)].

(** internal/helpers.go:208-211; a Go string is its byte list. *)
Definition AppendShortString (buffer str : list Z) : outcome (list Z) :=
  if zlen str >? 255 then Panic else Ok ((buffer ++ [u8 (zlen str)]) ++ str).

(** internal/helpers.go:213-216 *)
Definition AppendString (buffer str : list Z) : outcome (list Z) :=
  if zlen str >? 65535 then Panic else Ok (AppendUint16LE buffer (u16 (zlen str)) ++ str).

(** internal/helpers.go:218-228; byte arithmetic wraps. *)
Definition AppendByteDigits (value : Z) (str : list Z) : list Z :=
  let str := if value >? 99 then str ++ [u8 (value / 100 + 48)] else str in
  let str := if value >? 9 then str ++ [u8 ((value / 10) mod 10 + 48)] else str in
  str ++ [u8 (value mod 10 + 48)].

(** ** Sorted slices.
    A Go slice is modelled by its visible elements and the elements in its spare
    capacity (which reslicing can expose). *)
Record slice (T : Type) := mkSlice { elems : list T; spare : list T }.
Arguments mkSlice {T}.
Arguments elems {T}.
Arguments spare {T}.

(** internal/helpers.go:23-31; [zero] is the zero value of T. When [append] has to
    reallocate, the new spare capacity is unspecified; it is taken empty. *)
Definition GrowSliceByOne {T} (zero : T) (buffer : slice T) : slice T :=
  match spare buffer with
  | x :: rest => mkSlice (elems buffer ++ [x]) rest
  | [] => mkSlice (elems buffer ++ [zero]) []
  end.

(** [copy(dst[a:b], src)] inside one backing array, as memmove: the elements of [l]
    from [a] on are replaced by [src], cut to the available room [b - a]. *)
Definition copy_into {T} (l : list T) (a b : nat) (src : list T) : list T :=
  let n := Nat.min (b - a) (length src) in
  firstn a l ++ firstn n src ++ skipn (a + n) l.

(** internal/helpers.go:42-53. The deleted element is parked in the spare capacity.
    A negative index panics in the slice expressions of line 49/50. *)
Definition DeleteElementAt {T} (buffer : slice T) (index : Z) : outcome (slice T) :=
  let size := zlen (elems buffer) in
  if index + 1 >? size then Ok buffer
  else if index + 1 =? size then
    match skipn (Z.to_nat (size - 1)) (elems buffer) with
    | [] => Panic
    | x :: _ => Ok (mkSlice (firstn (Z.to_nat (size - 1)) (elems buffer)) (x :: spare buffer))
    end
  else
    do memo <- zget (elems buffer) index;
    do src <- zfrom (elems buffer) (index + 1);
    let moved := copy_into (elems buffer) (Z.to_nat index) (Z.to_nat (size - 1)) src in
    do moved <- zset moved (size - 1) memo;
    Ok (mkSlice (firstn (Z.to_nat (size - 1)) moved) (memo :: spare buffer)).

Section Ordered.
  Context {T : Type} (ltb eqb : T -> T -> bool) (zero : T).

  (** internal/helpers.go:57-69 *)
  Definition BadBinarySearch (sl : list T) (target : T) : outcome (Z * bool) :=
    let numElements := zlen sl in
    do minIndex <- lower_bound_loop 64
      (fun ctrIndex => do x <- zget sl ctrIndex; Ok (ltb x target)) 0 numElements;
    if minIndex <? numElements then
      do x <- zget sl minIndex; Ok (minIndex, eqb x target)
    else Ok (minIndex, false).

  (** The insertion point search of internal/helpers.go:74-79; [None] is the early
      return of the redundant case. *)
  Fixpoint insertion_index (buffer : list T) (element : T) (i : nat) : outcome (option nat) :=
    match i with
    | O => Ok (Some O)
    | S j =>
      do candidate <- zget buffer (Z.of_nat j);
      if ltb candidate element then Ok (Some i)
      else if eqb candidate element then Ok None
      else insertion_index buffer element j
    end.

  (** internal/helpers.go:71-89 *)
  Definition BasicOrderedNonRepeatInsert (buffer : slice T) (element : T) : outcome (slice T) :=
    let defaultIndex := length (elems buffer) in
    do oi <- insertion_index (elems buffer) element defaultIndex;
    match oi with
    | None => Ok buffer
    | Some i =>
      let grown := GrowSliceByOne zero buffer in
      let l := elems grown in
      let l := if Nat.eqb i defaultIndex then l
               else copy_into l (S i) (length l) (skipn i l) in
      do l <- zset l (Z.of_nat i) element;
      Ok (mkSlice l (spare grown))
    end.
End Ordered.

(** ** BoolList, internal/helpers.go:230-233 *)
Record BoolList := mkBoolList { bl_size : Z; bl_bools : list Z }.

(** internal/helpers.go:235-241 *)
Definition NewBoolList (size : Z) : BoolList :=
  if size <=? 0 then mkBoolList 0 []
  else mkBoolList size (repeat 0 (Z.to_nat (Z.shiftr (size + 7) 3))).

(** [uint8(1) << uint8(i & 7)] *)
Definition bl_mask (i : Z) : Z := u8 (Z.shiftl 1 (Z.land i 7)).

(** [x |= mask] / [x &= ^mask] on a byte *)
Definition bl_write (x i : Z) (value : bool) : Z :=
  if value then Z.lor x (bl_mask i) else Z.land x (255 - bl_mask i).

(** internal/helpers.go:266-270 *)
Definition bl_Get (self : BoolList) (i : Z) : outcome bool :=
  if (i <? 0) || (i >=? bl_size self) then Panic else
  do w <- zget (bl_bools self) (Z.shiftr i 3);
  Ok (negb (Z.land w (bl_mask i) =? 0)).

(** internal/helpers.go:275-278; the argument is a uint8 *)
Definition bl_GetU8 (self : BoolList) (i : Z) : outcome bool :=
  do w <- zget (bl_bools self) (Z.shiftr i 3);
  Ok (negb (Z.land w (bl_mask i) =? 0)).

(** internal/helpers.go:280-288 *)
Definition bl_Set (self : BoolList) (i : Z) (value : bool) : outcome BoolList :=
  if (i <? 0) || (i >=? bl_size self) then Panic else
  do w <- zget (bl_bools self) (Z.shiftr i 3);
  do bools <- zset (bl_bools self) (Z.shiftr i 3) (bl_write w i value);
  Ok (mkBoolList (bl_size self) bools).

(** internal/helpers.go:290-297 *)
Definition bl_SetU8 (self : BoolList) (i : Z) (value : bool) : outcome BoolList :=
  do w <- zget (bl_bools self) (Z.shiftr i 3);
  do bools <- zset (bl_bools self) (Z.shiftr i 3) (bl_write w i value);
  Ok (mkBoolList (bl_size self) bools).

(** internal/helpers.go:243-249 *)
Definition bl_Push (self : BoolList) (value : bool) : outcome BoolList :=
  let bools := if Z.shiftr (bl_size self) 3 >=? zlen (bl_bools self)
               then bl_bools self ++ [0] else bl_bools self in
  let self := mkBoolList (bl_size self + 1) bools in
  bl_Set self (bl_size self - 1) value.

(** internal/helpers.go:251-261 *)
Definition bl_SetAllFalse (self : BoolList) : BoolList :=
  mkBoolList (bl_size self) (map (fun _ => 0) (bl_bools self)).
Definition bl_SetAllTrue (self : BoolList) : BoolList :=
  mkBoolList (bl_size self) (map (fun _ => 255) (bl_bools self)).

(** internal/helpers.go:299-307 *)
Definition bl_RawGetU8 (self : BoolList) (word bitMask : Z) : outcome bool :=
  do w <- zget (bl_bools self) word; Ok (negb (Z.land w bitMask =? 0)).
Definition bl_GetWordAndBitMaskU8 (i : Z) : Z * Z :=
  (Z.shiftr i 3, u8 (Z.shiftl 1 (Z.land i 7))).

(** A history of operations; a panicking call leaves the list as it was (the panic
    happens before any write) and its caller may recover. *)
Inductive bl_op :=
| BLPush (v : bool) | BLSet (i : Z) (v : bool) | BLSetU8 (i : Z) (v : bool)
| BLAllTrue | BLAllFalse.

Definition bl_step (self : BoolList) (op : bl_op) : BoolList :=
  match
    match op with
    | BLPush v => bl_Push self v
    | BLSet i v => bl_Set self i v
    | BLSetU8 i v => bl_SetU8 self i v
    | BLAllTrue => Ok (bl_SetAllTrue self)
    | BLAllFalse => Ok (bl_SetAllFalse self)
    end
  with Ok s => s | _ => self end.
