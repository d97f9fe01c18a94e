(** Model of /repo/internal/circular_buffer.go (with GrowSliceByN of helpers.go). *)
From Verif Require Import Base Model_Helpers.

(** internal/helpers.go:7-16. [make] gives a capacity equal to the size. *)
Definition GrowSliceByN {T} (zero : T) (buffer : slice T) (increase : Z) : slice T :=
  let n := Z.to_nat increase in
  if Z.of_nat (length (spare buffer)) >=? increase
  then mkSlice (elems buffer ++ firstn n (spare buffer)) (skipn n (spare buffer))
  else mkSlice (elems buffer ++ repeat zero n) [].

(** internal/circular_buffer.go:3-9. All four counters are uint16. *)
Record cbuf (T : Type) := mkCbuf {
  cb_buffer : slice T;
  cb_capacity : Z;
  cb_head : Z;
  cb_num : Z;
  cb_peeks : Z
}.
Arguments mkCbuf {T}.
Arguments cb_buffer {T}.
Arguments cb_capacity {T}.
Arguments cb_head {T}.
Arguments cb_num {T}.
Arguments cb_peeks {T}.

Section CB.
  Context {T : Type} (zero : T).

  (** The zero value of the struct. *)
  Definition cb_init : cbuf T := mkCbuf (mkSlice [] []) 0 0 0 0.

  Definition with_buffer (s : cbuf T) (b : slice T) : cbuf T := mkCbuf b (cb_capacity s) (cb_head s) (cb_num s) (cb_peeks s).
  Definition with_capacity (s : cbuf T) c := mkCbuf (cb_buffer s) c (cb_head s) (cb_num s) (cb_peeks s).
  Definition with_head (s : cbuf T) h := mkCbuf (cb_buffer s) (cb_capacity s) h (cb_num s) (cb_peeks s).
  Definition with_num (s : cbuf T) n := mkCbuf (cb_buffer s) (cb_capacity s) (cb_head s) n (cb_peeks s).
  Definition with_peeks (s : cbuf T) p := mkCbuf (cb_buffer s) (cb_capacity s) (cb_head s) (cb_num s) p.

  (** internal/circular_buffer.go:11-13 *)
  Definition cb_IsEmpty (s : cbuf T) : bool := cb_num s =? 0.

  (** internal/circular_buffer.go:147-157 *)
  Definition unsafeLastElemIndex (s : cbuf T) : Z :=
    let index := u16 (u16 (cb_head s + cb_num s) - 1) in
    if index <? cb_head s then u16 (cb_num s - u16 (cb_capacity s - cb_head s))
    else if index <? cb_capacity s then index
    else u16 (index - cb_capacity s).

  (** internal/circular_buffer.go:160-170 *)
  Definition unsafePeekElemIndex (s : cbuf T) : Z :=
    let index := u16 (cb_head s + cb_peeks s) in
    if index <? cb_head s then u16 (cb_peeks s - u16 (cb_capacity s - cb_head s))
    else if index <? cb_capacity s then index
    else u16 (index - cb_capacity s).

  (** Methods return the state they leave behind (also when panicking: writes done
      before the panic stay) and the outcome. *)

  (** internal/circular_buffer.go:23-27 *)
  Definition cb_Clear (s : cbuf T) : cbuf T := with_peeks (with_num (with_head s 0) 0) 0.

  (** internal/circular_buffer.go:30-39 *)
  Definition cb_Push (s : cbuf T) (element : T) : cbuf T * outcome unit :=
    if cb_num s >=? cb_capacity s then (s, Panic) else
    let s := with_num s (u16 (cb_num s + 1)) in
    match zset (elems (cb_buffer s)) (unsafeLastElemIndex s) element with
    | Ok l => (with_buffer s (mkSlice l (spare (cb_buffer s))), Ok tt)
    | _ => (s, Panic)
    end.

  (** internal/circular_buffer.go:41-53 *)
  Definition cb_PeekAhead (s : cbuf T) : cbuf T * outcome (T * bool) :=
    if cb_IsEmpty s then (s, Ok (zero, false))
    else if cb_peeks s =? u16 (cb_num s - 1) then
      (s, do x <- zget (elems (cb_buffer s)) (unsafePeekElemIndex s); Ok (x, false))
    else
      let s := with_peeks s (u16 (cb_peeks s + 1)) in
      (s, do x <- zget (elems (cb_buffer s)) (unsafePeekElemIndex s); Ok (x, true)).

  (** internal/circular_buffer.go:55-57 *)
  Definition cb_DiscardPeeks (s : cbuf T) : cbuf T := with_peeks s 0.

  (** internal/circular_buffer.go:59-63 *)
  Definition cb_ConfirmPeeks (s : cbuf T) : cbuf T :=
    let s := with_head s (unsafePeekElemIndex s) in
    let s := with_num s (u16 (cb_num s - cb_peeks s)) in
    with_peeks s 0.

  (** internal/circular_buffer.go:65-71 *)
  Definition cb_Head (s : cbuf T) : outcome T :=
    if cb_IsEmpty s then Panic else zget (elems (cb_buffer s)) (cb_head s).

  (** internal/circular_buffer.go:73-79 *)
  Definition cb_Tail (s : cbuf T) : outcome T :=
    if cb_IsEmpty s then Panic else zget (elems (cb_buffer s)) (unsafeLastElemIndex s).

  (** internal/circular_buffer.go:81-93 *)
  Definition cb_PopHead (s : cbuf T) : cbuf T * outcome T :=
    if cb_IsEmpty s then (s, Panic) else
    match zget (elems (cb_buffer s)) (cb_head s) with
    | Ok element =>
      let s := with_num s (u16 (cb_num s - 1)) in
      let s := with_head s (u16 (cb_head s + 1)) in
      let s := if cb_head s =? cb_capacity s then with_head s 0 else s in
      (s, Ok element)
    | _ => (s, Panic)
    end.

  (** internal/circular_buffer.go:95-103 *)
  Definition cb_PopTail (s : cbuf T) : cbuf T * outcome T :=
    if cb_IsEmpty s then (s, Panic) else
    match zget (elems (cb_buffer s)) (unsafeLastElemIndex s) with
    | Ok element => (with_num s (u16 (cb_num s - 1)), Ok element)
    | _ => (s, Panic)
    end.

  (** [copy(buf[a:], buf[c:d])] and friends on the visible part; bounds as Go checks
      them (against the length for the low bound, which the code always has equal
      to the capacity field). *)
  Definition copy_within (l : list T) (a b c d : Z) : outcome (list T) :=
    do _ <- zslice l a b;
    do src <- zslice l c d;
    Ok (copy_into l (Z.to_nat a) (Z.to_nat b) src).

  (** internal/circular_buffer.go:111-142. A panic in the slice expressions leaves the
      state unchanged except for the growth of line 131 (which is not observable). *)
  Definition cb_SetCapacity (s : cbuf T) (capacity : Z) : cbuf T * outcome bool :=
    if cb_capacity s =? capacity then (s, Ok true)
    else if capacity <? cb_num s then (s, Ok false)
    else if capacity <? cb_capacity s then
      let lenReduction := u16 (cb_capacity s - capacity) in
      let l := elems (cb_buffer s) in
      let moved :=
        if cb_num s >? u16 (cb_capacity s - cb_head s) then
          do l' <- copy_within l (u16 (cb_head s - lenReduction)) (zlen l) (cb_head s) (zlen l);
          Ok (l', u16 (cb_head s - lenReduction))
        else if cb_head s >? u16 (capacity - cb_num s) then
          do l' <- copy_within l 0 (cb_num s) (cb_head s) (u16 (cb_head s + cb_num s));
          Ok (l', 0)
        else Ok (l, cb_head s) in
      match moved with
      | Ok (l', head) =>
        if (capacity <=? zlen l') then
          let n := Z.to_nat capacity in
          (mkCbuf (mkSlice (firstn n l') (skipn n l' ++ spare (cb_buffer s)))
             capacity head (cb_num s) (cb_peeks s), Ok true)
        else (s, Panic)
      | _ => (s, Panic)
      end
    else
      let extraLen := u16 (capacity - cb_capacity s) in
      let buffer := GrowSliceByN zero (cb_buffer s) extraLen in
      if cb_num s >? u16 (cb_capacity s - cb_head s) then
        match copy_within (elems buffer) (u16 (cb_head s + extraLen)) (zlen (elems buffer))
                (cb_head s) (cb_capacity s) with
        | Ok l' => (mkCbuf (mkSlice l' (spare buffer)) capacity (u16 (cb_head s + extraLen))
                     (cb_num s) (cb_peeks s), Ok true)
        | _ => (with_buffer s buffer, Panic)
        end
      else (mkCbuf buffer capacity (cb_head s) (cb_num s) (cb_peeks s), Ok true).

  (** internal/circular_buffer.go:105-108 *)
  Definition cb_SetMinCapacity (s : cbuf T) (capacity : Z) : cbuf T * outcome bool :=
    if cb_capacity s >=? capacity then (s, Ok true) else cb_SetCapacity s capacity.

  (** Histories. *)
  Inductive cb_op :=
  | OpPush (x : T) | OpPopHead | OpPopTail | OpHead | OpTail | OpPeek
  | OpDiscard | OpConfirm | OpClear | OpSetCap (c : Z) | OpSetMinCap (c : Z)
  | OpSize | OpCapacity.

  Inductive cb_obs :=
  | ObsUnit | ObsVal (x : T) | ObsPeek (x : T) (b : bool) | ObsBool (b : bool)
  | ObsNum (n : Z) | ObsPanic.

  Definition obs_of {A} (f : A -> cb_obs) (o : outcome A) : cb_obs :=
    match o with Ok a => f a | _ => ObsPanic end.

  Definition cb_step (s : cbuf T) (op : cb_op) : cbuf T * cb_obs :=
    match op with
    | OpPush x => let (s', o) := cb_Push s x in (s', obs_of (fun _ => ObsUnit) o)
    | OpPopHead => let (s', o) := cb_PopHead s in (s', obs_of ObsVal o)
    | OpPopTail => let (s', o) := cb_PopTail s in (s', obs_of ObsVal o)
    | OpHead => (s, obs_of ObsVal (cb_Head s))
    | OpTail => (s, obs_of ObsVal (cb_Tail s))
    | OpPeek => let (s', o) := cb_PeekAhead s in (s', obs_of (fun p => ObsPeek (fst p) (snd p)) o)
    | OpDiscard => (cb_DiscardPeeks s, ObsUnit)
    | OpConfirm => (cb_ConfirmPeeks s, ObsUnit)
    | OpClear => (cb_Clear s, ObsUnit)
    | OpSetCap c => let (s', o) := cb_SetCapacity s c in (s', obs_of ObsBool o)
    | OpSetMinCap c => let (s', o) := cb_SetMinCapacity s c in (s', obs_of ObsBool o)
    | OpSize => (s, ObsNum (cb_num s))
    | OpCapacity => (s, ObsNum (cb_capacity s))
    end.

  Fixpoint cb_run (s : cbuf T) (ops : list cb_op) : cbuf T * list cb_obs :=
    match ops with
    | [] => (s, [])
    | op :: r =>
      let (s', o) := cb_step s op in
      let (s'', os) := cb_run s' r in (s'', o :: os)
    end.
End CB.
Arguments cb_op : clear implicits.
Arguments cb_obs : clear implicits.
