(** Shared vocabulary of the model: outcomes (value, error, panic, hang), checked
    slice accesses and the fixed-width wraps. No proofs here. *)
From Coq Require Export String ZArith Bool List.
Export ListNotations.
Open Scope Z_scope.

(** Result of running a Go function.
    [Ok a]   : returned normally with [a];
    [Err m]  : returned a non-nil error (the message names the branch taken);
    [Panic]  : panicked (explicit panic, index or slice bounds out of range, ...);
    [Hang]   : does not return (unbounded loop or recursion, or model fuel exhausted). *)
Inductive outcome (A : Type) : Type :=
| Ok (a : A)
| Err (m : string)
| Panic
| Hang.
Arguments Ok {A} a.
Arguments Err {A} m%string.
Arguments Panic {A}.
Arguments Hang {A}.

Definition bind {A B} (o : outcome A) (f : A -> outcome B) : outcome B :=
  match o with
  | Ok a => f a
  | Err m => Err m
  | Panic => Panic
  | Hang => Hang
  end.

Notation "'do' x <- o ; k" := (bind o (fun x => k))
  (at level 200, x name, o at level 100, k at level 200, right associativity).
Notation "'do' ' p <- o ; k" := (bind o (fun p => k))
  (at level 200, p strict pattern, o at level 100, k at level 200, right associativity).

Definition is_ok {A} (o : outcome A) : bool := match o with Ok _ => true | _ => false end.
Definition is_panic {A} (o : outcome A) : bool := match o with Panic => true | _ => false end.

(** Lengths and checked accesses of Go slices. *)
Definition zlen {A} (l : list A) : Z := Z.of_nat (length l).

(** [l[i]] *)
Definition zget {A} (l : list A) (i : Z) : outcome A :=
  if i <? 0 then Panic
  else match nth_error l (Z.to_nat i) with Some a => Ok a | None => Panic end.

(** [l[a : b]] (bounds checked against the length; the model never re-slices beyond
    the length into spare capacity unless a definition says so). *)
Definition zslice {A} (l : list A) (a b : Z) : outcome (list A) :=
  if (0 <=? a) && (a <=? b) && (b <=? zlen l)
  then Ok (firstn (Z.to_nat (b - a)) (skipn (Z.to_nat a) l))
  else Panic.

(** [l[a : ]] *)
Definition zfrom {A} (l : list A) (a : Z) : outcome (list A) :=
  if (0 <=? a) && (a <=? zlen l) then Ok (skipn (Z.to_nat a) l) else Panic.

Fixpoint upd {A} (l : list A) (n : nat) (v : A) : list A :=
  match l, n with
  | [], _ => []
  | _ :: r, O => v :: r
  | x :: r, S n' => x :: upd r n' v
  end.

(** [l[i] = v] *)
Definition zset {A} (l : list A) (i : Z) (v : A) : outcome (list A) :=
  if (0 <=? i) && (i <? zlen l) then Ok (upd l (Z.to_nat i) v) else Panic.

(** Fixed-width conversions. *)
Definition u8 (x : Z) : Z := x mod 256.
Definition u16 (x : Z) : Z := x mod 65536.
Definition u24 (x : Z) : Z := x mod 16777216.
Definition u32 (x : Z) : Z := x mod 4294967296.
Definition u64 (x : Z) : Z := x mod 18446744073709551616.
(** [int8(x)] of a byte, [int32(x)] of a uint32. *)
Definition i8 (x : Z) : Z := if u8 x <? 128 then u8 x else u8 x - 256.
Definition i32 (x : Z) : Z := if u32 x <? 2147483648 then u32 x else u32 x - 4294967296.

Definition byte (x : Z) : Prop := 0 <= x < 256.
Definition bytes (l : list Z) : Prop := Forall byte l.

(** The lower-bound loop used all over the code base:
<<
  for minIndex < maxIndex {
    midIndex := (minIndex + maxIndex) >> 1
    if less(midIndex) { minIndex = midIndex + 1 } else { maxIndex = midIndex }
  }
>>
    [less] is the comparison of the element at an index with the target (it may
    panic). The interval halves every round, so 64 rounds suffice for every
    interval below 2^64; running out of rounds would show as [Hang]. *)
Fixpoint lower_bound_loop (fuel : nat) (less : Z -> outcome bool) (lo hi : Z) : outcome Z :=
  if lo <? hi then
    match fuel with
    | O => Hang
    | S fuel' =>
      let mid := Z.shiftr (lo + hi) 1 in
      do b <- less mid;
      if (b : bool) then lower_bound_loop fuel' less (mid + 1) hi
      else lower_bound_loop fuel' less lo mid
    end
  else Ok lo.

(** Left-to-right iteration of a step that can fail (a Go [for ... range] loop with
    early exit on error or panic). *)
Fixpoint ofold {A S} (f : S -> A -> outcome S) (l : list A) (s : S) : outcome S :=
  match l with
  | [] => Ok s
  | x :: r => do s' <- f s x; ofold f r s'
  end.

Fixpoint omap {A B} (f : A -> outcome B) (l : list A) : outcome (list B) :=
  match l with
  | [] => Ok []
  | x :: r => do y <- f x; do ys <- omap f r; Ok (y :: ys)
  end.

(** [0, 1, ..., n-1] as Z (loop counters). *)
Definition zseq (n : Z) : list Z := map Z.of_nat (seq 0 (Z.to_nat n)).
