(** Model of /repo/internal/single_instance_pool.go under any number of goroutines. *)
From Verif Require Import Base.

(** A pointer returned by Retrieve: the pool's own instance or a fresh allocation. *)
Inductive inst := Shared | Fresh (n : nat).

Definition inst_eqb (a b : inst) : bool :=
  match a, b with
  | Shared, Shared => true
  | Fresh n, Fresh m => Nat.eqb n m
  | _, _ => false
  end.

(** Control points of a call in flight. Only the two compare-and-swaps (lines 18 and 28 of
    single_instance_pool.go) touch shared memory; they are atomic. *)
Inductive call :=
| InRetrieve                 (* before CompareAndSwap(&inUse, 0, 1), line 18 *)
| GotShared                  (* about to return &self.instance, line 19 *)
| NeedAlloc                  (* about to allocate and return, lines 21-22 *)
| InRelease (i : inst)       (* before the pointer comparison, line 27 *)
| RelCAS.                    (* before CompareAndSwap(&inUse, 1, 0), line 28 *)

Record pool := mkPool {
  inUse : Z;
  nextFresh : nat;      (* allocation counter: fresh pointers are new *)
  held : list inst;     (* pointers handed out and not yet passed to Release *)
  calls : list call;    (* calls in flight, one per goroutine *)
  panicked : bool       (* the panic of line 29 happened *)
}.

Definition pool_init : pool := mkPool 0 0 [] [] false.

Definition remove_at {A} (l : list A) (k : nat) : list A := firstn k l ++ skipn (S k) l.

(** What the scheduler and the callers can do next: start a Retrieve, start a Release of
    the k-th outstanding pointer (so each retrieval is released at most once), or let the
    k-th call in flight take one atomic step. *)
Inductive pool_event :=
| CallRetrieve
| CallRelease (k : nat)
| Step (k : nat).

(** single_instance_pool.go:17-32, one atomic step *)
Definition step_call (p : pool) (k : nat) (c : call) : pool :=
  let rest := remove_at (calls p) k in
  match c with
  | InRetrieve =>
    if inUse p =? 0 then mkPool 1 (nextFresh p) (held p) (upd (calls p) k GotShared) (panicked p)
    else mkPool (inUse p) (nextFresh p) (held p) (upd (calls p) k NeedAlloc) (panicked p)
  | GotShared => mkPool (inUse p) (nextFresh p) (Shared :: held p) rest (panicked p)
  | NeedAlloc => mkPool (inUse p) (S (nextFresh p)) (Fresh (nextFresh p) :: held p) rest (panicked p)
  | InRelease i =>
    if inst_eqb i Shared then mkPool (inUse p) (nextFresh p) (held p) (upd (calls p) k RelCAS) (panicked p)
    else mkPool (inUse p) (nextFresh p) (held p) rest (panicked p)
  | RelCAS =>
    if inUse p =? 1 then mkPool 0 (nextFresh p) (held p) rest (panicked p)
    else mkPool (inUse p) (nextFresh p) (held p) rest true
  end.

Definition pool_step (p : pool) (e : pool_event) : pool :=
  match e with
  | CallRetrieve => mkPool (inUse p) (nextFresh p) (held p) (InRetrieve :: calls p) (panicked p)
  | CallRelease k =>
    match nth_error (held p) k with
    | None => p
    | Some i => mkPool (inUse p) (nextFresh p) (remove_at (held p) k) (InRelease i :: calls p) (panicked p)
    end
  | Step k =>
    match nth_error (calls p) k with None => p | Some c => step_call p k c end
  end.
