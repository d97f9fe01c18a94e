(** Theorem C09 (single-instance pool). *)
From Verif Require Import Base Model_Pool Proofs_Pool.

(** Any schedule of any number of goroutines: no panic, the outstanding pointers are
    pairwise distinct (a retrieved instance is held by nobody else), and the shared
    instance is owned at most once counting calls in flight. *)
Theorem C09_pool_safe : forall es,
  let p := fold_left pool_step es pool_init in
  panicked p = false /\ NoDup (held p) /\
  (length (filter is_shared (held p)) + length (filter owns_shared (calls p)) <= 1)%nat.
Proof. exact pool_safe. Qed.
Print Assumptions C09_pool_safe.

Theorem C09_pool_reuse : forall es,
  let p := fold_left pool_step es pool_init in
  calls p = [] -> ~ In Shared (held p) ->
  held (fold_left pool_step [CallRetrieve; Step 0; Step 0] p) = Shared :: held p.
Proof. exact pool_reuse. Qed.
Print Assumptions C09_pool_reuse.

(** Two overlapping retrievals, release of the shared instance, next retrieval. *)
Example C09_ex :
  let es := [CallRetrieve; CallRetrieve; Step 1; Step 0; Step 1; Step 0; CallRelease 1; Step 0; Step 0] in
  let p := fold_left pool_step es pool_init in
  held p = [Fresh 0] /\ calls p = [] /\
  held (fold_left pool_step [CallRetrieve; Step 0; Step 0] p) = [Shared; Fresh 0].
Proof. repeat split. Qed.
