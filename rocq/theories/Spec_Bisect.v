(** Which names a binary search with a given comparison finds. *)
From Verif Require Import Base.

(** The name [n] is of another length than [q] and nowhere larger, as far as both go. *)
Definition passes (n q : list Z) : Prop :=
  length n <> length q /\ forall i, (i < length n)%nat -> (i < length q)%nat -> nth i n 0 <= nth i q 0.
(** [m] is one of the positions at which a bisection of lo..hi that ends at [k] looks *)
Inductive probed (k : Z) : Z -> Z -> Z -> Prop :=
| Pr_middle lo hi : lo < hi -> probed k lo hi ((lo + hi) / 2)
| Pr_lower lo hi m : lo < hi -> k <= (lo + hi) / 2 -> probed k lo ((lo + hi) / 2) m -> probed k lo hi m
| Pr_upper lo hi m : lo < hi -> (lo + hi) / 2 < k -> probed k ((lo + hi) / 2 + 1) hi m -> probed k lo hi m.
