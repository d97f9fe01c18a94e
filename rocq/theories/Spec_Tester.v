(** What a rewrite tester should report: the rewriting of its input. *)
From Verif Require Import Base Spec_Tree.

(** A rule without sets and without tail: it replaces its body by its output where the body
    comes after its head. *)
Record rrule := mkRule { r_cond : Z; r_head : list Z; r_body : list Z; r_out : list Z }.
Definition pattern (r : rrule) : list Z := r_head r ++ r_body r.

(** Rules are known by their place in the list. *)
Fixpoint numbered (from : Z) (rules : list rrule) : list (rrule * Z) :=
  match rules with
  | [] => []
  | r :: rest => (r, from) :: numbered (from + 1) rest
  end.
Definition patterns (rules : list (rrule * Z)) : list (list Z * Z) := map (fun e => (pattern (fst e), snd e)) rules.
Definition all_rules (rules : list rrule) := patterns (numbered 0 rules).
(** those with the given condition *)
Definition group (c : Z) (rules : list rrule) := patterns (filter (fun e => r_cond (fst e) =? c) (numbered 0 rules)).

(** The rule to apply: the longest pattern, the first among equally long ones. *)
Definition longest (rules : list rrule) (input : list Z) (m : Z) : Prop := best_match (all_rules rules) input m.
(** What the testers choose: the same among the rules of each condition, and then the first. *)
Definition by_condition (rules : list rrule) (input : list Z) (m : Z) : Prop :=
  (exists c, best_match (group c rules) input m) /\ forall c m', best_match (group c rules) input m' -> m <= m'.

(** Rewriting from left to right, with a way to choose the rule to apply at the start of an
    input (255 for none). An element where no rule applies is kept; otherwise the head of the
    rule is kept and its body replaced, and rewriting goes on behind it. *)
Inductive rewriting (choose : list Z -> Z -> Prop) (rules : list rrule) : list Z -> list Z -> Prop :=
| rewriting_end : rewriting choose rules [] []
| rewriting_keep x rest out : choose (x :: rest) 255 -> rewriting choose rules rest out -> rewriting choose rules (x :: rest) (x :: out)
| rewriting_apply m r rest out : nth_error rules m = Some r -> choose (pattern r ++ rest) (Z.of_nat m) ->
    rewriting choose rules rest out -> rewriting choose rules (pattern r ++ rest) (r_head r ++ r_out r ++ out).

(** The weakest reading: the output is the input with some occurrences of bodies replaced by
    their outputs. Rules are given as body and output, and may have heads and tails. *)
Inductive replaced (rules : list (list Z * list Z)) : list Z -> list Z -> Prop :=
| replaced_end : replaced rules [] []
| replaced_keep x rest out : replaced rules rest out -> replaced rules (x :: rest) (x :: out)
| replaced_apply body o rest out : In (body, o) rules -> replaced rules rest out -> replaced rules (body ++ rest) (o ++ out).
