(** What a rewrite tester should report for rules with sets and tails. *)
From Verif Require Import Base Spec_Layout Model_Font Model_Rewrites Model_Scanner Spec_Scanner Model_Tree Model_Tester Spec_Tree Spec_TreeSets Spec_Session.

(** A rule whose elements are sets: it replaces its body by its output where the body comes
    after its head and before its tail. *)
Record srule := mkSRule { q_cond : Z; q_head : list (Z -> Prop); q_body : list (Z -> Prop); q_tail : list (Z -> Prop); q_out : list Z }.
Definition q_pattern (r : srule) : list (Z -> Prop) := q_head r ++ q_body r ++ q_tail r.

(** Rules are known by their place in the list. *)
Fixpoint q_numbered (from : Z) (rules : list srule) : list (srule * Z) :=
  match rules with
  | [] => []
  | r :: rest => (r, from) :: q_numbered (from + 1) rest
  end.
Definition q_patterns (rules : list (srule * Z)) : list (list (Z -> Prop) * Z) := map (fun e => (q_pattern (fst e), snd e)) rules.
Definition q_all (rules : list srule) := q_patterns (q_numbered 0 rules).
(** those with the given condition *)
Definition q_group (c : Z) (rules : list srule) := q_patterns (filter (fun e => q_cond (fst e) =? c) (q_numbered 0 rules)).
(** The rule to apply: the longest pattern, the first among equally long ones. *)
Definition q_longest (rules : list srule) (input : list Z) (m : Z) : Prop := best_fit (q_all rules) input m.
(** What the testers choose: the same among the rules of each condition, and then the first. *)
Definition q_by_condition (rules : list srule) (input : list Z) (m : Z) : Prop :=
  (exists c, best_fit (q_group c rules) input m) /\ forall c m', best_fit (q_group c rules) input m' -> m <= m'.

(** Rewriting from left to right. An element where no rule applies is kept; otherwise head and
    tail of the rule are kept and its body replaced, and rewriting goes on behind the tail. *)
Definition elements_of (l : list (Z -> Prop)) (w : list Z) : Prop := Forall2 (fun (p : Z -> Prop) x => p x) l w.
Inductive q_rewriting (choose : list Z -> Z -> Prop) (rules : list srule) : list Z -> list Z -> Prop :=
| q_rewriting_end : q_rewriting choose rules [] []
| q_rewriting_keep x rest out : choose (x :: rest) 255 -> q_rewriting choose rules rest out -> q_rewriting choose rules (x :: rest) (x :: out)
| q_rewriting_apply m r h b t rest out : nth_error rules m = Some r ->
    elements_of (q_head r) h -> elements_of (q_body r) b -> elements_of (q_tail r) t -> choose (h ++ b ++ t ++ rest) (Z.of_nat m) ->
    q_rewriting choose rules rest out -> q_rewriting choose rules (h ++ b ++ t ++ rest) (h ++ q_out r ++ t ++ out).

(** No rule has a tail, or no rule has a head and tails have one element at most. *)
Definition tails_fit (rules : list srule) : Prop :=
  Forall (fun r => q_tail r = []) rules \/ Forall (fun r => q_head r = [] /\ zlen (q_tail r) <= 1) rules.
(** The rules with the same condition may be too many or too long for a tree. *)
Definition q_crowded (rules : list srule) : Prop := exists c, ~ within_limits (q_group c rules).
(** One font is used in the whole session. *)
Definition same_sets {R} (sets : set_reader) (js : list (job R)) : Prop :=
  Forall (fun j => match j with JResync e | JSequence e _ _ => e_sets e = sets | _ => True end) js.

(** A session with one font, and with rules that can be used together in each sequence *)
Definition q_usable (rule_of : list Z -> srule -> Prop) (sets : set_reader) (js : list (job srule)) : Prop :=
  all_legal rule_of new_session js /\ same_sets sets js /\ Forall (fun e => tails_fit (fst e)) (expected new_session js).

(** [t], laid out as the format says, is the rule [r]; [pat] tells which elements are meant. *)
Definition q_encodes (k : kind) (w : nat) (dec : Z -> Z) (pat : element -> Z -> Prop) (t : rewrite_rule) (r : srule) : Prop :=
  scannable k w dec t /\ rule_condition t = q_cond r /\
  q_head r = map pat (block_elements dec (rule_head t)) /\ q_body r = map pat (block_elements dec (rule_body t)) /\
  q_tail r = map pat (block_elements dec (rule_tail t)) /\ exists y, rule_out t = [y] /\ q_out r = [dec y].
(** A rule of a font, each of its elements being one of the ranges [R] *)
Definition glyph_rule_in (f : Font) (R : list (Z * Z)) (d : list Z) (r : srule) : Prop :=
  exists t, d = rule_bytes 2 t /\ q_encodes glyph_kind 2 (fun x => x) (element_pattern f) t r /\
    Forall (fun e => exists g, In g R /\ glyph_range f e g) (rule_elements (fun x => x) t).
Definition utf8_rule_in (f : Font) (d : list Z) (r : srule) : Prop :=
  exists t, d = rule_bytes 4 t /\ q_encodes utf8_kind 4 i32 (rune_pattern f) t r /\
    Forall (fun e => e <> Single 2147483647 /\ exists y, rune_element f e y) (rule_elements i32 t).
