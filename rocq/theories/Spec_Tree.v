(** What a decision tree should answer: among rules given as patterns (lists of elements) with
    their indices, the one to apply at the start of an input. *)
From Verif Require Import Base Spec_Layout.

Definition is_prefix (p l : list Z) : Prop := exists r, l = p ++ r.

(** [m] is the index of the rule with the longest pattern that is a prefix of the input, the
    first one among equally long ones, or 255 (no rule) if there is none. *)
Definition best_match (rules : list (list Z * Z)) (input : list Z) (m : Z) : Prop :=
  (m = 255 /\ forall xs r, In (xs, r) rules -> ~ is_prefix xs input) \/
  (exists before xs after, rules = before ++ (xs, m) :: after /\ is_prefix xs input /\
     (forall ys r, In (ys, r) rules -> is_prefix ys input -> (length ys <= length xs)%nat) /\
     (forall ys r, In (ys, r) before -> is_prefix ys input -> (length ys < length xs)%nat)).

(** Indices are handed out in increasing order and stay below 255. *)
Fixpoint increasing (from : Z) (l : list Z) : Prop :=
  match l with
  | [] => True
  | i :: r => from <= i < 255 /\ increasing (i + 1) r
  end.

(** The same for patterns whose elements are sets. *)
Definition fits (pattern : list (Z -> Prop)) (input : list Z) : Prop :=
  exists pre rest, input = pre ++ rest /\ Forall2 (fun (p : Z -> Prop) x => p x) pattern pre.
Definition best_fit (rules : list (list (Z -> Prop) * Z)) (input : list Z) (m : Z) : Prop :=
  (m = 255 /\ forall xs r, In (xs, r) rules -> ~ fits xs input) \/
  (exists before xs after, rules = before ++ (xs, m) :: after /\ fits xs input /\
     (forall ys r, In (ys, r) rules -> fits ys input -> (length ys <= length xs)%nat) /\
     (forall ys r, In (ys, r) before -> fits ys input -> (length ys < length xs)%nat)).

(** Rules that are certainly small enough for a decision tree, which has up to 254 states (a
    state for the root and one for every element of a pattern but its last) and up to 254
    transitions from each of them. *)
Definition steps {A} (rules : list (list A * Z)) : Z := fold_right (fun e n => zlen (fst e) - 1 + n) 0 rules.
Definition within_limits {A} (rules : list (list A * Z)) : Prop := 1 + steps rules <= 254 /\ zlen rules <= 254.

(** Sets that are one range, from [fst r] to [snd r]; ranges that do not overlap unless they are
    the same. *)
Definition one_range (st : rewrite_set) (r : Z * Z) : Prop :=
  set_ranges st = [(fst r, snd r - fst r)] /\ set_elements st = [] \/
  set_ranges st = [] /\ set_elements st = [fst r] /\ snd r = fst r.
Definition apart (l : list (Z * Z)) : Prop :=
  forall a b, In a l -> In b l -> a = b \/ snd a < fst b \/ snd b < fst a.
