(** What the rules given to a builder are meant to do. *)
From Verif Require Import Base Model_Builder Model_Tester Spec_Builder Spec_Rules Spec_Tester Spec_Session Spec_TesterSets.

(** rules without sets, without tail and with one output *)
Definition plain_rule (a : added) : Prop := ad_tail a = 0 /\ Forall (fun x => fst x = false) (ad_input a) /\ zlen (ad_out a) = 1.
(** [r] is the given rule, [elem] tells how what was given is known in the font *)
Definition meant (elem : Z -> Z -> Prop) (a : added) (r : rrule) : Prop :=
  r_cond r = 255 /\ zlen (r_head r) = ad_head a /\
  Forall2 (fun x y => elem (snd x) y) (ad_input a) (pattern r) /\ Forall2 elem (ad_out a) (r_out r).
(** All rules are added to a new tester, and a sequence is run in pieces. *)
Definition adding {R} (ds : list (list Z)) (rs : list R) : list (job R) := map (fun x => JAdd (fst x) (snd x)) (combine ds rs).
Definition one_sequence {R} (ds : list (list Z)) (rs : list R) (e : env) (pieces : list (list Z)) (last : list Z) : list (job R) :=
  adding ds rs ++ [JSequence e pieces last].
(** A tester takes 254 rules. *)
Definition taken {A} (l : list A) : list A := firstn (Z.to_nat 254) l.

(** ** Rules with sets and tails *)
(** The glyphs, by index, that are meant by an element of a rule: a glyph, or a set that is one
    range or one glyph. *)
Definition means_range (b : builder) (x : bool * Z) (r : Z * Z) : Prop :=
  if fst x
  then exists s, In (snd x, s) (b_glyphSets b) /\
    ((exists p, bs_ranges s = [p] /\ bs_list s = [] /\ indexed_as b (fst p) (fst r) /\ indexed_as b (snd p) (snd r)) \/
     (exists u, bs_ranges s = [] /\ bs_list s = [u] /\ indexed_as b u (fst r) /\ snd r = fst r))
  else indexed_as b (snd x) (fst r) /\ snd r = fst r.
(** [q] is the given rule *)
Definition meant_sets (b : builder) (a : added) (q : srule) : Prop :=
  q_cond q = 255 /\ zlen (q_head q) = ad_head a /\ zlen (q_tail q) = ad_tail a /\
  Forall2 (fun x (p : Z -> Prop) => exists r, means_range b x r /\ forall g, p g <-> fst r <= g <= snd r) (ad_input a) (q_pattern q) /\
  Forall2 (indexed_as b) (ad_out a) (q_out q).
(** Each element means one of the ranges [R]. *)
Definition within_ranges (b : builder) (R : list (Z * Z)) (a : added) : Prop :=
  zlen (ad_out a) = 1 /\ Forall (fun x => exists r, In r R /\ means_range b x r) (ad_input a).
(** no tails, or no heads and tails of one element at most *)
Definition short_tails (l : list added) : Prop :=
  Forall (fun a => ad_tail a = 0) l \/ Forall (fun a => ad_head a = 0 /\ ad_tail a <= 1) l.
