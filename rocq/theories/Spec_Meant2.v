(** What the rules given to a builder are meant to do, with any sets. *)
From Verif Require Import Base Model_Builder Model_Tester Spec_Builder Spec_Rules Spec_TesterSets.

(** The glyphs, by index, that are meant by an element of a rule: a glyph, or the ranges and the
    single glyphs of a set. *)
Definition means_ranges (b : builder) (x : bool * Z) (rs : list (Z * Z)) : Prop :=
  if fst x
  then exists s ranges singles, In (snd x, s) (b_glyphSets b) /\ rs = ranges ++ singles /\
    Forall2 (fun (p r : Z * Z) => indexed_as b (fst p) (fst r) /\ indexed_as b (snd p) (snd r)) (bs_ranges s) ranges /\
    Forall2 (fun u (r : Z * Z) => indexed_as b u (fst r) /\ snd r = fst r) (bs_list s) singles
  else exists i, indexed_as b (snd x) i /\ rs = [(i, i)].
Definition within_one (rs : list (Z * Z)) (g : Z) : Prop := exists r, In r rs /\ fst r <= g <= snd r.
(** [q] is the given rule *)
Definition meant_any (b : builder) (a : added) (q : srule) : Prop :=
  q_cond q = 255 /\ zlen (q_head q) = ad_head a /\ zlen (q_tail q) = ad_tail a /\
  Forall2 (fun x (p : Z -> Prop) => exists rs, means_ranges b x rs /\ forall g, p g <-> within_one rs g) (ad_input a) (q_pattern q) /\
  Forall2 (indexed_as b) (ad_out a) (q_out q).
(** Each element means some of the ranges [R], each once. *)
Definition of_ranges (b : builder) (R : list (Z * Z)) (a : added) : Prop :=
  zlen (ad_out a) = 1 /\ Forall (fun x => exists rs, means_ranges b x rs /\ rs <> [] /\ incl rs R /\ NoDup rs) (ad_input a).
(** No two rules have a glyph in common in their first elements. *)
Definition begin_apart (b : builder) (l : list added) : Prop :=
  forall i j a a' x x' rest rest' rs rs' g, i <> j -> nth_error l i = Some a -> nth_error l j = Some a' -> ad_input a = x :: rest -> ad_input a' = x' :: rest' ->
    means_ranges b x rs -> means_ranges b x' rs' -> within_one rs g -> ~ within_one rs' g.
