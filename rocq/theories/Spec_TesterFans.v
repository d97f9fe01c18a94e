(** What a rewrite tester should do with rules that have any sets, as long as no two rules with the
    same condition can start with the same element. *)
From Verif Require Import Base Spec_Layout Model_Font Model_Rewrites Model_Scanner Spec_Scanner Model_Tree Model_Tester Spec_Tree Spec_TreeSets Spec_Session Spec_TesterSets Spec_Fans.

Definition starts_with (r : srule) (x : Z) : Prop := exists p ps, q_pattern r = p :: ps /\ p x.
Definition starts_apart (rules : list srule) : Prop :=
  forall i j r r' x, i <> j -> nth_error rules i = Some r -> nth_error rules j = Some r' -> q_cond r = q_cond r' -> starts_with r x -> ~ starts_with r' x.
(** A session with one font, and with rules that can be used together *)
Definition fan_usable (rule_of : list Z -> srule -> Prop) (sets : set_reader) (js : list (job srule)) : Prop :=
  q_usable rule_of sets js /\ Forall starts_apart (compilations new_session js).

(** The rules with the same condition may be too many or too long for a tree: the ranges that make
    up their elements are counted, [R] telling which ranges are meant. *)
Definition made_up (R : Z * Z -> Prop) (p : Z -> Prop) (rs : list (Z * Z)) : Prop :=
  NoDup rs /\ Forall R rs /\ forall x, p x <-> exists r, In r rs /\ fst r <= x <= snd r.
Definition fan_crowded (R : Z * Z -> Prop) (rules : list srule) : Prop :=
  exists c members, Forall2 (fun e rss => Forall2 (made_up R) (fst e) rss) (q_group c rules) members /\ ~ fan_limits members.

(** A rule of a font, each of its elements consisting of some of the ranges [R] *)
Definition glyph_fan_rule (f : Font) (R : list (Z * Z)) (d : list Z) (r : srule) : Prop :=
  exists t, d = rule_bytes 2 t /\ q_encodes glyph_kind 2 (fun x => x) (element_pattern f) t r /\
    Forall (fun e => exists rs, glyph_members f e rs /\ incl rs R /\ NoDup rs) (rule_elements (fun x => x) t).
Definition utf8_fan_rule (f : Font) (d : list Z) (r : srule) : Prop :=
  exists t, d = rule_bytes 4 t /\ q_encodes utf8_kind 4 i32 (rune_pattern f) t r /\
    Forall (fun e => e <> Single 2147483647 /\ exists rs, rune_members f e rs /\ NoDup rs) (rule_elements i32 t).
Definition one_of (R : list (Z * Z)) (r : Z * Z) : Prop := In r R.
Definition one_rune (r : Z * Z) : Prop := fst r = snd r.
