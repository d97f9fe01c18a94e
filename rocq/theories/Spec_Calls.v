(** What calls that add mappings, kernings, sets and rules to a builder should do. *)
From Verif Require Import Base Spec_Helpers Model_Helpers Model_Builder Spec_Builder Spec_Rules.

Definition glyph_known (b : builder) (uid : Z) : Prop := In uid (map fst (b_glyphs b)).
Definition set_known (b : builder) (uid : Z) : Prop := In uid (map fst (b_glyphSets b)).
(** what is found for a code point, a pair of glyphs or a set *)
Definition mapping_at (b : builder) (cp : Z) : option mappingEntry := m_get Z.eqb (b_mapping b) cp.
Definition kerning_at (b : builder) (pair : Z * Z) : option kpair := m_get pair_eqb (b_horz b) pair.
Definition set_at (b : builder) (uid : Z) : option bset := m_get Z.eqb (b_glyphSets b) uid.
(** only the mapping of one code point changes *)
Definition maps (b : builder) (cp : Z) (e : mappingEntry) (b' : builder) : Prop :=
  mapping_at b' cp = Some e /\ (forall c, c <> cp -> mapping_at b' c = mapping_at b c) /\ b' = with_mapping b (b_mapping b').
(** only one set changes *)
Definition sets (b : builder) (uid : Z) (s : bset) (b' : builder) : Prop :=
  set_at b' uid = Some s /\ (forall u, u <> uid -> set_at b' u = set_at b u) /\ b' = with_glyphSets b (b_glyphSets b') (b_setsOrder b').

(** ** Switches *)
Definition switch_at (b : builder) (k : Z) : option (list Z) := if k <? 0 then None else nth_error (b_switches b) (Z.to_nat k).
Definition options_of (b : builder) (s : Z) : Z := zlen (snd (nth (Z.to_nat s) (b_settings b) ([], []))).
(** the number of combinations of the options *)
Definition combinations (b : builder) (sw : list Z) : Z := fold_right Z.mul 1 (map (options_of b) sw).
(** [k] is a switch that has [n] cases *)
Definition switch_cases (b : builder) (k n : Z) : Prop :=
  k < 254 /\ exists sw, switch_at b k = Some sw /\ Forall (fun s => options_of b s <> 0) sw /\ n = combinations b sw.
(** [k] stands for no switch, or has a setting without options *)
Definition switch_unusable (b : builder) (k : Z) : Prop :=
  254 <= k \/ exists sw s, switch_at b k = Some sw /\ In s sw /\ options_of b s = 0.
(** the number of groups that need flags *)
Definition multiple (groups : list (list Z)) : Z := zlen (filter (fun g => 2 <=? zlen g) groups).
(** an empty group comes before the flags run out *)
Definition first_empty (groups : list (list Z)) (flags : list Z) : Prop :=
  exists pre post, groups = pre ++ [] :: post /\ Forall (fun g => g <> []) pre /\ multiple pre <= zlen flags.

(** ** Rules *)
Definition rule_acceptable (b : builder) (head body tail : Z) (input out : list Z) : Prop :=
  head + body + tail = zlen input /\ zlen input <= 255 /\ Forall (glyph_known b) out /\
  Forall (fun u => glyph_known b u \/ set_known b u) input.
(** [r] is the rule that was given; an element that is both a glyph and a set is the glyph *)
Definition is_rule (b : builder) (head body tail : Z) (input out : list Z) (r : brule) : Prop :=
  br_condition r = 255 /\ br_headLen r = head /\ br_bodyLen r = body /\ br_tailLen r = tail /\ br_output r = out /\
  exists inp : list (bool * Z), rule_input r inp /\ map snd inp = input /\
    Forall (fun x : bool * Z => if fst x then ~ glyph_known b (snd x) /\ set_known b (snd x) else glyph_known b (snd x)) inp.
