(** Builders with edition data. *)
From Verif Require Import Base Spec_Edition Model_Builder Model_Edition.

(** the kerning of a pair, zero if it isn't there *)
Definition value_of (k : option kpair) : Z := match k with Some k => kp_Value k | None => 0 end.
(** pairs after reading the list [l]: the class listed, the old value; other pairs have no class *)
Definition paired (order : list Z) (l : list (Z * Z * Z)) (before after : list (Z * Z * kpair)) : Prop :=
  forall u v class, listed order l u v class -> m_get pair_eqb after (u, v) =
    match class with
    | Some c => Some (mkKPair c (value_of (m_get pair_eqb before (u, v))))
    | None => option_map (fun k => mkKPair 0 (kp_Value k)) (m_get pair_eqb before (u, v))
    end.
(** the builder after loading the edition data [e] *)
Definition edition_loaded (w : wk) (e : edition) (w' : wk) : Prop :=
  wk_categories w' = e_categories e /\ wk_classNames w' = map fst (e_classes e) /\ wk_conditionNames w' = e_conditions e /\
  exists horz vert, wk_b w' = with_classes (with_kerning (wk_b w) horz vert) (map snd (e_classes e)) /\
    paired (b_order (wk_b w)) (e_horz e) (b_horz (wk_b w)) horz /\ paired (b_order (wk_b w)) (e_vert e) (b_vert (wk_b w)) vert.
(** pairs after a failure: the old values, and possibly new pairs of glyphs of the font without kerning *)
Definition left_over (order : list Z) (before after : list (Z * Z * kpair)) : Prop := forall u v,
  match m_get pair_eqb before (u, v) with
  | Some k => m_get pair_eqb after (u, v) = Some (mkKPair 0 (kp_Value k))
  | None => m_get pair_eqb after (u, v) = None \/ m_get pair_eqb after (u, v) = Some (mkKPair 0 0) /\ In u order /\ In v order
  end.
(** the builder after a failure: no edition data *)
Definition edition_cleared (w w' : wk) : Prop :=
  wk_categories w' = [] /\ wk_classNames w' = [] /\ wk_conditionNames w' = map (fun _ => []) (wk_conditionNames w) /\
  exists horz vert, wk_b w' = with_classes (with_kerning (wk_b w) horz vert) [] /\
    left_over (b_order (wk_b w)) (b_horz (wk_b w)) horz /\ left_over (b_order (wk_b w)) (b_vert (wk_b w)) vert.
