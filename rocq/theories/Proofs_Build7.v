(** What holds of a builder after any history of calls. *)
From Coq Require Import Permutation.
From Verif Require Import Base BaseFacts Spec_Helpers Model_Helpers Proofs_Helpers Spec_Names Model_Names Proofs_Names Model_Date
  Model_Mask Spec_Mask Model_Font Model_Words Model_Parse Spec_Format Proofs_Format Spec_Layout Spec_LayoutFont
  Model_Builder Spec_Builder Proofs_Builder Proofs_Build Proofs_Build2 Proofs_Build3 Proofs_Build4 Proofs_Build5 Proofs_Build6.

(** ** The groups of fields *)
Definition metrics_typed (m : bmetrics) : Prop :=
  bytes [bm_mono m; bm_ascent m; bm_extraAscent m; bm_descent m; bm_extraDescent m; bm_uppercase m; bm_midline m; bm_horz m;
         bm_vertSpacing m; bm_lineGap m; bm_vertLineWidth m; bm_vertLineGap m].
Definition header_typed (h : bheader) : Prop :=
  0 <= bh_major h < 65536 /\ 0 <= bh_minor h < 65536 /\ date_typed (bh_firstDate h) /\ date_typed (bh_majorDate h) /\ date_typed (bh_minorDate h) /\
  bytes (bh_name h) /\ bytes (bh_family h) /\ bytes (bh_author h) /\ bytes (bh_about h).
Definition glyph_fine (gd : glyphData) : Prop :=
  alpha_ok (gd_Mask gd) /\ int_rect (Rect (gd_Mask gd)) /\ (gd_Name gd = [] \/ (loose_name (gd_Name gd) /\ bytes (gd_Name gd))) /\ placement_typed (gd_Placement gd).
Definition glyphs_fine (b : builder) : Prop :=
  NoDup (map fst (b_glyphs b)) /\ b_order b = map fst (b_glyphs b) /\
  forall uid gd, In (uid, gd) (b_glyphs b) -> glyph_fine gd.
Definition mapping_fine (b : builder) : Prop :=
  NoDup (map fst (b_mapping b)) /\
  forall cp e, In (cp, e) (b_mapping b) -> 32 <= cp < 2 ^ 31 /\ byte (me_Switch e) /\ Forall (fun g => byte (mg_Flags g)) (me_Cases e).
Definition sets_fine (b : builder) : Prop :=
  NoDup (map fst (b_glyphSets b)) /\ incl (map fst (b_glyphSets b)) (b_setsOrder b).
Definition rules_fine (b : builder) : Prop := Forall rule_fine (b_glyphRules b) /\ Forall rule_fine (b_utf8Rules b).
Definition kerning_fine (b : builder) : Prop :=
  NoDup (map fst (b_horz b)) /\ forall p k, In (p, k) (b_horz b) -> kp_Class k = 0 /\ -128 <= kp_Value k < 128.
Definition never_filled (b : builder) : Prop :=
  b_conditions b = [] /\ b_runeSets b = None /\ b_vert b = [] /\ b_classes b = [].
Record fine (b : builder) : Prop := {
  fn_metrics : metrics_typed (b_metrics b); fn_header : header_typed (b_header b); fn_glyphs : glyphs_fine b;
  fn_mapping : mapping_fine b; fn_sets : sets_fine b; fn_rules : rules_fine b; fn_kerning : kerning_fine b;
  fn_never : never_filled b }.

(** ** Calls that leave a group of fields alone *)
Ltac frame op := destruct op; try exact I; cbn [bstep]; try (unfold_ops; cbv zeta; repeat split_if; reflexivity);
  match goal with |- context [Build ?o ?sort ?b] => destruct (build_builder o sort b) as [->|(_ & _ & ->)]; reflexivity end.
Lemma frame_metrics b op : match op with OSetMetric _ _ | OSetVertLayoutUsed _ => True | _ => b_metrics (bstep b op) = b_metrics b end.
Proof. frame op. Qed.
Lemma frame_header b op : match op with OSetFirstVerDate _ | OSetMajorVerDate _ | OSetMinorVerDate _ | ORaiseMajorVersion _ | ORaiseMinorVersion _
    | OSetVersion _ _ _ | OSetName _ | OSetFamily _ | OSetAuthor _ | OSetAbout _ => True | _ => b_header (bstep b op) = b_header b end.
Proof. frame op. Qed.
Lemma frame_glyphs b op : match op with OAddGlyph _ _ | OSetGlyphPlacement _ _ | OSetGlyphName _ _ => True
  | _ => (b_order (bstep b op), b_glyphs (bstep b op)) = (b_order b, b_glyphs b) end.
Proof. frame op. Qed.
Lemma frame_mapping b op : match op with OMap _ _ | OMapGroup _ _ _ | OMapWithSwitchSingles _ _ _ | OMapWithSwitch _ _ _ _ => True
  | _ => b_mapping (bstep b op) = b_mapping b end.
Proof. frame op. Qed.
Lemma frame_sets b op : match op with OCreateGlyphSet _ | ORemoveGlyphSet _ | OAddGlyphSetRange _ _ _ | ORemoveGlyphSetRange _ _ _
    | OAddGlyphSetListGlyph _ _ | ORemoveGlyphSetListGlyph _ _ => True
  | _ => (b_glyphSets (bstep b op), b_setsOrder (bstep b op)) = (b_glyphSets b, b_setsOrder b) end.
Proof. frame op. Qed.
Lemma frame_rules b op : match op with OAddSimpleUtf8RewriteRule _ _ | OAddGlyphRewriteRule _ _ _ _ _ => True
  | _ => (b_glyphRules (bstep b op), b_utf8Rules (bstep b op)) = (b_glyphRules b, b_utf8Rules b) end.
Proof. frame op. Qed.
Lemma frame_kerning b op : match op with OSetKerningPair _ _ _ => True | _ => b_horz (bstep b op) = b_horz b end.
Proof. frame op. Qed.
Lemma never_step b op : never_filled b -> never_filled (bstep b op).
Proof.
  intros (A & B & C & D).
  assert (X : b_conditions (bstep b op) = b_conditions b /\ b_vert (bstep b op) = b_vert b /\ b_classes (bstep b op) = b_classes b).
  { destruct op; cbn [bstep]; try (unfold_ops; cbv zeta; repeat split; repeat split_if; reflexivity);
    destruct (build_builder o sort b) as [->|(_ & _ & ->)]; repeat split. }
  assert (Y : b_runeSets (bstep b op) = None).
  { destruct op; cbn [bstep]; unfold_ops; unfold rune_sets; rewrite ?B; cbv zeta; cbn [m_has m_get fst]; try (repeat split_if; exact B);
    destruct (build_builder o sort b) as [->|(_ & _ & ->)]; exact B. }
  destruct X as (X1 & X2 & X3). unfold never_filled. rewrite X1, X2, X3. auto.
Qed.

Lemma metrics_step b op : op_typed op -> metrics_typed (b_metrics b) -> metrics_typed (b_metrics (bstep b op)).
Proof.
  intros T H. pose proof (frame_metrics b op) as F. destruct op; try (rewrite F; exact H); cbn [bstep op_typed] in *.
  - unfold SetMetric. cbv zeta.
    assert (S1 : metrics_typed (set_metric (b_metrics b) k v)).
    { unfold metrics_typed, bytes in *. rewrite Forall_forall in *. intros x Hx. destruct k; cbn in Hx; repeat (destruct Hx as [<-|Hx]; [first [exact T|apply H; cbn; tauto]|]); destruct Hx. }
    repeat split_if; assumption.
  - exact H.
Qed.
Lemma header_step b op : op_typed op -> header_typed (b_header b) -> header_typed (b_header (bstep b op)).
Proof.
  intros T H. pose proof (frame_header b op) as F. destruct op; try (rewrite F; exact H); clear F; cbn [bstep op_typed] in *;
    unfold SetFirstVerDate, SetMajorVerDate, SetMinorVerDate, set_date, RaiseMajorVersion, RaiseMinorVersion, SetVersion,
      SetName, SetFamily, SetAuthor, SetAbout, set_text, u16; cbv zeta; repeat split_if; try exact H;
    destruct H as (H1 & H2 & H3 & H4 & H5 & H6 & H7 & H8 & H9); unfold header_typed; cbn; 
    repeat (split; [first [assumption|lia|tauto]|]); try assumption; try tauto.
Qed.

Lemma glyphs_step b op : op_typed op -> metrics_typed (b_metrics b) -> glyphs_fine b -> glyphs_fine (bstep b op).
Proof.
  intros T HM (H1 & H2 & H3). pose proof (frame_glyphs b op) as F.
  destruct op; try (apply pair_equal_spec in F; destruct F as [F1 F2]; unfold glyphs_fine; rewrite F1, F2; exact (conj H1 (conj H2 H3))); cbn [bstep op_typed] in *.
  - unfold AddGlyph. cbv zeta. assert (G0 : glyphs_fine b) by exact (conj H1 (conj H2 H3)).
    destruct (_ >=? MaxGlyphs); [exact G0|]. destruct (ComputeRect mask) as [r| | |]; [|exact G0..].
    destruct (_ && _); [exact G0|]. destruct (_ && _); [exact G0|]. destruct (_ && _); [exact G0|].
    destruct (fresh_uid 4 (m_has Z.eqb (b_glyphs b)) random) as [uid| | |] eqn:E; [|exact G0..].
    assert (N : m_has Z.eqb (b_glyphs b) uid = false).
    { revert E. generalize 4%nat. clear. intros n. revert random. induction n as [|n IH]; intros [|u r]; cbn [fresh_uid]; try discriminate.
      destruct (m_has Z.eqb (b_glyphs b) u) eqn:M; cbn [negb andb]; [apply IH|]. destruct (negb (u =? GlyphMissing)); [|apply IH]. intros H. inversion H. subst. exact M. }
    unfold glyphs_fine. cbn [fst with_glyphs b_glyphs b_order]. split; [apply m_set_nodup; [exact Z.eqb_eq|exact H1]|].
    rewrite (m_set_keys _ Z.eqb_eq), N. split; [rewrite H2; reflexivity|]. intros uid' gd' I1. apply m_set_in in I1.
    destruct I1 as [I1|I1]; [|exact (H3 _ _ I1)]. inversion I1. subst. destruct T as (T1 & T2 & _). unfold glyph_fine. cbn.
    split; [exact T1|]. split; [exact T2|]. split; [left; reflexivity|]. unfold metrics_typed, bytes in HM. rewrite Forall_forall in HM.
    repeat split; cbn; try apply u8_byte; apply HM; cbn; tauto.
  - unfold SetGlyphPlacement. destruct (m_get Z.eqb (b_glyphs b) uid) as [gd|] eqn:E; [|exact (conj H1 (conj H2 H3))].
    apply (m_get_in _ Z.eqb_eq) in E as E'. assert (M : m_has Z.eqb (b_glyphs b) uid = true) by (unfold m_has; rewrite E; reflexivity).
    unfold glyphs_fine. cbn [fst with_glyphs b_glyphs b_order]. split; [apply m_set_nodup; [exact Z.eqb_eq|exact H1]|].
    rewrite (m_set_keys _ Z.eqb_eq), M. split; [exact H2|]. intros uid' gd' I1. apply m_set_in in I1.
    destruct I1 as [I1|I1]; [|exact (H3 _ _ I1)]. inversion I1. subst. destruct (H3 _ _ E') as (A & B & C & _). unfold glyph_fine. cbn. tauto.
  - unfold SetGlyphName. destruct (m_get Z.eqb (b_glyphs b) uid) as [gd|] eqn:E; [|exact (conj H1 (conj H2 H3))].
    destruct (ValidateBasicName name) as [[]| | |] eqn:V; [|exact (conj H1 (conj H2 H3))..]. apply validate_loose in V.
    apply (m_get_in _ Z.eqb_eq) in E as E'. assert (M : m_has Z.eqb (b_glyphs b) uid = true) by (unfold m_has; rewrite E; reflexivity).
    unfold glyphs_fine. cbn [fst with_glyphs b_glyphs b_order]. split; [apply m_set_nodup; [exact Z.eqb_eq|exact H1]|].
    rewrite (m_set_keys _ Z.eqb_eq), M. split; [exact H2|]. intros uid' gd' I1. apply m_set_in in I1.
    destruct I1 as [I1|I1]; [|exact (H3 _ _ I1)]. inversion I1. subst. destruct (H3 _ _ E') as (A & B & C & D). unfold glyph_fine. cbn. tauto.
Qed.

Lemma mapping_put b cp e : mapping_fine b -> 32 <= cp -> int32 cp -> byte (me_Switch e) -> Forall (fun g => byte (mg_Flags g)) (me_Cases e) ->
  mapping_fine (with_mapping b (m_set Z.eqb (b_mapping b) cp e)).
Proof.
  intros [H1 H2] L T S F. unfold int32 in T. split; cbn [with_mapping b_mapping]; [apply m_set_nodup; [exact Z.eqb_eq|exact H1]|].
  intros cp' e' I1. apply m_set_in in I1. destruct I1 as [I1|I1]; [|exact (H2 _ _ I1)]. inversion I1. subst. split; [lia|]. auto.
Qed.
Lemma switch_cases_flags fl : bytes fl -> forall groups cases i cs j, Forall (fun g => byte (mg_Flags g)) cases ->
  ofold (fun '(cases, i) group => do f <- zget fl i; Ok (cases ++ [mkMapGroup group f], i + 1)) groups (cases, i) = Ok (cs, j) ->
  Forall (fun g => byte (mg_Flags g)) cs.
Proof.
  intros B. induction groups as [|g r IH]; intros cases i cs j F; cbn [ofold]; [intros H; inversion H; subst; exact F|].
  intros H. apply bind_ok_inv in H. destruct H as ([cs1 i1] & E & H). apply bind_ok_inv in E. destruct E as (f & E & E'). inversion E'. subst.
  apply IH in H; [exact H|]. apply Forall_app. split; [exact F|]. constructor; [|constructor]. cbn. apply zget_in in E. unfold bytes in B. rewrite Forall_forall in B. auto.
Qed.
Lemma anim_flags_bytes groups : forall fl r, bytes fl -> group_anim_flags groups fl = Ok r -> bytes r.
Proof.
  induction groups as [|g t IH]; intros fl r B; cbn [group_anim_flags]; [destruct fl; intros H; inversion H; constructor|].
  destruct (_ =? 0); [discriminate|]. destruct (_ =? 1); [apply IH; exact B|]. destruct fl as [|f fs]; [discriminate|].
  intros H. apply bind_ok_inv in H. destruct H as (rest & E & H). inversion H. unfold bytes in *. constructor; [exact (Forall_inv B)|]. apply (IH fs); [exact (Forall_inv_tail B)|exact E].
Qed.
Lemma mapping_step b op : op_typed op -> mapping_fine b -> mapping_fine (bstep b op).
Proof.
  intros T H. pose proof (frame_mapping b op) as F.
  destruct op; try (unfold mapping_fine; rewrite F; exact H); clear F; cbn [bstep op_typed] in *.
  - unfold Map. destruct (Z.ltb_spec codePoint 32); [exact H|]. destruct (negb _); [exact H|].
    apply mapping_put; [exact H|lia|tauto|unfold byte; cbn; lia|]. constructor; [unfold byte; cbn; lia|constructor].
  - unfold MapGroup. destruct (Z.ltb_spec codePoint 32); [exact H|]. do 3 (destruct (_ : bool) in |- *; [exact H|]).
    apply mapping_put; [exact H|lia|tauto|unfold byte; cbn; lia|]. constructor; [tauto|constructor].
  - unfold MapWithSwitchSingles. destruct (Z.ltb_spec codePoint 32); [exact H|]. destruct (_ >=? 254); [exact H|]. destruct (_ >=? _); [exact H|].
    destruct (computeNumSwitchCases b switch); [|exact H..]. destruct (negb _); [exact H|].
    apply mapping_put; [exact H|lia|tauto|cbn; tauto|]. cbn. apply Forall_forall. intros g I1. apply in_map_iff in I1. destruct I1 as (u & <- & _). unfold byte. cbn. lia.
  - unfold MapWithSwitch. destruct (Z.ltb_spec codePoint 32); [exact H|]. destruct (_ >=? 254); [exact H|]. destruct (_ >=? _); [exact H|]. cbv zeta.
    match goal with |- mapping_fine (fst (match ?c with _ => _ end)) => destruct c as [cs| | |] eqn:E end; [|exact H..].
    apply mapping_put; [exact H|lia|tauto|cbn; tauto|]. cbn [me_Cases].
    apply bind_ok_inv in E. destruct E as (n & _ & E). destruct (negb _) in E; [discriminate|]. apply bind_ok_inv in E. destruct E as (fl & E1 & E).
    apply bind_ok_inv in E. destruct E as ([cs' j] & E2 & E). inversion E. subst cs'. 
    apply anim_flags_bytes in E1; [|tauto]. apply (switch_cases_flags fl E1 _ [] 0 cs j) in E2; [exact E2|constructor].
Qed.

Lemma sets_put b uid s : sets_fine b -> In uid (b_setsOrder b) -> sets_fine (with_glyphSets b (m_set Z.eqb (b_glyphSets b) uid s) (b_setsOrder b)).
Proof.
  intros [H1 H2] I1. split; cbn [with_glyphSets b_glyphSets b_setsOrder]; [apply m_set_nodup; [exact Z.eqb_eq|exact H1]|].
  rewrite (m_set_keys _ Z.eqb_eq). destruct (m_has _ _ _); [exact H2|]. apply incl_app; [exact H2|]. intros x [<-|[]]. exact I1.
Qed.
Lemma sets_step b op : sets_fine b -> sets_fine (bstep b op).
Proof.
  intros H. pose proof (frame_sets b op) as F.
  destruct op; try (apply pair_equal_spec in F; destruct F as [F1 F2]; unfold sets_fine; rewrite F1, F2; exact H); clear F; cbn [bstep].
  - unfold CreateGlyphSet. destruct (_ >=? 255); [exact H|]. destruct random as [|uid r]; [exact H|]. destruct (m_has Z.eqb (b_glyphSets b) uid) eqn:M; [exact H|].
    destruct H as [H1 H2]. split; cbn [fst with_glyphSets b_glyphSets b_setsOrder]; [apply m_set_nodup; [exact Z.eqb_eq|exact H1]|].
    rewrite (m_set_keys _ Z.eqb_eq), M. apply incl_app; [apply incl_appl; exact H2|apply incl_appr; apply incl_refl].
  - unfold RemoveGlyphSet. destruct (m_has _ _ _); [|exact H]. destruct H as [H1 H2].
    split; cbn [fst with_glyphSets b_glyphSets b_setsOrder]; [apply m_del_nodup; exact H1|]. intros x I1. apply H2. unfold m_del in I1.
    apply in_map_iff in I1. destruct I1 as (y & <- & I1). apply filter_In in I1. apply in_map. tauto.
  - unfold AddGlyphSetRange. destruct (m_get Z.eqb (b_glyphSets b) uid) as [s|] eqn:E; [|exact H]. repeat split_if; try exact H; cbn [fst]; apply sets_put; try exact H;
      apply (proj2 H), in_map_iff; exists (uid, s); split; [reflexivity|apply (m_get_in _ Z.eqb_eq); exact E].
  - unfold RemoveGlyphSetRange. destruct (m_get Z.eqb (b_glyphSets b) uid) as [s|] eqn:E; [|exact H]. repeat split_if; try exact H; cbn [fst]; apply sets_put; try exact H;
      apply (proj2 H), in_map_iff; exists (uid, s); split; [reflexivity|apply (m_get_in _ Z.eqb_eq); exact E].
  - unfold AddGlyphSetListGlyph. destruct (m_get Z.eqb (b_glyphSets b) uid) as [s|] eqn:E; [|exact H]. repeat split_if; try exact H; cbn [fst]; apply sets_put; try exact H;
      apply (proj2 H), in_map_iff; exists (uid, s); split; [reflexivity|apply (m_get_in _ Z.eqb_eq); exact E].
  - unfold RemoveGlyphSetListGlyph. destruct (m_get Z.eqb (b_glyphSets b) uid) as [s|] eqn:E; [|exact H]. repeat split_if; try exact H; cbn [fst]; apply sets_put; try exact H;
      apply (proj2 H), in_map_iff; exists (uid, s); split; [reflexivity|apply (m_get_in _ Z.eqb_eq); exact E].
Qed.

Lemma kerning_step b op : op_typed op -> kerning_fine b -> kerning_fine (bstep b op).
Proof.
  intros T H. pose proof (frame_kerning b op) as F. destruct op; try (unfold kerning_fine; rewrite F; exact H); clear F; cbn [bstep op_typed] in *.
  unfold SetKerningPair. destruct H as [H1 H2]. destruct (kerning =? 0).
  - split; cbn [with_kerning b_horz]; [apply m_del_nodup; exact H1|]. intros p k I1. unfold m_del in I1. apply filter_In in I1. apply (H2 p k). tauto.
  - split; cbn [with_kerning b_horz]; [apply m_set_nodup; [exact pair_eqb_true|exact H1]|]. intros p k I1. apply m_set_in in I1.
    destruct I1 as [I1|I1]; [|exact (H2 _ _ I1)]. inversion I1. cbn. split; [reflexivity|tauto].
Qed.

(** ** Rules *)
Definition collected (bl : BoolList) (input : list (bool * Z)) (es gs : list Z) : Prop :=
  bl_ref bl (map fst input) /\ es = elements input /\ gs = sets_of input.
Lemma collected_push bl input es gs k x bl' : collected bl input es gs -> bl_Push bl k = Ok bl' ->
  collected bl' (input ++ [(k, x)]) (if k then es else es ++ [x]) (if k then gs ++ [x] else gs).
Proof.
  intros (H1 & -> & ->) E. destruct (bl_push_ref _ _ k H1) as (bl2 & E2 & R). rewrite E2 in E. inversion E. subst bl2.
  unfold collected. rewrite map_app, elements_app, sets_of_app. split; [exact R|]. destruct k; cbn; rewrite ?app_nil_r; auto.
Qed.
Lemma collected_rule bl input es gs c h bo t out : collected bl input es gs -> rule_input (mkBRule c h bo t bl es gs out) input.
Proof.
  intros (H1 & -> & ->). split; [reflexivity|]. split; [reflexivity|]. cbn [br_areGroups]. intros i g x E.
  rewrite (bl_get_ref _ _ _ H1). pose proof (zget_ok_range _ _ _ E) as R. rewrite zlen_map. destruct (Z.leb_spec 0 i); [|lia]. destruct (Z.ltb_spec i (zlen input)); [|lia]. cbn [andb].
  f_equal. unfold zget in E. destruct (Z.ltb_spec i 0); [lia|]. destruct (nth_error input (Z.to_nat i)) as [y|] eqn:N; [|discriminate]. inversion E. subst y.
  apply (nth_error_nth _ _ false). rewrite nth_error_map, N. reflexivity.
Qed.
Lemma collected_nil : collected (mkBoolList 0 []) [] [] [].
Proof. split; [exact (bl_new_ref 0)|auto]. Qed.
Lemma glyph_input_collected b input : forall bl0 inp0 es0 gs0 bl es gs, collected bl0 inp0 es0 gs0 ->
  ofold (fun '(bl, inGlyphs, inGroups) uid =>
        if m_has Z.eqb (b_glyphs b) uid then do bl <- bl_Push bl false; Ok (bl, inGlyphs ++ [uid], inGroups)
        else if negb (m_has Z.eqb (b_glyphSets b) uid) then Err "given input UID is neither glyph nor set"
        else do bl <- bl_Push bl true; Ok (bl, inGlyphs, inGroups ++ [uid]))
      input (bl0, es0, gs0) = Ok (bl, es, gs) -> exists inp, collected bl inp es gs.
Proof.
  induction input as [|u r IH]; intros bl0 inp0 e0 g0 bl es gs C; cbn [ofold]; [intros X; inversion X; subst; exists inp0; exact C|].
  intros X. apply bind_ok_inv in X. destruct X as ([[bl1 es1] gs1] & X1 & X). destruct (m_has Z.eqb (b_glyphs b) u).
  - apply bind_ok_inv in X1. destruct X1 as (bl2 & X1 & X2). inversion X2. subst. exact (IH _ _ _ _ _ _ _ (collected_push _ _ _ _ _ u _ C X1) X).
  - destruct (negb _); [discriminate|]. apply bind_ok_inv in X1. destruct X1 as (bl2 & X1 & X2). inversion X2. subst. exact (IH _ _ _ _ _ _ _ (collected_push _ _ _ _ _ u _ C X1) X).
Qed.
Lemma rules_step b op : op_typed op -> rules_fine b -> rules_fine (bstep b op).
Proof.
  intros T H. pose proof (frame_rules b op) as F.
  destruct op; try (apply pair_equal_spec in F; destruct F as [F1 F2]; unfold rules_fine; rewrite F1, F2; exact H); clear F; cbn [bstep op_typed] in *.
  - unfold AddSimpleUtf8RewriteRule. destruct (_ =? 0); [exact H|]. destruct (Z.gtb_spec (zlen sequence) 255); [exact H|].
    destruct (ofold _ sequence _) as [bl| | |] eqn:E; [|exact H..].
    assert (C : exists input, collected bl input sequence []).
    { assert (G : forall seq bl0 inp es, collected bl0 inp es [] -> ofold (fun bl _ => bl_Push bl false) seq bl0 = Ok bl -> exists input, collected bl input (es ++ seq) []).
      { induction seq as [|x r IH]; intros bl0 inp es C; cbn [ofold]; [intros X; inversion X; subst; exists inp; rewrite app_nil_r; exact C|].
        intros X. apply bind_ok_inv in X. destruct X as (bl1 & X1 & X). pose proof (collected_push _ _ _ _ _ x _ C X1) as X2. cbn in X2.
        apply (IH _ _ _ X2) in X. rewrite <- app_assoc in X. exact X. }
      apply (G sequence _ _ _ collected_nil E). }
    destruct C as (input & C). destruct H as [H1 H2]. split; [exact H1|]. cbn [fst with_rules b_utf8Rules]. apply Forall_app. split; [exact H2|]. constructor; [|constructor].
    split; [exists input; apply collected_rule; exact C|]. cbn. pose proof (u8_byte (zlen sequence)). repeat split; unfold byte in *; lia.
  - unfold AddGlyphRewriteRule. cbv zeta. destruct (_ || _); [exact H|]. destruct (negb _); [exact H|]. destruct (negb _); [exact H|].
    match goal with |- rules_fine (fst (match ?c with _ => _ end)) => destruct c as [[[bl es] gs]| | |] eqn:E end; [|exact H..].
    assert (C : exists inp, collected bl inp es gs).
    { revert E. exact (glyph_input_collected b input _ _ _ _ _ _ _ collected_nil). }
    destruct C as (inp & C). destruct H as [H1 H2]. split; [|exact H2]. cbn [fst with_rules b_glyphRules]. apply Forall_app. split; [exact H1|]. constructor; [|constructor].
    split; [exists inp; apply collected_rule; exact C|]. cbn. repeat split; unfold byte in *; lia.
Qed.

Lemma fine_new id date : date_typed date -> fine (New id date).
Proof.
  intros D. constructor; cbn.
  - unfold metrics_typed, bytes. cbn. repeat constructor; unfold byte; lia.
  - unfold header_typed. cbn. repeat split; try apply D; try lia; unfold bytes; repeat constructor; unfold byte; lia.
  - split; [constructor|]. split; [reflexivity|]. intros ? ? [].
  - split; [constructor|]. intros ? ? [].
  - split; [constructor|]. intros ? [].
  - split; constructor.
  - split; [constructor|]. intros ? ? [].
  - repeat split.
Qed.
Lemma fine_step b op : op_typed op -> fine b -> fine (bstep b op).
Proof.
  intros T [A1 A2 A3 A4 A5 A6 A7 A8]. constructor.
  - apply metrics_step; assumption.
  - apply header_step; assumption.
  - apply glyphs_step; assumption.
  - apply mapping_step; assumption.
  - apply sets_step; assumption.
  - apply rules_step; assumption.
  - apply kerning_step; assumption.
  - apply never_step; assumption.
Qed.
Lemma fine_history id date ops : date_typed date -> Forall op_typed ops -> fine (history id date ops).
Proof.
  intros D. unfold history. assert (G : forall b, fine b -> Forall op_typed ops -> fine (fold_left bstep ops b)).
  { induction ops as [|op r IH]; intros b F T; [exact F|]. cbn [fold_left]. apply IH; [|exact (Forall_inv_tail T)]. apply fine_step; [exact (Forall_inv T)|exact F]. }
  apply G. apply fine_new. exact D.
Qed.
