From Verif Require Import Base BaseFacts Spec_Helpers Model_Helpers Proofs_Helpers Model_Font Model_Rewrites Model_Parse Spec_Parse Spec_Parsed.
From Verif Require Import Proofs_Parse Proofs_Parse2 Proofs_Parse5 Proofs_Parse6 Proofs_Parse7 Proofs_Parse8 Proofs_Export Proofs_Flat.

(** ** The parse of a font's own data *)
Lemma flat_parse f : parsed f -> bytes (Data f) /\ exists g j, f = set_Data g (Data f) /\ parse_sections (full (Data f) 0) = POk g (full (Data f) j).
Proof.
  intros (i & P & [HP HM] & D & E). pose proof (payload_result i P D HP HM) as R. destruct (data_prefix i P f (conj HP HM) D E) as (t & PT).
  destruct (parse_sections (full P 0)) as [g s1|e' s1| |] eqn:PS; try contradiction; [|congruence].
  destruct R as (j & s2 & -> & Hj & _ & Rl & En & Hcase & Hend).
  destruct Hcase as [X|[X _]]; [|congruence]. rewrite X in E. injection E as <-. cbn [set_Data Data] in *. set (K := Bytes s2) in *.
  assert (HK : bytes K) by (rewrite PT in HP; now apply bytes_app in HP). pose proof (zlen_nonneg t) as Lt. split; [exact HK|].
  assert (LK : zlen K <= zlen P) by (rewrite PT, zlen_app; lia).
  assert (KF : K = firstn (Z.to_nat (zlen K)) P). { rewrite PT. unfold zlen. rewrite Nat2Z.id, firstn_app, Nat.sub_diag, firstn_all. cbn. now rewrite app_nil_r. }
  assert (JK : j <= zlen K). { destruct Rl as (A & B & C & _). pose proof (rel_len P j s2). unfold K. lia. }
  exists g, j. split; [reflexivity|].
  destruct (Z_lt_ge_dec (zlen P) (OffsetToVertKernings g + 3)) as [Hs|Hl].
  - assert (P = K). { specialize (Hend (or_intror Hs)). rewrite X in Hend. injection Hend as Y. now symmetry. } rewrite <- H. exact PS.
  - destruct (sections_cut P g j (zlen K) HP PS ltac:(pose proof (zlen_nonneg K); lia)) as (_ & _ & _ & _ & _ & C6). rewrite <- KF in C6. apply C6; [|exact JK].
    destruct En as (_ & _ & _ & _ & [(_ & En & _)|(En & _)]); [|lia]. pose proof (le_at_range 3 P (OffsetToVertKernings g) HP). lia.
Qed.

(** ** The frame of every section *)
Record frames (P : list Z) (f : Font) : Prop := {
  fr_metrics : 0 <= OffsetToMetrics f /\ OffsetToMetrics f + 15 <= zlen P;
  fr_dyes : let i := OffsetToDyes f in let n := byte_at P i in let used := byte_at P (i + n) in
    0 <= i /\ 0 <= n < 256 /\ 0 <= used < 256 /\ i + 1 <= zlen P /\ i + 1 + n + used + 2 * n <= zlen P /\
    framed 2 P (i + 1 + n + used) n (OffsetToPalettes f);
  fr_palettes : let i := OffsetToPalettes f in let n := byte_at P i in let used := byte_at P (i + n) in
    0 <= i /\ 0 <= n < 256 /\ 0 <= used < 256 /\ i + 1 <= zlen P /\ i + 1 + n + 4 * used + 2 * n <= zlen P /\
    framed 2 P (i + 1 + n + 4 * used) n (OffsetToGlyphNames f);
  fr_colors : byte_at P (OffsetToDyes f + byte_at P (OffsetToDyes f)) + byte_at P (OffsetToPalettes f + byte_at P (OffsetToPalettes f)) <= 255;
  fr_names : let i := OffsetToGlyphNames f in 0 <= i /\ i + 2 <= zlen P /\ framed 3 P (i + 2 + 2 * le_at 2 P i) (le_at 2 P i) (OffsetToGlyphMasks f);
  fr_masks : 0 < le_at 2 P (OffsetToMetrics f) /\ framed 3 P (OffsetToGlyphMasks f) (le_at 2 P (OffsetToMetrics f)) (OffsetToWords f);
  fr_words : let i := OffsetToWords f in 0 <= i /\ i + 1 <= zlen P /\ framed 2 P (i + 1) (byte_at P i) (OffsetToSettingNames f);
  fr_settings : let i := OffsetToSettingNames f in 0 <= i /\ i + 1 <= zlen P /\ framed 2 P (i + 1) (byte_at P i) (OffsetToSettingDefinitions f) /\
    framed 2 P (OffsetToSettingDefinitions f) (byte_at P i) (OffsetToMappingSwitches f);
  fr_switches : let i := OffsetToMappingSwitches f in 0 <= i /\ i + 1 <= zlen P /\ framed 2 P (i + 1) (byte_at P i) (OffsetToMapping f);
  fr_mapping : let i := OffsetToMapping f in 0 <= i /\ i + 2 <= zlen P /\ framed 3 P (i + 2 + 4 * le_at 2 P i) (le_at 2 P i) (OffsetToRewriteConditions f);
  fr_conditions : let i := OffsetToRewriteConditions f in 0 <= i /\ i + 1 <= zlen P /\ framed 2 P (i + 1) (byte_at P i) (OffsetToRewriteUtf8Sets f);
  fr_utf8_sets : let i := OffsetToRewriteUtf8Sets f in 0 <= i /\ i + 1 <= zlen P /\ framed 2 P (i + 1) (byte_at P i) (OffsetToRewriteGlyphSets f);
  fr_glyph_sets : let i := OffsetToRewriteGlyphSets f in 0 <= i /\ i + 1 <= zlen P /\ framed 2 P (i + 1) (byte_at P i) (OffsetToUtf8Rewrites f);
  fr_utf8_rules : let i := OffsetToUtf8Rewrites f in 0 <= i /\ i + 2 <= zlen P /\ framed 3 P (i + 2) (le_at 2 P i) (OffsetToGlyphRewrites f);
  fr_glyph_rules : let i := OffsetToGlyphRewrites f in 0 <= i /\ i + 2 <= zlen P /\ framed 3 P (i + 2) (le_at 2 P i) (OffsetToHorzKernings f);
  fr_horz : let i := OffsetToHorzKernings f in 0 <= i <= zlen P /\ (i + 3 <= zlen P -> i + 3 + 5 * le_at 3 P i <= zlen P);
  fr_vert : let i := OffsetToVertKernings f in 0 <= i <= zlen P /\ (i + 3 <= zlen P -> i + 3 + 5 * le_at 3 P i <= zlen P) }.

Lemma metrics_count P om : bytes P -> 0 <= om -> om + 15 <= zlen P -> metrics_NumGlyphs P om = Ok (le_at 2 P om).
Proof.
  intros HP H0 H. unfold metrics_NumGlyphs. rewrite zslice_ok by lia. cbn [bind]. rewrite decode16_spec by now apply bytes_firstn, bytes_skipn.
  rewrite zlen_firstn, zlen_skipn. destruct (Z.ltb_spec (Z.min (Z.of_nat (Z.to_nat (om + 2 - om))) (Z.max 0 (zlen P - Z.of_nat (Z.to_nat om)))) 2); [lia|].
  f_equal. unfold le_at. rewrite firstn_firstn. now replace (Nat.min 2 (Z.to_nat (om + 2 - om))) with 2%nat by lia.
Qed.

Lemma keeps_header P i : bytes P -> 0 <= i <= zlen P -> fwp parse_header P i (fun _ j => 0 <= j <= zlen P).
Proof.
  intros HP Hi a s E.
  assert (K : keeps P parse_header).
  { unfold parse_header. repeat (apply keeps_bind; [first [apply keeps_advance | apply keeps_short_str; auto | apply keeps_string; auto]|intros ?]). apply keeps_on_bytes. }
  destruct (keeps_ok _ _ _ _ _ K Hi E) as (j & -> & Hj). exists j. split; [reflexivity|lia].
Qed.

Lemma sections_frames P g s : bytes P -> parse_sections (full P 0) = POk g s -> frames P g.
Proof.
  intros HP E. pose proof (zlen_nonneg P) as L0.
  enough (W : fwp parse_sections P 0 (fun g _ => frames P g)) by (destruct (W _ _ E) as (j & _ & F); exact F).
  unfold parse_sections, parse_metrics.
  apply fwp_bind. eapply fwp_weak; [apply keeps_header; auto; lia|]. intros ?t0 om0 H0. cbv beta in H0.
  apply fwp_bind, fwp_bind, fwp_index, fwp_bind, fwp_advance; [lia|lia|]. intros H15. apply fwp_bind, fwp_on. intros [] HV. apply fwp_ret.
  assert (NG : 0 < le_at 2 P om0 < 65536).
  { pose proof (le_at_range 2 P om0 HP) as R. split; [|apply R]. unfold metrics_Validate in HV. rewrite metrics_count in HV by (auto; lia). cbn [bind] in HV.
    destruct (Z.eqb_spec (le_at 2 P om0) 0) as [Z|Z]; [discriminate HV|]. lia. }
  apply fwp_bind. eapply fwp_weak; [apply flat_dyes; auto; lia|]. intros r1 j1 F1. cbv beta zeta in F1. destruct F1 as (-> & D1 & D2 & D3 & D4 & D5).
  apply fwp_bind. eapply fwp_weak; [apply flat_palettes; auto; lia|]. intros r2 j2 F2. cbv beta zeta in F2. destruct F2 as (-> & P1 & P2 & P3 & P4 & P5 & P6).
  apply fwp_bind, fwp_on. intros _ _.
  apply fwp_bind. eapply fwp_weak; [apply flat_names; auto; lia|]. intros r3 j3 (n & v & -> & N1 & N2 & N3 & N4). rewrite metrics_count in N1 by (auto; lia). injection N1 as <-.
  pose proof N4 as (_ & ? & N5 & _); change (Z.of_nat 2) with 2 in N5; change (Z.of_nat 3) with 3 in N5.
  apply fwp_bind. eapply fwp_weak; [apply flat_masks; auto; lia|]. intros r4 j4 (-> & M1). pose proof M1 as (_ & ? & M2 & _); change (Z.of_nat 2) with 2 in M2; change (Z.of_nat 3) with 3 in M2.
  apply fwp_bind, fwp_on. intros _ _.
  apply fwp_bind. eapply fwp_weak; [apply flat_words; auto; lia|]. intros r5 j5 (-> & W1 & W2). pose proof W2 as (_ & ? & W3 & _); change (Z.of_nat 2) with 2 in W3; change (Z.of_nat 3) with 3 in W3.
  apply fwp_bind. eapply fwp_weak; [apply flat_settings; auto; lia|]. intros r6 j6 (k & -> & S1 & S2 & S3). pose proof S2 as (_ & ? & S4 & _); change (Z.of_nat 2) with 2 in S4; change (Z.of_nat 3) with 3 in S4. pose proof S3 as (_ & ? & S5 & _); change (Z.of_nat 2) with 2 in S5; change (Z.of_nat 3) with 3 in S5.
  apply fwp_bind. eapply fwp_weak; [apply flat_switches; auto; lia|]. intros r7 j7 (-> & T1 & T2 & T3). pose proof T3 as (_ & ? & T4 & _); change (Z.of_nat 2) with 2 in T4; change (Z.of_nat 3) with 3 in T4.
  apply fwp_bind. eapply fwp_weak; [apply flat_mapping; auto; lia|]. intros r8 j8 (-> & U1 & U2). pose proof U2 as (_ & ? & U3 & _); change (Z.of_nat 2) with 2 in U3; change (Z.of_nat 3) with 3 in U3.
  apply fwp_bind. eapply fwp_weak; [apply flat_blocks; auto; lia|]. intros r9 j9 (-> & V1 & V2). pose proof V2 as (_ & ? & V3 & _); change (Z.of_nat 2) with 2 in V3; change (Z.of_nat 3) with 3 in V3.
  apply fwp_bind. eapply fwp_weak; [apply flat_blocks; auto; lia|]. intros r10 j10 (-> & X1 & X2). pose proof X2 as (_ & ? & X3 & _); change (Z.of_nat 2) with 2 in X3; change (Z.of_nat 3) with 3 in X3.
  apply fwp_bind. eapply fwp_weak; [apply flat_blocks; auto; lia|]. intros r11 j11 (-> & Y1 & Y2). pose proof Y2 as (_ & ? & Y3 & _); change (Z.of_nat 2) with 2 in Y3; change (Z.of_nat 3) with 3 in Y3.
  apply fwp_bind. eapply fwp_weak; [apply flat_rules; auto; lia|]. intros r12 j12 (-> & Z1 & Z2). pose proof Z2 as (_ & ? & Z3 & _); change (Z.of_nat 2) with 2 in Z3; change (Z.of_nat 3) with 3 in Z3.
  apply fwp_bind. eapply fwp_weak; [apply flat_rules; auto; lia|]. intros r13 j13 (-> & A1 & A2). pose proof A2 as (_ & ? & A3 & _); change (Z.of_nat 2) with 2 in A3; change (Z.of_nat 3) with 3 in A3.
  apply fwp_bind. eapply fwp_weak; [apply flat_kernings; auto; lia|]. intros r14 j14 (-> & B1 & B2).
  apply fwp_bind. eapply fwp_weak; [apply flat_kernings; auto; lia|]. intros r15 j15 (-> & C1 & C2).
  apply fwp_ret.
  change (Z.of_nat 2) with 2 in *. change (Z.of_nat 3) with 3 in *.
  constructor; cbn [OffsetToMetrics OffsetToDyes OffsetToPalettes OffsetToGlyphNames OffsetToGlyphMasks OffsetToWords OffsetToSettingNames OffsetToSettingDefinitions
    OffsetToMappingSwitches OffsetToMapping OffsetToRewriteConditions OffsetToRewriteUtf8Sets OffsetToRewriteGlyphSets OffsetToUtf8Rewrites OffsetToGlyphRewrites
    OffsetToHorzKernings OffsetToVertKernings]; cbv zeta; try (repeat match goal with |- _ /\ _ => split end; auto; lia).
  - repeat match goal with |- _ /\ _ => split end; try lia. unfold framed. change (Z.of_nat 2) with 2. repeat match goal with |- _ /\ _ => split end; try lia.
  - repeat match goal with |- _ /\ _ => split end; try lia. unfold framed. change (Z.of_nat 2) with 2. repeat match goal with |- _ /\ _ => split end; try lia.
Qed.

Lemma parsed_frames f : parsed f -> bytes (Data f) /\ frames (Data f) f.
Proof.
  intros H. destruct (flat_parse f H) as (HP & g & j & E & F). split; [exact HP|]. apply sections_frames in F; [|exact HP].
  rewrite E at 2. destruct F. constructor; assumption.
Qed.
