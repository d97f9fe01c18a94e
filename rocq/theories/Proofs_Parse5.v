(** Parse as a whole: no panic inside the sections, and independence of the reader. *)
From Verif Require Import Base BaseFacts Model_Helpers Spec_Helpers Proofs_Helpers Model_Font Model_Parse Spec_Parse Proofs_Parse Proofs_Parse2 Proofs_Parse3 Proofs_Parse4.
From Coq Require Import Lia.

Lemma color_validate_total b od op : 0 <= od < zlen b -> 0 <= op < zlen b ->
  color_Validate b od op <> Panic /\ color_Validate b od op <> Hang.
Proof.
  intros H1 H2. unfold color_Validate.
  destruct (zget_in_range b od) as [x ->]; [lia|]. destruct (zget_in_range b op) as [y ->]; [lia|].
  cbn [bind]. destruct (_ >? _); split; discriminate.
Qed.
Lemma glyphs_validate_total b om og : bytes b -> 0 <= om -> om + 2 <= zlen b -> 0 <= og -> og + 2 <= zlen b ->
  glyphs_Validate b om og <> Panic /\ glyphs_Validate b om og <> Hang.
Proof.
  intros Hb H1 H2 H3 H4. pose proof (num_glyphs_total b og Hb H3 H4) as E. unfold metrics_NumGlyphs in E.
  unfold glyphs_Validate. destruct (zslice b og (og + 2)); try discriminate. cbn [bind] in *. rewrite E. cbn [bind].
  rewrite num_glyphs_total by assumption. cbn [bind]. destruct (_ >? _); split; discriminate.
Qed.

Lemma wp_bind2 {A B} (m : action A) (k : A -> action B) (Q0 : A -> pst -> Prop) Q s :
  wp m (fun a s' => ext s s' /\ Q0 a s') s ->
  (forall a s', ext s s' -> Q0 a s' -> wp (k a) Q s') -> wp (pbind m k) Q s.
Proof. intros H1 H2. apply wp_bind. eapply wp_mono; [exact H1|]. intros a s' [E1 E2]. auto. Qed.

Ltac ext_len := repeat match goal with
  | H : inv ?s |- _ => lazymatch goal with X : 0 <= Index s <= zlen (Bytes s) |- _ => fail | _ => pose proof (proj1 H) end end.

(** everything before the kernings; [mk] still needs the offsets of the kernings *)
Definition parse_prefix : action ((Z -> Z -> Font) * Z) :=
  run _ <- parse_header;
  run om <- parse_metrics;
  run ' (od, used) <- parse_dyes;
  run op <- parse_palettes used;
  run _ <- on_bytes (fun b => color_Validate b od op);
  run ' (ogn, numGlyphs, vert) <- parse_glyph_names om;
  run ogm <- parse_glyph_masks numGlyphs vert;
  run _ <- on_bytes (fun b => glyphs_Validate b om ogn);
  run ow <- parse_words;
  run ' (osn, osd, numSettings) <- parse_settings;
  run osw <- parse_switches numSettings;
  run omp <- parse_mapping;
  run oc <- parse_conditions;
  run ous <- parse_utf8_sets;
  run ogs <- parse_glyph_sets;
  run our <- parse_utf8_rules;
  run ogr <- parse_glyph_rules;
  pret (mkFont [] om od op ogn ogm ow osn osd osw omp oc ous ogs our ogr, numGlyphs).
Definition horz_msg : string := "NumHorzKerningPairs can't exceed NumGlyphs^2".
Definition vert_msg : string := "NumVertKerningPairs can't exceed NumGlyphs^2".

Lemma sections_split s : parse_sections s =
  (run ' (mk, numGlyphs) <- parse_prefix;
   run ohk <- parse_kernings numGlyphs horz_msg;
   run ovk <- parse_kernings numGlyphs vert_msg;
   pret (mk ohk ovk)) s.
Proof.
  unfold parse_sections, parse_prefix, pbind.
  repeat (match goal with |- (match ?x with POk _ _ => _ | PErr _ _ => _ | PPanic => _ | PHang => _ end) = _ => destruct x as [?a ?s|?e ?s| |] end;
    [|reflexivity..]; repeat match goal with a : (_ * _)%type |- _ => destruct a end).
  reflexivity.
Qed.

Definition prefix_post (r : (Z -> Z -> Font) * Z) (s' : pst) : Prop :=
  forall h v n, Index s' <= h -> h <= v -> v <= n ->
    offsets_in_order (fst r h v) n /\ OffsetToHorzKernings (fst r h v) = h /\ OffsetToVertKernings (fst r h v) = v /\
    Data (fst r h v) = [].
Lemma wp_prefix s : inv s -> Index s = 0 ->
  wp parse_prefix (fun r s' => ext s s' /\ prefix_post r s') s.
Proof.
  intros Hs H0. unfold parse_prefix.
  eapply wp_bind2; [now apply wp_header|]. intros [] s1 E1 I1. cbn beta in I1. pose proof E1 as (_ & _ & Hs1).
  eapply wp_bind2; [now apply wp_metrics|]. intros om s2 E2 (-> & I2). pose proof E2 as (_ & _ & Hs2).
  eapply wp_bind2; [now apply wp_dyes|]. intros [od used] s3 E3 (J3 & I3). cbn [fst] in J3. subst od. pose proof E3 as (_ & _ & Hs3).
  eapply wp_bind2; [now apply wp_palettes|]. intros op s4 E4 (-> & I4). pose proof E4 as (_ & _ & Hs4).
  ext_len.
  destruct (color_validate_total (Bytes s4) (Index s2) (Index s3)) as [M1 M2]; [lia|lia|].
  apply wp_bind, wp_on_bytes; auto. intros [] _. split; [now apply ext_refl|].
  eapply wp_bind2; [apply wp_glyph_names; [assumption|lia|lia]|]. intros [[ogn ng] vert] s5 E5 (J5 & I5).
  cbn [fst] in J5. subst ogn. pose proof E5 as (_ & _ & Hs5).
  eapply wp_bind2; [now apply wp_masks|]. intros ogm s6 E6 (-> & I6). pose proof E6 as (_ & _ & Hs6).
  ext_len.
  destruct (glyphs_validate_total (Bytes s6) (Index s1) (Index s4)) as [M3 M4]; [apply Hs6|lia|lia|lia|lia|].
  apply wp_bind, wp_on_bytes; auto. intros [] _. split; [now apply ext_refl|].
  eapply wp_bind2; [now apply wp_words|]. intros ow s7 E7 (-> & I7). pose proof E7 as (_ & _ & Hs7).
  eapply wp_bind2; [now apply wp_settings|]. intros [[osn osd] nset] s8 E8 (J8 & I8 & K8).
  cbn [fst snd] in J8, I8, K8. subst osn. pose proof E8 as (_ & _ & Hs8).
  eapply wp_bind2; [now apply wp_switches|]. intros osw s9 E9 (-> & I9). pose proof E9 as (_ & _ & Hs9).
  eapply wp_bind2; [now apply wp_mapping|]. intros omp s10 E10 (-> & I10). pose proof E10 as (_ & _ & Hs10).
  eapply wp_bind2; [now apply wp_u16_blocks|]. intros oc s11 E11 (-> & I11). pose proof E11 as (_ & _ & Hs11).
  eapply wp_bind2; [now apply wp_u16_blocks|]. intros ous s12 E12 (-> & I12). pose proof E12 as (_ & _ & Hs12).
  eapply wp_bind2; [now apply wp_u16_blocks|]. intros ogs s13 E13 (-> & I13). pose proof E13 as (_ & _ & Hs13).
  eapply wp_bind2; [now apply wp_rules|]. intros our s14 E14 (-> & I14). pose proof E14 as (_ & _ & Hs14).
  eapply wp_bind2; [now apply wp_rules|]. intros ogr s15 E15 (-> & I15). pose proof E15 as (_ & _ & Hs15).
  apply wp_ret. split.
  - repeat (eapply ext_trans; [eassumption|]). now apply ext_refl.
  - intros h v n Hh Hv Hn. split; [|repeat apply conj; reflexivity]. unfold offsets_in_order. cbn [fst OffsetToMetrics OffsetToDyes OffsetToPalettes OffsetToGlyphNames OffsetToGlyphMasks
      OffsetToWords OffsetToSettingNames OffsetToSettingDefinitions OffsetToMappingSwitches OffsetToMapping
      OffsetToRewriteConditions OffsetToRewriteUtf8Sets OffsetToRewriteGlyphSets OffsetToUtf8Rewrites
      OffsetToGlyphRewrites OffsetToHorzKernings OffsetToVertKernings].
    repeat (split; [lia|]). lia.
Qed.

Lemma wp_sections s : inv s -> Index s = 0 ->
  wp parse_sections (fun f s' => ext s s' /\ offsets_in_order f (Index s') /\ Data f = []) s.
Proof.
  intros Hs H0. unfold wp. rewrite sections_split. 
  match goal with |- match ?m s with _ => _ end => change (wp m (fun f s' => ext s s' /\ offsets_in_order f (Index s') /\ Data f = []) s) end.
  eapply wp_bind2; [now apply wp_prefix|]. intros [mk ng] s15 E15 HQ. pose proof E15 as (_ & _ & Hs15).
  eapply wp_bind2; [now apply wp_kernings|]. intros ohk s16 E16 (-> & I16). pose proof E16 as (_ & _ & Hs16).
  eapply wp_bind2; [now apply wp_kernings|]. intros ovk s17 E17 (-> & I17). pose proof E17 as (_ & _ & Hs17).
  apply wp_ret. split.
  - repeat (eapply ext_trans; [eassumption|]). now apply ext_refl.
  - destruct (HQ (Index s15) (Index s16) (Index s17)) as (Q1 & _ & _ & Q2); try lia. now split.
Qed.

(** ** Simulation of the remaining sections *)
Section Sim.
  Variable P : list Z.
  Hypothesis HP : bytes P.

  Lemma inv_full i : 0 <= i <= zlen P -> inv (full P i).
  Proof. intros. unfold inv, full; cbn. split; [lia|]. split; [assumption|]. constructor. Qed.

  Lemma wp_full {A} (m : action A) Q i a s : wp m Q (full P i) -> m (full P i) = POk a s -> Q a s.
  Proof. intros H E. unfold wp in H. now rewrite E in H. Qed.

  Lemma local_num_glyphs i om : om + 2 <= i -> local_at P i (fun b => metrics_NumGlyphs b om).
  Proof.
    intros H. apply (local_bind P i (fun d => zslice d om (om + 2)) (fun b _ => DecodeUint16LE b)).
    - apply local_slice; lia.
    - intros. apply local_const.
  Qed.
  Lemma local_get_map {A} i n (h : Z -> A) : n < i -> local_at P i (fun b => do x <- zget b n; Ok (h x)).
  Proof.
    intros H. apply (local_bind P i (fun d => zget d n) (fun x _ => Ok (h x))).
    - now apply local_get.
    - intros. apply local_const.
  Qed.
  Lemma local_has_vert i om : om + 3 <= i -> local_at P i (fun b => metrics_HasVertLayout b om).
  Proof. intros H. apply (local_get_map i (om + 2) (fun b => b =? 1)). lia. Qed.

  Lemma local_metrics i om : om + 15 <= i -> local_at P i (fun b => metrics_Validate b om).
  Proof.
    intros H B t E Hi. unfold metrics_Validate.
    rewrite (local_num_glyphs i om ltac:(lia) B t E Hi), (local_has_vert i om ltac:(lia) B t E Hi).
    unfold metrics_Ascent, metrics_ExtraAscent, metrics_VertInterspacing.
    rewrite (local_get P i (om + 2) ltac:(lia) B t E Hi), (local_get P i (om + 4) ltac:(lia) B t E Hi), (local_get P i (om + 5) ltac:(lia) B t E Hi), (local_get P i (om + 11) ltac:(lia) B t E Hi).
    reflexivity.
  Qed.
  Lemma local_colors i od op : od < i -> op < i -> local_at P i (fun b => color_Validate b od op).
  Proof.
    intros H1 H2 B t E Hi. unfold color_Validate.
    rewrite (local_get P i od H1 B t E Hi), (local_get P i op H2 B t E Hi). reflexivity.
  Qed.
  Lemma local_glyphs i om og : om + 2 <= i -> og + 2 <= i -> local_at P i (fun b => glyphs_Validate b om og).
  Proof.
    intros H1 H2 B t E Hi. unfold glyphs_Validate.
    rewrite (local_slice P i og (og + 2) H2 B t E Hi), (local_num_glyphs i om H1 B t E Hi). reflexivity.
  Qed.

  Lemma sim_metrics i : 0 <= i <= zlen P -> sim_at P i parse_metrics.
  Proof. intros Hi. unfold parse_metrics. sim_auto. apply sim_bind; [apply sim_on_bytes, local_metrics; lia|]. intros. sim_auto. Qed.
  Lemma sim_glyph_names om i : 0 <= i <= zlen P -> 0 <= om -> om + 15 <= i -> sim_at P i (parse_glyph_names om).
  Proof.
    intros Hi Ho Hm. unfold parse_glyph_names. sim_auto.
    apply sim_bind; [apply sim_on_bytes, local_num_glyphs; lia|]. intros ng j1 E1 Hj1.
    apply on_bytes_inv in E1 as [E1 ->].
    apply sim_bind; [apply sim_on_bytes, local_has_vert; lia|]. intros vert j2 E2 Hj2.
    apply on_bytes_inv in E2 as [E2 ->]. sim_auto.
  Qed.

  Lemma sim_bind_wp {A B} i (m : action A) (k : A -> action B) Q : 0 <= i <= zlen P -> sim_at P i m ->
    (inv (full P i) -> wp m (fun a s' => ext (full P i) s' /\ Q a s') (full P i)) ->
    (forall a j, i <= j <= zlen P -> Q a (full P j) -> sim_at P j (k a)) -> sim_at P i (pbind m k).
  Proof.
    intros Hi Hm Hw Hk. apply sim_bind; [assumption|]. intros a j E Hj.
    destruct (wp_full m _ i a _ (Hw (inv_full i Hi)) E) as [(_ & H1 & _) H2]. apply Hk; [cbn in H1; lia|assumption].
  Qed.

  Lemma sim_prefix : sim_at P 0 parse_prefix.
  Proof.
    unfold parse_prefix. pose proof (zlen_nonneg P).
    eapply sim_bind_wp; [lia|apply sim_header; [assumption|lia]|intros; now apply wp_header|]. cbn [Index full]. intros [] j1 H1 I1.
    eapply sim_bind_wp; [lia|apply sim_metrics; lia|apply wp_metrics|]. cbn [Index full]. intros om j2 H2 (-> & I2).
    eapply sim_bind_wp; [lia|apply sim_dyes; [assumption|lia]|apply wp_dyes|]. cbn [Index full]. intros [od used] j3 H3 (J3 & I3). cbn [fst] in J3. subst od.
    eapply sim_bind_wp; [lia|apply sim_palettes; [assumption|lia]|apply wp_palettes|]. cbn [Index full]. intros op j4 H4 (-> & I4).
    apply sim_bind; [apply sim_on_bytes, local_colors; lia|]. intros [] j E _. apply on_bytes_inv in E as [_ ->].
    eapply sim_bind_wp; [lia|apply sim_glyph_names; lia|intros; apply wp_glyph_names; [assumption|lia|cbn [Index full]; lia]|].
    cbn [Index full]. intros [[ogn ng] vert] j5 H5 (J5 & I5). cbn [fst] in J5. subst ogn.
    eapply sim_bind_wp; [lia|apply sim_masks; [assumption|lia]|apply wp_masks|]. cbn [Index full]. intros ogm j6 H6 (-> & I6).
    apply sim_bind; [apply sim_on_bytes, local_glyphs; lia|]. intros [] j E _. apply on_bytes_inv in E as [_ ->].
    eapply sim_bind_wp; [lia|apply sim_words; [assumption|lia]|apply wp_words|]. cbn [Index full]. intros ow j7 H7 (-> & I7).
    eapply sim_bind_wp; [lia|apply sim_settings; [assumption|lia]|apply wp_settings|]. cbn [Index full]. intros [[osn osd] nset] j8 H8 (J8 & I8 & K8).
    cbn [fst snd] in J8, I8, K8. subst osn.
    eapply sim_bind_wp; [lia|apply sim_switches; [assumption|lia]|apply wp_switches|]. cbn [Index full]. intros osw j9 H9 (-> & I9).
    eapply sim_bind_wp; [lia|apply sim_mapping; [assumption|lia]|apply wp_mapping|]. cbn [Index full]. intros omp j10 H10 (-> & I10).
    eapply sim_bind_wp; [lia|apply sim_u16_blocks; [assumption|lia]|apply wp_u16_blocks|]. cbn [Index full]. intros oc j11 H11 (-> & I11).
    eapply sim_bind_wp; [lia|apply sim_u16_blocks; [assumption|lia]|apply wp_u16_blocks|]. cbn [Index full]. intros ous j12 H12 (-> & I12).
    eapply sim_bind_wp; [lia|apply sim_u16_blocks; [assumption|lia]|apply wp_u16_blocks|]. cbn [Index full]. intros ogs j13 H13 (-> & I13).
    eapply sim_bind_wp; [lia|apply sim_rules; [assumption|lia]|apply wp_rules|]. cbn [Index full]. intros our j14 H14 (-> & I14).
    eapply sim_bind_wp; [lia|apply sim_rules; [assumption|lia]|apply wp_rules|]. cbn [Index full]. intros ogr j15 H15 (-> & I15).
    apply sim_ret.
  Qed.

  Lemma sim_eq {A} i (m m' : action A) : (forall s, m s = m' s) -> sim_at P i m' -> sim_at P i m.
  Proof. intros E H s Hr. rewrite !E. now apply H. Qed.
  Lemma sim_sections : sim_at P 0 parse_sections.
  Proof.
    eapply sim_eq; [apply sections_split|]. pose proof (zlen_nonneg P).
    eapply sim_bind_wp; [lia|apply sim_prefix|intros; now apply wp_prefix|]. intros [mk ng] j15 H15 _.
    eapply sim_bind_wp; [lia|apply sim_kernings; [assumption|lia]|apply wp_kernings|]. cbn [Index full]. intros ohk j16 H16 (-> & I16).
    eapply sim_bind_wp; [lia|apply sim_kernings; [assumption|lia]|apply wp_kernings|]. cbn [Index full]. intros ovk j17 H17 (-> & I17).
    apply sim_ret.
  Qed.
End Sim.
