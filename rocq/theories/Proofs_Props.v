(** The setters of a builder and AddGlyph. *)
From Verif Require Import Base BaseFacts Model_Helpers Model_Names Model_Date Spec_Date Proofs_Date Model_Mask Spec_Mask Proofs_ComputeRect
  Model_Font Model_Parse Model_Builder Spec_Builder Spec_Names Proofs_Names Proofs_Builder Spec_Texts Proofs_Texts Spec_Props Model_Export Proofs_Build7.
From Coq Require Import Lia.

(** ** Texts *)
Definition set_text_of (t : text) : builder -> list Z -> builder * outcome unit :=
  match t with TName => SetName | TFamily => SetFamily | TAuthor => SetAuthor | TAbout => SetAbout end.
Definition text_change (t : text) (s : list Z) (h : bheader) : bheader :=
  match t with
  | TName => mkBH (bh_ID h) (bh_major h) (bh_minor h) (bh_firstDate h) (bh_majorDate h) (bh_minorDate h) s (bh_family h) (bh_author h) (bh_about h)
  | TFamily => mkBH (bh_ID h) (bh_major h) (bh_minor h) (bh_firstDate h) (bh_majorDate h) (bh_minorDate h) (bh_name h) s (bh_author h) (bh_about h)
  | TAuthor => mkBH (bh_ID h) (bh_major h) (bh_minor h) (bh_firstDate h) (bh_majorDate h) (bh_minorDate h) (bh_name h) (bh_family h) s (bh_about h)
  | TAbout => mkBH (bh_ID h) (bh_major h) (bh_minor h) (bh_firstDate h) (bh_majorDate h) (bh_minorDate h) (bh_name h) (bh_family h) (bh_author h) s
  end.
Lemma set_text_msg t b s : exists msg, set_text_of t b s = set_text b (text_limit t) msg s (text_change t s).
Proof. destruct t; eexists; reflexivity. Qed.
Lemma set_text_spec t b s b' r : bytes s -> set_text_of t b s = (b', r) ->
  (r = Ok tt <-> plain_text s /\ zlen s <= text_limit t) /\
  (r = Ok tt -> text_of t b' = s /\ (forall u, u <> t -> text_of u b' = text_of u b) /\ id_of b' = id_of b /\
     version_of b' = version_of b /\ (forall m, date_of m b' = date_of m b) /\ but_header b' = but_header b) /\
  (r <> Ok tt -> b' = b /\ exists m, r = Err m).
Proof.
  intros B E. destruct (set_text_msg t b s) as (msg & X). rewrite X in E. clear X. unfold set_text in E.
  destruct (check_spec s B) as [C D]. rewrite Z.gtb_ltb in E.
  destruct (Z.ltb_spec (text_limit t) (zlen s)).
  - inversion E; subst. split; [split; [discriminate|lia]|]. split; [discriminate|eauto].
  - destruct D as [D|[m D]]; rewrite D in *; inversion E; subst.
    + split; [tauto|]. split; [|congruence]. intros _. destruct t; (split; [reflexivity|]); (split; [intros [] NN; first [reflexivity | congruence]|]);
        (split; [reflexivity|]); (split; [reflexivity|]); (split; [intros []; reflexivity|]); reflexivity.
    + split; [split; [discriminate|]; intros [Y _]; apply C in Y; discriminate|]. split; [discriminate|eauto].
Qed.

(** ** Dates and versions *)
Definition set_date_of (m : moment) : builder -> Date -> builder * outcome unit :=
  match m with First => SetFirstVerDate | Major => SetMajorVerDate | Minor => SetMinorVerDate end.
Definition date_change (m : moment) (d : Date) (h : bheader) : bheader :=
  match m with
  | First => mkBH (bh_ID h) (bh_major h) (bh_minor h) d (bh_majorDate h) (bh_minorDate h) (bh_name h) (bh_family h) (bh_author h) (bh_about h)
  | Major => mkBH (bh_ID h) (bh_major h) (bh_minor h) (bh_firstDate h) d (bh_minorDate h) (bh_name h) (bh_family h) (bh_author h) (bh_about h)
  | Minor => mkBH (bh_ID h) (bh_major h) (bh_minor h) (bh_firstDate h) (bh_majorDate h) d (bh_name h) (bh_family h) (bh_author h) (bh_about h)
  end.
Lemma set_date_spec m b d b' r : date_fields d -> Month d <> 0 -> set_date_of m b d = (b', r) ->
  (r = Ok tt <-> valid_date d) /\
  (r = Ok tt -> date_of m b' = d /\ (forall k, k <> m -> date_of k b' = date_of k b) /\ id_of b' = id_of b /\
     version_of b' = version_of b /\ same_texts b b' /\ but_header b' = but_header b) /\
  (r <> Ok tt -> b' = b /\ exists e, r = Err e).
Proof.
  intros F M E. destruct (isvalid_spec d F M) as (ok & V & W).
  assert (X : exists h, set_date_of m b d = (if ok then with_header b h else b, if ok then Ok tt else Err "invalid date") /\
    (date_of m (with_header b h) = d /\ (forall k, k <> m -> date_of k (with_header b h) = date_of k b) /\ id_of (with_header b h) = id_of b /\
     version_of (with_header b h) = version_of b /\ same_texts b (with_header b h) /\ but_header (with_header b h) = but_header b)).
  { exists (date_change m d (b_header b)). destruct m; cbn [set_date_of]; unfold SetFirstVerDate, SetMajorVerDate, SetMinorVerDate, set_date; rewrite V; destruct ok;
      (split; [reflexivity|]); (split; [reflexivity|]); (split; [intros [] NN; first [reflexivity | congruence]|]); repeat split; intros []; reflexivity. }
  destruct X as (h & X & Y). rewrite X in E. inversion E; subst. destruct ok.
  - split; [tauto|]. split; [auto|congruence].
  - split; [split; [discriminate|]; intros Z; apply W in Z; discriminate|]. split; [discriminate|eauto].
Qed.
Lemma raise_spec b now : 0 <= bh_major (b_header b) < 65535 -> 0 <= bh_minor (b_header b) < 65535 ->
  (newer (version_of b) (version_of (RaiseMajorVersion b now)) /\ newer (version_of b) (version_of (RaiseMinorVersion b now))) /\
  version_of (RaiseMajorVersion b now) = (fst (version_of b) + 1, 0) /\ version_of (RaiseMinorVersion b now) = (fst (version_of b), snd (version_of b) + 1).
Proof.
  intros H1 H2. unfold newer, version_of, RaiseMajorVersion, RaiseMinorVersion. cbn. unfold u16. rewrite !Z.mod_small by lia.
  split; [lia|]. split; reflexivity.
Qed.
Lemma raise_frame b b' now : b' = RaiseMajorVersion b now \/ b' = RaiseMinorVersion b now \/ (exists x y, b' = SetVersion b x y now) ->
  date_of First b' = date_of First b /\ date_of Minor b' = now /\ (b' = RaiseMajorVersion b now \/ (exists x y, b' = SetVersion b x y now) -> date_of Major b' = now) /\
  (b' = RaiseMinorVersion b now -> date_of Major b' = date_of Major b) /\
  id_of b' = id_of b /\ same_texts b b' /\ but_header b' = but_header b.
Proof.
  intros H. split; [|split; [|split; [|split; [|split; [|split]]]]].
  - destruct H as [->|[->|(x & y & ->)]]; reflexivity.
  - destruct H as [->|[->|(x & y & ->)]]; reflexivity.
  - intros [->|(x & y & ->)]; reflexivity.
  - intros ->; reflexivity.
  - destruct H as [->|[->|(x & y & ->)]]; reflexivity.
  - destruct H as [->|[->|(x & y & ->)]]; intros []; reflexivity.
  - destruct H as [->|[->|(x & y & ->)]]; reflexivity.
Qed.

(** ** Metrics *)
Lemma set_metric_spec b k v b' r : SetMetric b k v = (b', r) ->
  (r = Ok tt <-> metric_allowed b k v) /\
  (r = Ok tt -> metric_of k b' = v /\ (forall j, j <> k -> metric_of j b' = metric_of j b) /\ vertical b' = vertical b /\ but_metrics b' = but_metrics b) /\
  (r <> Ok tt -> b' = b /\ exists m, r = Err m).
Proof.
  intros E.
  assert (D : let c := with_metrics b (set_metric (b_metrics b) k v) in
    metric_of k c = v /\ (forall j, j <> k -> metric_of j c = metric_of j b) /\ vertical c = vertical b /\ but_metrics c = but_metrics b).
  { cbv zeta. split; [destruct k; reflexivity|]. split; [intros [] N; destruct k; (reflexivity || congruence)|]. split; reflexivity. }
  assert (Done : SetMetric b k v = (with_metrics b (set_metric (b_metrics b) k v), Ok tt) -> metric_allowed b k v ->
    (r = Ok tt <-> metric_allowed b k v) /\
    (r = Ok tt -> metric_of k b' = v /\ (forall j, j <> k -> metric_of j b' = metric_of j b) /\ vertical b' = vertical b /\ but_metrics b' = but_metrics b) /\
    (r <> Ok tt -> b' = b /\ exists m, r = Err m)).
  { intros X Y. rewrite X in E. inversion E; subst. split; [tauto|]. split; [auto|congruence]. }
  unfold metric_allowed, vertical in *. destruct k; try (apply Done; [reflexivity|exact I]); unfold SetMetric in *.
  - destruct (Z.eqb_spec v 0), (bm_vert (b_metrics b)); cbn in *.
    + inversion E; subst. split; [split; [discriminate|]; intros [X _]; specialize (X eq_refl); lia|]. split; [discriminate|eauto].
    + apply Done; [reflexivity|]. split; [discriminate|contradiction].
    + apply Done; [reflexivity|]. tauto.
    + inversion E; subst. split; [split; [discriminate|]; intros [_ X]; specialize (X n); discriminate|]. split; [discriminate|eauto].
  - destruct (Z.eqb_spec v 0), (bm_vert (b_metrics b)); cbn in *; try (apply Done; [reflexivity|tauto || discriminate]).
    inversion E; subst. split; [split; [discriminate|]; intros X; exfalso; auto|]. split; [discriminate|eauto].
Qed.
Lemma vert_used_spec b used : vertical (SetVertLayoutUsed b used) = used /\ (forall k, metric_of k (SetVertLayoutUsed b used) = metric_of k b) /\
  but_metrics (SetVertLayoutUsed b used) = but_metrics b.
Proof. split; [reflexivity|]. split; [intros []; reflexivity|reflexivity]. Qed.
Lemma vert_step b op : op <> OSetVertLayoutUsed false -> vert_consistent b -> vert_consistent (bstep b op).
Proof.
  intros N H. pose proof (frame_metrics b op) as F.
  assert (G : b_metrics (bstep b op) = b_metrics b -> vert_consistent (bstep b op)) by (intros X; unfold vert_consistent, vertical, metric_of in *; now rewrite X).
  destruct op; try (apply G; exact F); cbn [bstep].
  - destruct (SetMetric b k v) as [b' r] eqn:E. destruct (set_metric_spec _ _ _ _ _ E) as (A & S & X). cbn [fst].
    destruct r as [[]| | |]; try (destruct X as [-> _]; [discriminate|exact H]). destruct S as (S1 & S2 & S3 & _); [reflexivity|].
    assert (M : metric_allowed b k v) by now apply A. unfold vert_consistent in *. rewrite S3. intros V. specialize (H V).
    unfold metric_allowed in M. split.
    + destruct k; try (rewrite S2 by discriminate; apply H). rewrite S1. destruct (Z.eq_dec v 0); [assumption|]. apply M in n. congruence.
    + destruct k; try (rewrite S2 by discriminate; apply H). rewrite S1. apply M, V.
  - destruct used; [|congruence]. intros V. discriminate V.
Qed.
Lemma vert_history id date ops : ~ In (OSetVertLayoutUsed false) ops -> vert_consistent (history id date ops).
Proof.
  intros N. unfold history. assert (H0 : vert_consistent (New id date)) by (intros _; split; reflexivity). revert H0. generalize (New id date).
  induction ops as [|op ops IH]; intros b H; [exact H|]. cbn [fold_left]. apply IH; [intros X; apply N; now right|]. apply vert_step; [intros ->; apply N; now left|exact H].
Qed.

(** ** Glyphs *)
Lemma fresh_spec b : forall n random,
  match fresh_uid n (m_has Z.eqb (b_glyphs b)) random with
  | Ok uid => exists before after, random = before ++ uid :: after /\ (length before < n)%nat /\ glyph_at b uid = None /\ uid <> 56789 /\
      Forall (fun u => glyph_at b u <> None \/ u = 56789) before
  | Err _ => ~ exists uid before after, random = before ++ uid :: after /\ (length before < n)%nat /\ glyph_at b uid = None /\ uid <> 56789
  | _ => False
  end.
Proof.
  induction n as [|n IH]; intros random; cbn [fresh_uid].
  - intros (uid & bf & af & _ & L & _). lia.
  - destruct random as [|u rest]; [intros (uid & bf & af & E & _); destruct bf; discriminate|].
    assert (T : negb (m_has Z.eqb (b_glyphs b) u) && negb (u =? GlyphMissing) = true <-> glyph_at b u = None /\ u <> 56789).
    { unfold m_has, glyph_at. destruct (m_get Z.eqb (b_glyphs b) u); cbn; [split; [discriminate|intros [X _]; discriminate]|].
      change GlyphMissing with 56789. destruct (Z.eqb_spec u 56789); cbn; intuition congruence. }
    destruct (negb _ && negb _).
    + destruct T as [T _]. specialize (T eq_refl). destruct T as [T1 T2]. exists [], rest. split; [reflexivity|]. split; [cbn; lia|]. auto.
    + assert (Bad : glyph_at b u <> None \/ u = 56789).
      { destruct T as [_ T]. destruct (glyph_at b u); [left; discriminate|]. right. destruct (Z.eq_dec u 56789); [assumption|]. specialize (T (conj eq_refl n0)). discriminate. }
      specialize (IH rest). destruct (fresh_uid n _ rest) as [uid|m| |]; try contradiction.
      * destruct IH as (bf & af & -> & L & G1 & G2 & F). exists (u :: bf), af. split; [reflexivity|]. split; [cbn; lia|]. auto.
      * intros (uid & bf & af & E & L & G1 & G2). destruct bf as [|x bf]; cbn in E; inversion E; subst; [tauto|].
        apply IH. exists uid, bf, af. cbn in L. split; [reflexivity|]. split; [lia|auto].
Qed.
Lemma rect_empty_spec r : rect_Empty r = true <-> ~ exists x y, inside r x y.
Proof.
  unfold rect_Empty, inside. rewrite orb_true_iff, !Z.geb_leb, !Z.leb_le. split; [intros H (x & y & X); lia|].
  intros H. destruct (Z_le_gt_dec (rx1 r) (rx0 r)); [auto|]. destruct (Z_le_gt_dec (ry1 r) (ry0 r)); [auto|]. exfalso. apply H. exists (rx0 r), (ry0 r). lia.
Qed.

Lemma fits_spec b m r : (forall k, byte (metric_of k b)) -> ((forall x y, pixel m x y = 0) /\ r = mkRect 0 0 0 0 \/
     (exists x y, pixel m x y <> 0) /\ smallest_rect (fun x y => pixel m x y <> 0) r) ->
  (fits b m <-> rect_Empty r = true \/ - ry0 r <= metric_of Ascent b + metric_of ExtraAscent b /\
      ry1 r <= metric_of Descent b + metric_of ExtraDescent b /\ (metric_of MonoWidth b <> 0 -> 0 <= rx0 r /\ rx1 r <= metric_of MonoWidth b)).
Proof.
  intros B H. unfold fits. destruct H as [[Z ->]|[(x0 & y0 & N) [S1 S2]]].
  - split; [intros _; left; reflexivity|]. intros _ x y P. exfalso. auto.
  - assert (NE : rect_Empty r = false). { destruct (rect_Empty r) eqn:E; [|reflexivity]. exfalso. apply rect_empty_spec in E. apply E. eauto. }
    rewrite NE. pose proof (S1 _ _ N) as I0. unfold inside in I0. split.
    + intros F. right.
      pose (q := mkRect (if metric_of MonoWidth b =? 0 then rx0 r else 0) (- (metric_of Ascent b + metric_of ExtraAscent b))
                        (if metric_of MonoWidth b =? 0 then rx1 r else metric_of MonoWidth b) (metric_of Descent b + metric_of ExtraDescent b)).
      destruct (S2 q) as (Q1 & Q2 & Q3 & Q4).
      { intros x y P. destruct (F x y P) as [F1 F2]. pose proof (S1 _ _ P) as I1. unfold inside in *. unfold q. cbn [rx0 rx1 ry0 ry1]. destruct (Z.eqb_spec (metric_of MonoWidth b) 0); lia. }
      unfold q in *. cbn [rx0 rx1 ry0 ry1] in Q1, Q2, Q3, Q4. destruct (Z.eqb_spec (metric_of MonoWidth b) 0); lia.
    + intros [F|F]; [discriminate|]. intros x y P. pose proof (S1 _ _ P) as I1. unfold inside in I1. lia.
Qed.
Lemma add_glyph_spec b m random b' r : (forall k, byte (metric_of k b)) -> alpha_readable m ->
  rx0 (Rect m) <= rx1 (Rect m) -> ry0 (Rect m) <= ry1 (Rect m) -> AddGlyph b m random = (b', r) ->
  match r with
  | Ok uid => zlen (b_glyphs b) < 56789 /\ fits b m /\ drawn b random uid /\
      (exists gd, glyph_at b' uid = Some gd /\ gd_Name gd = [] /\ gd_Mask gd = m /\ first_placement b m (gd_Placement gd)) /\
      (forall u, u <> uid -> glyph_at b' u = glyph_at b u) /\ b_order b' = b_order b ++ [uid] /\ but_glyphs b' = but_glyphs b
  | Err _ => b' = b /\ ~ (zlen (b_glyphs b) < 56789 /\ fits b m /\ exists uid, drawn b random uid)
  | _ => False
  end.
Proof.
  intros B AR HX HY E. unfold AddGlyph in E. rewrite Z.geb_leb in E. destruct (Z.leb_spec MaxGlyphs (zlen (b_glyphs b))) as [L|L].
  { inversion E; subst. split; [reflexivity|]. change MaxGlyphs with 56789 in L. lia. }
  destruct (compute_rect_spec m AR HX HY) as (q & Q & QS). rewrite Q in E. pose proof (fits_spec b m q B QS) as FS. clear QS.
  pose proof (B Ascent) as B1. pose proof (B ExtraAscent) as B2. pose proof (B Descent) as B3. pose proof (B ExtraDescent) as B4. unfold byte in *.
  change MaxGlyphs with 56789 in L. cbn [metric_of] in *.
  assert (Bad : forall msg, (b, @Err Z msg) = (b', r) -> ~ fits b m -> match r with
     | Ok uid => zlen (b_glyphs b) < 56789 /\ fits b m /\ drawn b random uid /\
      (exists gd, glyph_at b' uid = Some gd /\ gd_Name gd = [] /\ gd_Mask gd = m /\ first_placement b m (gd_Placement gd)) /\
      (forall u, u <> uid -> glyph_at b' u = glyph_at b u) /\ b_order b' = b_order b ++ [uid] /\ but_glyphs b' = but_glyphs b
     | Err _ => b' = b /\ ~ (zlen (b_glyphs b) < 56789 /\ fits b m /\ exists uid, drawn b random uid)
     | _ => False end).
  { intros msg X Y. inversion X; subst. split; [reflexivity|tauto]. }
  rewrite !Z.gtb_ltb in E.
  destruct (negb (rect_Empty q) && ((ry0 q <? 0) && (bm_ascent (b_metrics b) + bm_extraAscent (b_metrics b) <? - ry0 q))) eqn:T1.
  { apply (Bad _ E). intros F. apply FS in F. rewrite !andb_true_iff, negb_true_iff in T1. destruct T1 as (T0 & T1 & T2). destruct F as [F|F]; [congruence|lia]. }
  destruct (negb (rect_Empty q) && ((0 <? ry1 q) && (bm_descent (b_metrics b) + bm_extraDescent (b_metrics b) <? ry1 q))) eqn:T2.
  { apply (Bad _ E). intros F. apply FS in F. rewrite !andb_true_iff, negb_true_iff in T2. destruct T2 as (T0 & T2 & T3). destruct F as [F|F]; [congruence|lia]. }
  destruct (negb (rect_Empty q) && (negb (bm_mono (b_metrics b) =? 0) && ((rx0 q <? 0) || (bm_mono (b_metrics b) <? rx1 q)))) eqn:T3.
  { apply (Bad _ E). intros F. apply FS in F. rewrite !andb_true_iff, !negb_true_iff in T3. destruct T3 as (T0 & T3 & T4). destruct F as [F|F]; [congruence|]. apply orb_true_iff in T4. lia. }
  assert (F : fits b m). { apply FS. destruct (rect_Empty q); [now left|right]. cbn [negb andb] in T1, T2, T3. lia. }
  pose proof (fresh_spec b 4 random) as FR. cbv zeta in E. destruct (fresh_uid 4 (m_has Z.eqb (b_glyphs b)) random) as [uid|e| |]; try contradiction; inversion E; subst; clear E.
  - destruct FR as (bf & af & R1 & R2 & R3 & R4 & R5). split; [assumption|]. split; [assumption|]. split; [now exists bf, af|].
    set (gd := mkGlyphData _ _ _). split; [|split; [|split]].
    + exists gd. unfold glyph_at, with_glyphs. cbn [b_glyphs]. rewrite (m_get_set Z.eqb Z.eqb_eq), Z.eqb_refl. split; [reflexivity|]. split; [reflexivity|]. split; [reflexivity|].
      unfold first_placement, gd, u8. cbn [gd_Placement gp_Advance gp_TopAdvance gp_BottomAdvance gp_HorzCenter]. rewrite Z.quot_div_nonneg by lia.
      pose proof (Z.div_pos (rx1 (Rect m) - rx0 (Rect m)) 2 ltac:(lia) ltac:(lia)). rewrite !Z.mod_small by lia. auto.
    + intros u N. unfold glyph_at, with_glyphs. cbn [b_glyphs]. rewrite (m_get_set Z.eqb Z.eqb_eq). destruct (Z.eqb_spec u uid); [contradiction|reflexivity].
    + reflexivity.
    + reflexivity.
  - split; [reflexivity|]. intros (_ & _ & uid & bf & af & R). apply FR. exists uid, bf, af. tauto.
Qed.
Lemma set_placement_spec b uid p b' r : SetGlyphPlacement b uid p = (b', r) ->
  match glyph_at b uid with
  | Some gd => r = Ok tt /\ glyph_at b' uid = Some (mkGlyphData (gd_Name gd) p (gd_Mask gd)) /\
      (forall u, u <> uid -> glyph_at b' u = glyph_at b u) /\ b_order b' = b_order b /\ but_glyphs b' = but_glyphs b
  | None => b' = b /\ exists m, r = Err m
  end.
Proof.
  intros E. unfold SetGlyphPlacement in E. unfold glyph_at at 1. destruct (m_get Z.eqb (b_glyphs b) uid) as [gd|]; inversion E; subst; [|eauto].
  split; [reflexivity|]. unfold glyph_at, with_glyphs. cbn [b_glyphs b_order]. rewrite (m_get_set Z.eqb Z.eqb_eq), Z.eqb_refl. split; [reflexivity|].
  split; [|split; reflexivity]. intros u N. rewrite (m_get_set Z.eqb Z.eqb_eq). destruct (Z.eqb_spec u uid); [contradiction|reflexivity].
Qed.
Lemma set_name_spec b uid name b' r : SetGlyphName b uid name = (b', r) ->
  match glyph_at b uid with
  | Some gd => (r = Ok tt <-> loose_name name) /\
      (r = Ok tt -> glyph_at b' uid = Some (mkGlyphData name (gd_Placement gd) (gd_Mask gd)) /\
        (forall u, u <> uid -> glyph_at b' u = glyph_at b u) /\ b_order b' = b_order b /\ but_glyphs b' = but_glyphs b) /\
      (r <> Ok tt -> b' = b /\ exists m, r = Err m)
  | None => b' = b /\ exists m, r = Err m
  end.
Proof.
  intros E. unfold SetGlyphName in E. unfold glyph_at at 1. destruct (m_get Z.eqb (b_glyphs b) uid) as [gd|]; [|inversion E; subst; eauto].
  pose proof (validate_loose name) as V. destruct (validate_spec name) as [[m X]|X]; rewrite X in *; inversion E; subst.
  - split; [exact V|]. split; [discriminate|eauto].
  - split; [exact V|]. split; [|congruence]. intros _. unfold glyph_at, with_glyphs. cbn [b_glyphs b_order]. rewrite (m_get_set Z.eqb Z.eqb_eq), Z.eqb_refl. split; [reflexivity|].
    split; [|split; reflexivity]. intros u N. rewrite (m_get_set Z.eqb Z.eqb_eq). destruct (Z.eqb_spec u uid); [contradiction|reflexivity].
Qed.
(** ** The font ID *)
Lemma new_id_spec : forall n random, match new_id n random with
  | Ok id => exists before after, random = before ++ id :: after /\ (length before < n)%nat /\ entropy_too_low id = false /\ Forall (fun x => entropy_too_low x = true) before
  | Panic => forall before id after, random = before ++ id :: after -> (length before < n)%nat -> entropy_too_low id = true
  | _ => False
  end.
Proof.
  induction n as [|n IH]; intros random; cbn [new_id]; [intros; lia|]. destruct random as [|x rest]; [intros [] ? ? ?; discriminate|].
  destruct (entropy_too_low x) eqn:E; cbn [negb].
  - specialize (IH rest). destruct (new_id n rest) as [id|m| |]; try contradiction.
    + destruct IH as (bf & af & -> & L & G & F). exists (x :: bf), af. split; [reflexivity|]. split; [cbn; lia|]. auto.
    + intros [|y bf] id af X L; cbn in X; inversion X; subst; [assumption|]. eapply IH; [reflexivity|]. cbn in L. lia.
  - exists [], rest. split; [reflexivity|]. split; [cbn; lia|]. auto.
Qed.

Lemma new_spec random date : match builder_New random date with
  | Ok b => (exists before after, random = before ++ id_of b :: after /\ (length before < 8)%nat /\ entropy_too_low (id_of b) = false /\
               Forall (fun x => entropy_too_low x = true) before) /\
      version_of b = (0, 1) /\ (forall m, date_of m b = date) /\ vert_consistent b /\ b_glyphs b = [] /\
      (forall t, plain_text (text_of t b) /\ 0 < zlen (text_of t b) <= text_limit t)
  | Panic => forall before id after, random = before ++ id :: after -> (length before < 8)%nat -> entropy_too_low id = true
  | _ => False
  end.
Proof.
  unfold builder_New. pose proof (new_id_spec 8 random) as H. destruct (new_id 8 random) as [id| | |]; cbn [bind]; try exact H.
  split; [exact H|]. split; [reflexivity|]. split; [intros []; reflexivity|]. split; [now split|]. split; [reflexivity|].
  intros t. split.
  - exists (text_of t (New id date)). split; [|destruct t; apply Forall_forall; intros x Hx; cbn in Hx; repeat destruct Hx as [<-|Hx]; try lia; contradiction].
    destruct t; (split; [apply Forall_forall; intros x Hx; cbn in Hx; repeat destruct Hx as [<-|Hx]; unfold scalar; try lia; contradiction|reflexivity]).
  - destruct t; vm_compute; split; congruence.
Qed.
