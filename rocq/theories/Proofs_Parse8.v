(** The results of Parse: end-of-file check, truncation, strings. *)
From Verif Require Import Base BaseFacts Model_Helpers Spec_Helpers Proofs_Helpers Model_Font Model_Parse Spec_Parse Proofs_Parse Proofs_Parse2 Proofs_Parse3 Proofs_Parse4 Proofs_Parse5 Proofs_Parse6 Proofs_Parse7.
From Coq Require Import Lia.

Lemma rel_whole P j s : rel P j s -> zlen (Bytes s) = zlen P -> Bytes s = P.
Proof.
  intros (_ & _ & E & _) Hl. rewrite <- E in Hl |- *. rewrite zlen_app in Hl.
  assert (rest s = []) as -> by (destruct (rest s); [reflexivity|rewrite zlen_cons in Hl; pose proof (zlen_nonneg l); lia]).
  now rewrite app_nil_r.
Qed.
Lemma rel_eof P j s : rel P j s -> eof s = true -> Bytes s = P.
Proof. intros (_ & _ & E & _) He. unfold rest in E. rewrite He, app_nil_r in E. assumption. Qed.

Lemma ensure_eof_rel P j s : rel P j s ->
  exists s', (eof s = true -> s' = s /\ EnsureEOF s = POk tt s) /\
    (eof s = false -> readMore s = POk tt s' /\ rel P j s' /\ EnsureEOF s = if eof s' then POk tt s' else PPanic) /\
    (zlen (Bytes s) = zlen P -> EnsureEOF s = POk tt s').
Proof.
  intros Hr. unfold EnsureEOF. destruct (eof s) eqn:He.
  - exists s. splits; auto; discriminate.
  - destruct (readMore_rel P j s Hr He) as (s' & E & R' & Hp). exists s'. rewrite E.
    destruct Hr as (I1 & _), R' as (I2 & RR). rewrite I1, I2. rewrite Z.gtb_ltb, Z.ltb_irrefl.
    assert (R2 : rel P j s') by (split; [exact I2|exact RR]).
    splits; [discriminate|intros _; splits; auto; now destruct (eof s')|]. intros Hl.
    destruct Hp as [->|[_ Hp]]; [reflexivity|]. pose proof (rel_len _ _ _ R2). lia.
Qed.

Lemma readMore_alone n : forall s s', Forall (fun r => snd r = EOF -> fst r = []) (input s) ->
  readMore_loop n s = POk tt s' -> eof s = false -> eof s' = true -> Bytes s' = Bytes s.
Proof.
  induction n; intros s s' Ha E He He'; cbn [readMore_loop] in E; [discriminate|].
  destruct (next_read (input s)) as [[chunk err] r] eqn:En.
  assert (Hc : (err = EOF -> chunk = []) /\ Forall (fun r => snd r = EOF -> fst r = []) r).
  { destruct (input s) as [|x inp]; cbn in En.
    - injection En as <- <- <-. split; [reflexivity|constructor].
    - injection En as -> <-. inversion Ha as [|y l Hy Hl]; subst. split; [exact Hy|exact Hl]. }
  destruct Hc as [Hc Hf]. destruct (_ && _); [discriminate|]. destruct err.
  - destruct (Z.ltb_spec 0 (zlen chunk)).
    + injection E as <-. cbn in He'. congruence.
    + assert (chunk = []) as -> by (destruct chunk; [reflexivity|rewrite zlen_cons in *; pose proof (zlen_nonneg chunk); lia]).
      rewrite app_nil_r in E. apply IHn in E; auto.
  - injection E as <-. cbn. rewrite (Hc eq_refl). apply app_nil_r.
  - discriminate.
Qed.

Lemma eof_alone_suffix u r : eof_alone (u ++ r) -> eof_alone r.
Proof. intros H. apply Forall_app in H. tauto. Qed.

Definition body_result (r : pres Font) : outcome Font :=
  match r with POk f _ => Ok f | PErr m _ => Err m | PPanic => Panic | PHang => Hang end.
Lemma parse_payload_body i : parse_payload i = body_result (parse_body (initial i)).
Proof. reflexivity. Qed.


Lemma payload_result i P : delivers i P -> bytes P -> zlen P <= MaxFontDataSize ->
  match parse_sections (full P 0) with
  | POk f s1 => exists j s2, s1 = full P j /\ 0 <= j <= zlen P /\ parse_sections (initial i) = POk f s2 /\ rel P j s2 /\ ends P f j s2 /\
      (parse_payload i = Ok (set_Data f (Bytes s2)) \/
       parse_payload i = Panic /\ j < zlen P /\ OffsetToVertKernings f + 3 <= zlen P) /\
      (j = zlen P \/ zlen P < OffsetToVertKernings f + 3 -> parse_payload i = Ok (set_Data f P))
  | PErr e s1 => parse_payload i = Err e
  | _ => False
  end.
Proof.
  intros Hd HP HM. pose proof (rel_initial i P Hd HP HM) as Hr. pose proof (sections_result P _ Hr) as Hs.
  destruct (parse_sections (full P 0)) as [f s1|e s1| |]; auto.
  - destruct Hs as (j & s2 & -> & Hj & E & R2 & En). exists j, s2. splits; auto; try lia.
    + rewrite parse_payload_body. unfold parse_body. rewrite (bind_ok _ _ _ _ _ E). cbn [pbind on_bytes].
      unfold pbind, on_bytes. destruct (ensure_eof_rel P j s2 R2) as (s3 & H1 & H2 & H3).
      destruct (eof s2) eqn:He.
      * destruct (H1 eq_refl) as [_ ->]. now left.
      * destruct (H2 eq_refl) as (_ & R3 & E3). destruct (Z.eq_dec (zlen (Bytes s2)) (zlen P)).
        -- rewrite H3 by assumption. now left.
        -- rewrite E3. destruct (eof s3); [now left|]. right. split; [reflexivity|].
           pose proof (rel_len _ _ _ R2). split; [lia|].
           destruct En as (_ & _ & _ & _ & [En|(_ & _ & En)]); [lia|congruence].
    + intros Hend. rewrite parse_payload_body. unfold parse_body. rewrite (bind_ok _ _ _ _ _ E).
      unfold pbind, on_bytes.
      assert (HB : Bytes s2 = P).
      { destruct Hend as [->|Hend].
        - apply (rel_whole P (zlen P)); auto. pose proof (rel_len _ _ _ R2). lia.
        - apply (rel_eof P j); auto. destruct En as (_ & _ & _ & _ & [En|(_ & _ & En)]); [lia|assumption]. }
      destruct (ensure_eof_rel P j s2 R2) as (s3 & _ & _ & H3). rewrite H3 by congruence. now rewrite HB.
  - destruct Hs as (s2 & E). rewrite parse_payload_body. unfold parse_body, pbind. rewrite E. reflexivity.
Qed.

Lemma set_Data_offsets f d : OffsetToVertKernings (set_Data f d) = OffsetToVertKernings f /\
  OffsetToHorzKernings (set_Data f d) = OffsetToHorzKernings f /\ Data (set_Data f d) = d.
Proof. auto. Qed.

Lemma same_errors i1 i2 P e : within_bounds P -> delivers i1 P -> delivers i2 P ->
  parse_payload i1 = Err e -> parse_payload i2 = Err e.
Proof.
  intros [HP HM] D1 D2 E. pose proof (payload_result i1 P D1 HP HM) as R1. pose proof (payload_result i2 P D2 HP HM) as R2.
  destruct (parse_sections (full P 0)) as [f s1|e' s1| |]; try contradiction.
  - destruct R1 as (j & s2 & _ & _ & _ & _ & _ & [X|[X _]] & _); congruence.
  - congruence.
Qed.

Lemma content_end_le f P : content_end f P = OffsetToVertKernings f + 3 + 5 * le_at 3 P (OffsetToVertKernings f).
Proof. reflexivity. Qed.

Lemma same_font i1 i2 P f : within_bounds P -> delivers i1 P -> delivers i2 P ->
  parse_payload i1 = Ok f -> zlen P <= content_end f P -> parse_payload i2 = Ok f /\ Data f = P.
Proof.
  intros [HP HM] D1 D2 E Hc. pose proof (payload_result i1 P D1 HP HM) as R1. pose proof (payload_result i2 P D2 HP HM) as R2.
  destruct (parse_sections (full P 0)) as [g s1|e' s1| |]; try contradiction; [|congruence].
  destruct R1 as (j & s2 & -> & Hj & _ & Rl & En & Hcase & Hend). destruct R2 as (j' & s3 & Ej & _ & _ & _ & _ & _ & Hend2).
  injection Ej as <-.
  assert (Ho : OffsetToVertKernings f = OffsetToVertKernings g).
  { destruct Hcase as [X|[X _]]; [|congruence]. rewrite X in E. injection E as <-. reflexivity. }
  assert (Hfin : j = zlen P \/ zlen P < OffsetToVertKernings g + 3).
  { rewrite content_end_le, Ho in Hc. destruct En as (_ & _ & _ & _ & [(_ & En & _)|(En & _)]); [left; lia|now right]. }
  specialize (Hend Hfin). specialize (Hend2 Hfin). rewrite Hend in E. injection E as <-. auto.
Qed.

Lemma no_hang first g i : stream_bytes i -> Parse first g i <> Hang.
Proof.
  intros Hi. unfold Parse. destruct first as [sig err].
  destruct (_ || _); [destruct (_ =? _); discriminate|]. destruct (negb _); [discriminate|]. destruct g; [discriminate|].
  unfold parse_body, pbind. 
  pose proof (wp_sections (initial i)) as Hw. unfold wp in Hw.
  assert (I0 : inv (initial i)) by (unfold inv, initial; cbn; change (zlen []) with 0; splits; try lia; [constructor|assumption]).
  specialize (Hw I0 eq_refl). destruct (parse_sections (initial i)) as [f s|e s| |]; try contradiction; try discriminate.
  unfold on_bytes, EnsureEOF. destruct Hw as [(_ & _ & Hs) _]. pose proof (readMore_inv 3 s Hs) as Hm.
  destruct (eof s); [discriminate|]. unfold readMore. destruct (readMore_loop 3 s); try contradiction; try discriminate.
  destruct (_ >? _); [discriminate|]. destruct (negb _); discriminate.
Qed.

Lemma offsets_for_all first g i f : stream_bytes i -> Parse first g i = Ok f ->
  offsets_in_order f (zlen (Data f)) /\ bytes (Data f).
Proof.
  intros Hi. unfold Parse. destruct first as [sig err].
  destruct (_ || _); [destruct (_ =? _); discriminate|]. destruct (negb _); [discriminate|]. destruct g; [discriminate|].
  unfold parse_body, pbind.
  pose proof (wp_sections (initial i)) as Hw. unfold wp in Hw.
  assert (I0 : inv (initial i)) by (unfold inv, initial; cbn; change (zlen []) with 0; splits; try lia; [constructor|assumption]).
  specialize (Hw I0 eq_refl). destruct (parse_sections (initial i)) as [f0 s|e s| |]; try contradiction; try discriminate.
  unfold on_bytes. destruct (EnsureEOF s); try discriminate. cbn [pret]. intros E. injection E as <-.
  destruct Hw as [(_ & _ & (H1 & H2 & _)) [Ho _]]. split; [|exact H2].
  unfold offsets_in_order in *. cbn [set_Data OffsetToMetrics OffsetToDyes OffsetToPalettes OffsetToGlyphNames OffsetToGlyphMasks
      OffsetToWords OffsetToSettingNames OffsetToSettingDefinitions OffsetToMappingSwitches OffsetToMapping
      OffsetToRewriteConditions OffsetToRewriteUtf8Sets OffsetToRewriteGlyphSets OffsetToUtf8Rewrites
      OffsetToGlyphRewrites OffsetToHorzKernings OffsetToVertKernings Data]. 
  repeat (split; [apply Ho|]). assert (OffsetToVertKernings f0 <= Index s) by apply Ho. lia.
Qed.

(** the data is a prefix of the payload; all of it when io.EOF comes alone *)
Lemma data_prefix i P f : within_bounds P -> delivers i P -> parse_payload i = Ok f ->
  exists t, P = Data f ++ t.
Proof.
  intros [HP HM] D E. pose proof (payload_result i P D HP HM) as R.
  destruct (parse_sections (full P 0)) as [g s1|e' s1| |]; try contradiction; [|congruence].
  destruct R as (j & s2 & -> & Hj & _ & Rl & En & Hcase & Hend).
  destruct Hcase as [X|[X _]]; [|congruence]. rewrite X in E. injection E as <-. cbn.
  destruct Rl as (_ & _ & <- & _). eauto.
Qed.

Lemma data_payload i P f : within_bounds P -> stream_bytes i -> delivers i P -> eof_alone i ->
  parse_payload i = Ok f -> Data f = P.
Proof.
  intros [HP HM] HS D Ha E. pose proof (payload_result i P D HP HM) as R.
  destruct (parse_sections (full P 0)) as [g s1|e' s1| |]; try contradiction; [|congruence].
  destruct R as (j & s2 & -> & Hj & Es & Rl & En & Hcase & Hend).
  destruct Hcase as [X|[X _]]; [|congruence]. pose proof E as E'. rewrite X in E. injection E as <-. cbn [set_Data Data].
  destruct (eof s2) eqn:He; [now apply (rel_eof P j)|].
  assert (I0 : inv (initial i)) by (unfold inv, initial; cbn; change (zlen []) with 0; splits; try lia; [constructor|assumption]).
  pose proof (wp_sections (initial i) I0 eq_refl) as Hw. unfold wp in Hw. rewrite Es in Hw.
  destruct Hw as [((t & u & _ & Hu) & _) _]. cbn in Hu. rewrite Hu in Ha. apply eof_alone_suffix in Ha.
  destruct (ensure_eof_rel P j s2 Rl) as (s3 & _ & H2 & _). destruct (H2 He) as (E3 & R3 & E4).
  rewrite parse_payload_body in E'. unfold parse_body in E'. rewrite (bind_ok _ _ _ _ _ Es) in E'.
  unfold pbind, on_bytes in E'. rewrite E4 in E'. destruct (eof s3) eqn:He3; [|discriminate E'].
  rewrite <- (readMore_alone 3 s2 s3 Ha E3 He He3). now apply (rel_eof P j).
Qed.

(** ** Truncation *)
Lemma kernings_full P i n m : bytes P -> 0 <= i <= zlen P -> parse_kernings n m (full P i) =
  if i + 3 <=? zlen P then
    let c := le_at 3 P i in
    if c >? n * n then PErr m (full P (i + 3))
    else if i + 3 + 5 * c <=? zlen P then POk i (full P (i + 3 + 5 * c))
    else PErr premature (full P (i + 3))
  else POk i (full P i).
Proof.
  intros HP Hi. unfold parse_kernings. rewrite (bind_ok get_index _ (full P i) i (full P i) eq_refl).
  unfold pbind at 1. rewrite ign24_full by auto. destruct (Z.leb_spec (i + 3) (zlen P)); [|reflexivity].
  cbv zeta. pose proof (le_at_range 3 P i HP) as Hc. set (c := le_at 3 P i) in *.
  destruct (Z.gtb_spec c 0).
  - destruct (Z.gtb_spec c (n * n)); [reflexivity|].
    rewrite (bind_ok (when false m) _ _ tt _ eq_refl). unfold pbind. rewrite advance_full by lia.
    replace (i + 3 + 5 * c) with (i + 3 + c * 5) by lia. destruct (_ <=? _); reflexivity.
  - destruct (Z.gtb_spec c (n * n)); [nia|]. assert (c = 0) as -> by lia.
    replace (i + 3 + 5 * 0) with (i + 3) by lia. destruct (Z.leb_spec (i + 3) (zlen P)); [reflexivity|lia].
Qed.

(** A cut at [k] is accepted inside the counters of the kernings and after the content. *)
Definition cut_accepted (f : Font) (c k : Z) : Prop :=
  OffsetToHorzKernings f <= k < OffsetToHorzKernings f + 3 \/
  OffsetToVertKernings f <= k < OffsetToVertKernings f + 3 \/ c <= k.

Lemma sections_cut P f j k : bytes P -> parse_sections (full P 0) = POk f (full P j) -> 0 <= k <= zlen P ->
  let K := firstn (Z.to_nat k) P in
  (k < OffsetToHorzKernings f -> exists e s, parse_sections (full K 0) = PErr e s) /\
  (OffsetToHorzKernings f <= k < OffsetToHorzKernings f + 3 -> exists f', parse_sections (full K 0) = POk f' (full K (OffsetToHorzKernings f)) /\
     OffsetToVertKernings f' = OffsetToHorzKernings f) /\
  (OffsetToHorzKernings f + 3 <= k < OffsetToVertKernings f -> exists e s, parse_sections (full K 0) = PErr e s) /\
  (OffsetToVertKernings f <= k < OffsetToVertKernings f + 3 -> exists f', parse_sections (full K 0) = POk f' (full K (Z.min k (OffsetToVertKernings f))) /\
     k < OffsetToVertKernings f' + 3) /\
  (OffsetToVertKernings f + 3 <= k < j -> exists e s, parse_sections (full K 0) = PErr e s) /\
  (OffsetToVertKernings f + 3 <= k -> j <= k -> parse_sections (full K 0) = POk f (full K j)).
Proof.
  intros HP E Hk. rewrite sections_split in E.
  apply bind_inv in E as ([mk ng] & s1 & Ep & E).
  destruct (cut_prefix P HP k Hk _ _ Ep) as (h & -> & Hh & Hcut). specialize (Hcut ltac:(lia)).
  pose proof (prefix_result P HP) as Hq. rewrite Ep in Hq. destruct Hq as (h' & Eh & _ & Hq). injection Eh as <-.
  apply bind_inv in E as (h0 & s2 & Eh & E). apply bind_inv in E as (v0 & s3 & Ev & E).
  injection E as Ef Es. subst f s3.
  assert (HK : bytes (firstn (Z.to_nat k) P)) by now apply bytes_firstn.
  pose proof (K_len P k Hk) as LK. unfold K in *.
  set (K := firstn (Z.to_nat k) P) in *. cbv zeta. rewrite !sections_split.
  rewrite kernings_full in Eh by (auto; lia). pose proof (le_at_range 3 P h HP) as Hc.
  (* horizontal *)
  assert (Hv : exists v, s2 = full P v /\ h0 = h /\ h <= v <= zlen P /\
     (h + 3 <= zlen P /\ v = h + 3 + 5 * le_at 3 P h /\ (le_at 3 P h >? ng * ng) = false \/ zlen P < h + 3 /\ v = h)).
  { destruct (Z.leb_spec (h + 3) (zlen P)); cbv zeta in Eh.
    - destruct (le_at 3 P h >? ng * ng) eqn:Eg; [discriminate|]. destruct (Z.leb_spec (h + 3 + 5 * le_at 3 P h) (zlen P)); [|discriminate].
      injection Eh as <- <-. eexists; splits; auto; try lia; left; auto with zarith.
    - injection Eh as <- <-. exists h. splits; auto; lia. }
  destruct Hv as (v & -> & -> & Hv & Hvc).
  rewrite kernings_full in Ev by (auto; lia). pose proof (le_at_range 3 P v HP) as Hc2.
  assert (Hj : v0 = v /\ v <= j <= zlen P /\
     (v + 3 <= zlen P /\ j = v + 3 + 5 * le_at 3 P v /\ (le_at 3 P v >? ng * ng) = false \/ zlen P < v + 3 /\ j = v)).
  { destruct (Z.leb_spec (v + 3) (zlen P)); cbv zeta in Ev.
    - destruct (le_at 3 P v >? ng * ng) eqn:Eg; [discriminate|]. destruct (Z.leb_spec (v + 3 + 5 * le_at 3 P v) (zlen P)); [|discriminate].
      injection Ev as <- <-. splits; auto; try lia; left; auto with zarith.
    - injection Ev as <- <-. splits; auto; lia. }
  destruct Hj as (-> & Hj & Hjc).
  destruct (Hq h v (zlen P)) as (_ & Qh & Qv & _); [cbn; lia|lia|lia|]. cbn [fst] in *. rewrite Qh, Qv.
  destruct Hcut as [Hok Hbad].
  (* prefix on K when h <= k *)
  assert (Run : h <= k -> forall r, (run ohk <- parse_kernings ng horz_msg; run ovk <- parse_kernings ng vert_msg; pret (mk ohk ovk)) (full K h) = r ->
     (run ' (mk, numGlyphs) <- parse_prefix; run ohk <- parse_kernings numGlyphs horz_msg;
      run ovk <- parse_kernings numGlyphs vert_msg; pret (mk ohk ovk)) (full K 0) = r).
  { intros Hle r Er. rewrite (bind_ok _ _ _ _ _ (Hok Hle)). exact Er. }
  assert (K1 : h <= k -> parse_kernings ng horz_msg (full K h) =
      if k <? h + 3 then POk h (full K h) else if v <=? k then POk h (full K v) else PErr premature (full K (h + 3))).
  { intros Hle. rewrite kernings_full by (auto; lia). rewrite LK. cbv zeta.
    destruct (Z.leb_spec (h + 3) k), (Z.ltb_spec k (h + 3)); try lia; auto.
    destruct Hvc as [(V1 & V2 & V3)|]; [|lia].
    unfold K. change (firstn (Z.to_nat k) P) with (Proofs_Parse6.K P k). rewrite K_le_at by lia. rewrite V3, <- V2.
    reflexivity. }
  assert (K2 : v <= k -> parse_kernings ng vert_msg (full K v) =
      if k <? v + 3 then POk v (full K v) else if j <=? k then POk v (full K j) else PErr premature (full K (v + 3))).
  { intros Hle. rewrite kernings_full by (auto; lia). rewrite LK. cbv zeta.
    destruct (Z.leb_spec (v + 3) k), (Z.ltb_spec k (v + 3)); try lia; auto.
    destruct Hjc as [(V1 & V2 & V3)|]; [|lia].
    unfold K. change (firstn (Z.to_nat k) P) with (Proofs_Parse6.K P k). rewrite K_le_at by lia. rewrite V3, <- V2.
    reflexivity. }
  splits.
  - intros H. destruct Hbad as (e & s' & Eb); [lia|]. exists e, s'. unfold pbind. rewrite Eb. reflexivity.
  - intros H. exists (mk h h). destruct (Hq h h (zlen P)) as (_ & _ & Q3 & _); [cbn; lia|lia|lia|]. cbn [fst] in *. split; [|exact Q3].
    apply Run; [lia|]. specialize (K1 ltac:(lia)). destruct (Z.ltb_spec k (h + 3)); [|lia].
    rewrite (bind_ok _ _ _ _ _ K1). unfold pbind. rewrite kernings_full by (auto; lia). rewrite LK.
    destruct (Z.leb_spec (h + 3) k); [lia|]. reflexivity.
  - intros H. exists premature, (full K (h + 3)). apply Run; [lia|]. specialize (K1 ltac:(lia)).
    destruct (Z.ltb_spec k (h + 3)); [lia|]. destruct (Z.leb_spec v k); [lia|]. unfold pbind. now rewrite K1.
  - intros H. assert (Hhk : h <= k) by lia. specialize (K1 Hhk). specialize (K2 ltac:(lia)).
    destruct (Z.ltb_spec k (v + 3)); [|lia]. destruct (Z.ltb_spec k (h + 3)).
    + (* then v = h *) assert (v = h) by (destruct Hvc; lia). subst v.
      exists (mk h h). split; [|rewrite Qv; lia]. rewrite Z.min_r by lia. apply Run; [lia|].
      rewrite (bind_ok _ _ _ _ _ K1), (bind_ok _ _ _ _ _ K2). reflexivity.
    + destruct (Z.leb_spec v k); [|lia]. exists (mk h v). split; [|rewrite Qv; lia]. rewrite Z.min_r by lia. apply Run; [lia|].
      rewrite (bind_ok _ _ _ _ _ K1), (bind_ok _ _ _ _ _ K2). reflexivity.
  - intros H. assert (Hhk : h <= k) by lia. specialize (K1 Hhk). specialize (K2 ltac:(lia)).
    exists premature, (full K (v + 3)). apply Run; [lia|].
    destruct (Z.ltb_spec k (h + 3)).
    { assert (v = h) by (destruct Hvc; lia). lia. }
    destruct (Z.leb_spec v k); [|lia]. destruct (Z.ltb_spec k (v + 3)); [lia|]. destruct (Z.leb_spec j k); [lia|].
    rewrite (bind_ok _ _ _ _ _ K1). unfold pbind. now rewrite K2.
  - intros H H'. assert (Hhk : h <= k) by lia. specialize (K1 Hhk). specialize (K2 ltac:(lia)).
    apply Run; [lia|].
    destruct (Z.ltb_spec k (h + 3)).
    { assert (v = h) by (destruct Hvc; lia). lia. }
    destruct (Z.leb_spec v k); [|lia]. destruct (Z.ltb_spec k (v + 3)); [lia|]. destruct (Z.leb_spec j k); [|lia].
    rewrite (bind_ok _ _ _ _ _ K1), (bind_ok _ _ _ _ _ K2). reflexivity.
Qed.
