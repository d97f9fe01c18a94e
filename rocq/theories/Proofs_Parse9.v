(** Truncated payloads, panics and strings: the statements used for the properties. *)
From Verif Require Import Base BaseFacts Model_Helpers Spec_Helpers Proofs_Helpers Model_Font Model_Parse Spec_Parse Proofs_Parse Proofs_Parse2 Proofs_Parse3 Proofs_Parse4 Proofs_Parse5 Proofs_Parse6 Proofs_Parse7 Proofs_Parse8.
From Coq Require Import Lia.

Lemma within_firstn P k : within_bounds P -> within_bounds (firstn k P).
Proof.
  intros [H1 H2]. split; [now apply bytes_firstn|]. rewrite zlen_firstn. lia.
Qed.

Lemma payload_ok i P f j : within_bounds P -> delivers i P -> parse_sections (full P 0) = POk f (full P j) ->
  j = zlen P \/ zlen P < OffsetToVertKernings f + 3 -> parse_payload i = Ok (set_Data f P).
Proof.
  intros [HP HM] D E H. pose proof (payload_result i P D HP HM) as R. rewrite E in R.
  destruct R as (j' & s2 & Ej & _ & _ & _ & _ & _ & Hend). injection Ej as <-. auto.
Qed.
Lemma payload_err i P e s : within_bounds P -> delivers i P -> parse_sections (full P 0) = PErr e s -> parse_payload i = Err e.
Proof. intros [HP HM] D E. pose proof (payload_result i P D HP HM) as R. now rewrite E in R. Qed.

Lemma truncated i P f k i' : within_bounds P -> delivers i P -> parse_payload i = Ok f ->
  0 <= k < zlen P -> k < content_end f P -> delivers i' (firstn (Z.to_nat k) P) ->
  let h := OffsetToHorzKernings f in let v := OffsetToVertKernings f in
  (h <= k < h + 3 \/ v <= k < v + 3 -> exists f', parse_payload i' = Ok f') /\
  (~ (h <= k < h + 3 \/ v <= k < v + 3) -> exists e, parse_payload i' = Err e).
Proof.
  intros HB D E Hk Hc D'. pose proof HB as [HP HM]. pose proof (payload_result i P D HP HM) as R.
  destruct (parse_sections (full P 0)) as [g s1|e' s1| |] eqn:Es; try contradiction; [|congruence].
  destruct R as (j & s2 & -> & Hj & _ & Rl & En & Hcase & _).
  destruct Hcase as [X|[X _]]; [|congruence]. rewrite X in E. injection E as <-.
  cbn [set_Data OffsetToHorzKernings OffsetToVertKernings]. unfold content_end in Hc. cbn [set_Data OffsetToVertKernings] in Hc.
  change (le_value (firstn 3 (skipn (Z.to_nat (OffsetToVertKernings g)) P))) with (le_at 3 P (OffsetToVertKernings g)) in Hc.
  pose proof (sections_cut P g j k HP Es ltac:(lia)) as (C1 & C2 & C3 & C4 & C5 & _).
  pose proof (within_firstn P (Z.to_nat k) HB) as HB'.
  assert (LK : zlen (firstn (Z.to_nat k) P) = k) by (rewrite zlen_firstn; lia).
  destruct En as (E1 & _ & _ & E2 & E3). split.
  - intros [H|H].
    + destruct (C2 H) as (f' & Ef & Ev). eexists. eapply payload_ok; eauto. right. lia.
    + destruct (C4 H) as (f' & Ef & Ev). eexists. eapply payload_ok; eauto. right. lia.
  - intros H.
    assert (Hbad : exists e s, parse_sections (full (firstn (Z.to_nat k) P) 0) = PErr e s).
    { destruct (Z_lt_dec k (OffsetToHorzKernings g)) as [L|L]; [auto|].
      destruct (Z_lt_dec k (OffsetToVertKernings g)) as [L2|L2]; [apply C3; lia|].
      apply C5. destruct E3 as [E3|E3]; lia. }
    destruct Hbad as (e & s & Eb). exists e. eapply payload_err; eauto.
Qed.

Lemma panic_trailing i P : within_bounds P -> delivers i P -> parse_payload i = Panic ->
  exists k f, 0 <= k < zlen P /\ parse_payload [(firstn (Z.to_nat k) P, EOF)] = Ok f.
Proof.
  intros HB D E. pose proof HB as [HP HM]. pose proof (payload_result i P D HP HM) as R.
  destruct (parse_sections (full P 0)) as [g s1|e' s1| |] eqn:Es; try contradiction; [|congruence].
  destruct R as (j & s2 & -> & Hj & _ & Rl & En & Hcase & _).
  destruct Hcase as [X|(_ & Hlt & Hv)]; [congruence|].
  pose proof (sections_cut P g j j HP Es ltac:(lia)) as (_ & _ & _ & _ & _ & C6).
  exists j, (set_Data g (firstn (Z.to_nat j) P)). split; [lia|]. apply (payload_ok _ (firstn (Z.to_nat j) P) g j).
  - now apply within_firstn.
  - split; [cbn; now destruct (firstn (Z.to_nat j) P)|reflexivity].
  - destruct En as (_ & _ & _ & _ & E3). apply C6; [|lia]. pose proof (le_at_range 3 P (OffsetToVertKernings g) HP). lia.
  - left. rewrite zlen_firstn. lia.
Qed.

(** ** Strings *)
Lemma skipn_mid {A} (pre post : list A) n : n = zlen pre -> skipn (Z.to_nat n) (pre ++ post) = post.
Proof.
  intros ->. unfold zlen. rewrite Nat2Z.id, skipn_app, Nat.sub_diag, skipn_all. reflexivity.
Qed.
Lemma le_at_mid n pre e post i : i = zlen pre -> length e = n -> le_at n (pre ++ e ++ post) i = le_value e.
Proof.
  intros Hi <-. unfold le_at. rewrite skipn_mid by assumption.
  now rewrite firstn_app, firstn_all, Nat.sub_diag, firstn_O, app_nil_r.
Qed.

Lemma run_skip {A} (m : action A) i P n v j : within_bounds P -> delivers i P -> 0 <= n <= zlen P ->
  sim_at P n m -> m (full P n) = POk v (full P j) ->
  exists s', (run _ <- AdvanceBytes n; m) (initial i) = POk v s' /\ Index s' = j /\ exists t, P = Bytes s' ++ t.
Proof.
  intros [HP HM] D Hn Hm E. pose proof (rel_initial i P D HP HM) as R0.
  pose proof (sim_advance P 0 n ltac:(lia) _ R0) as Ha. rewrite advance_full in Ha by lia.
  destruct (Z.leb_spec (0 + n) (zlen P)); [|lia]. destruct Ha as (j1 & s1 & E1 & Ea & R1). injection E1 as <-.
  rewrite (bind_ok _ _ _ _ _ Ea). specialize (Hm s1). change (0 + n) with n in R1. specialize (Hm R1). rewrite E in Hm.
  destruct Hm as (j2 & s2 & Ej & Em & R2). injection Ej as <-. exists s2. split; [exact Em|].
  destruct R2 as (-> & _ & <- & _). eauto.
Qed.

Lemma short_string_read i pre str post enc : bytes str -> within_bounds (pre ++ enc ++ post) ->
  AppendShortString [] str = Ok enc -> delivers i (pre ++ enc ++ post) ->
  exists s', (run _ <- AdvanceBytes (zlen pre); ReadShortStr) (initial i) = POk str s' /\
    Index s' = zlen (pre ++ enc) /\ exists t, pre ++ enc ++ post = Bytes s' ++ t.
Proof.
  intros Hs HB Henc D. unfold AppendShortString in Henc. destruct (Z.gtb_spec (zlen str) 255); [discriminate|].
  injection Henc as <-. rewrite ?app_nil_l in *. pose proof (zlen_nonneg str) as H0. pose proof (zlen_nonneg pre) as H1.
  pose proof (zlen_nonneg post) as H2.
  change ([u8 (zlen str)] ++ str) with (u8 (zlen str) :: str) in *. set (enc := u8 (zlen str) :: str) in *. set (P := pre ++ enc ++ post) in *.
  assert (LE : zlen enc = 1 + zlen str) by (unfold enc; rewrite zlen_cons; lia).
  assert (LP : zlen P = zlen pre + (1 + zlen str) + zlen post) by (unfold P; rewrite !zlen_app; lia).
  assert (Hbyte : byte_at P (zlen pre) = zlen str).
  { unfold byte_at, P, enc. rewrite <- (Z.add_0_r (zlen pre)). unfold zlen. rewrite Z.add_0_r, Nat2Z.id, app_nth2 by lia.
    rewrite Nat.sub_diag. cbn. apply u8_id. unfold byte, zlen in *. lia. }
  apply run_skip; auto; [lia|apply sim_short_str|].
  unfold ReadShortStr, pbind. rewrite u8_full by lia. destruct (Z.leb_spec (zlen pre + 1) (zlen P)); [|lia].
  rewrite Hbyte. rewrite read_str_full by lia. destruct (Z.leb_spec (zlen pre + 1 + zlen str) (zlen P)); [|lia].
  f_equal.
  - unfold P, enc. change ((u8 (zlen str) :: str) ++ post) with ([u8 (zlen str)] ++ str ++ post).
    rewrite app_assoc, skipn_mid by (rewrite zlen_app; reflexivity).
    unfold zlen. now rewrite Nat2Z.id, firstn_app, firstn_all, Nat.sub_diag, firstn_O, app_nil_r.
  - rewrite zlen_app. f_equal. lia.
Qed.

Lemma long_string_read i pre str post enc : bytes str -> within_bounds (pre ++ enc ++ post) ->
  AppendString [] str = Ok enc -> delivers i (pre ++ enc ++ post) ->
  exists s', (run _ <- AdvanceBytes (zlen pre); ReadString) (initial i) = POk str s' /\
    Index s' = zlen (pre ++ enc) /\ exists t, pre ++ enc ++ post = Bytes s' ++ t.
Proof.
  intros Hs HB Henc D. pose proof HB as [HPb _]. unfold AppendString in Henc. destruct (Z.gtb_spec (zlen str) 65535); [discriminate|].
  pose proof (zlen_nonneg str) as H0. pose proof (zlen_nonneg pre) as H1.
  pose proof (zlen_nonneg post) as H2.
  assert (Hu : u16 (zlen str) = zlen str) by (unfold u16; apply Z.mod_small; lia).
  rewrite append16_spec, Hu in Henc.
  assert (E : le_digits 2 (zlen str) ++ str = enc) by (rewrite app_nil_l in Henc; congruence). clear Henc. subst enc.
  set (d := le_digits 2 (zlen str)) in *. assert (Ld : length d = 2%nat) by apply le_digits_length.
  set (enc := d ++ str) in *. set (P := pre ++ enc ++ post) in *.
  assert (LE : zlen enc = 2 + zlen str) by (unfold enc; rewrite zlen_app; unfold zlen at 1; rewrite Ld; lia).
  assert (LP : zlen P = zlen pre + (2 + zlen str) + zlen post) by (unfold P; rewrite !zlen_app; lia).
  assert (Hval : le_at 2 P (zlen pre) = zlen str).
  { unfold P, enc. rewrite <- app_assoc. rewrite le_at_mid by (auto; reflexivity).
    unfold d. rewrite le_value_digits. change (256 ^ Z.of_nat 2) with 65536. apply Z.mod_small. lia. }
  apply run_skip; auto; [lia|apply sim_string|].
  unfold ReadString, pbind. rewrite u16_full by (auto; lia). destruct (Z.leb_spec (zlen pre + 2) (zlen P)); [|lia].
  rewrite Hval. rewrite read_str_full by lia. destruct (Z.leb_spec (zlen pre + 2 + zlen str) (zlen P)); [|lia].
  f_equal.
  - unfold P, enc. rewrite <- app_assoc, app_assoc, skipn_mid by (rewrite zlen_app; unfold zlen at 3; rewrite Ld; reflexivity).
    unfold zlen. now rewrite Nat2Z.id, firstn_app, firstn_all, Nat.sub_diag, firstn_O, app_nil_r.
  - rewrite zlen_app. f_equal. lia.
Qed.

Lemma short_slice_skip i pre str post enc : bytes str -> within_bounds (pre ++ enc ++ post) ->
  AppendShortString [] str = Ok enc -> delivers i (pre ++ enc ++ post) ->
  exists s', (run _ <- AdvanceBytes (zlen pre); AdvanceShortSlice) (initial i) = POk tt s' /\ Index s' = zlen (pre ++ enc).
Proof.
  intros Hs HB Henc D. unfold AppendShortString in Henc. destruct (Z.gtb_spec (zlen str) 255); [discriminate|].
  injection Henc as <-. rewrite ?app_nil_l in *. pose proof (zlen_nonneg str) as H0. pose proof (zlen_nonneg pre) as H1.
  pose proof (zlen_nonneg post) as H2. pose proof HB as [HPb _].
  change ([u8 (zlen str)] ++ str) with (u8 (zlen str) :: str) in *. set (enc := u8 (zlen str) :: str) in *. set (P := pre ++ enc ++ post) in *.
  assert (LE : zlen enc = 1 + zlen str) by (unfold enc; rewrite zlen_cons; lia).
  assert (LP : zlen P = zlen pre + (1 + zlen str) + zlen post) by (unfold P; rewrite !zlen_app; lia).
  assert (Hbyte : byte_at P (zlen pre) = zlen str).
  { unfold byte_at, P, enc. rewrite <- (Z.add_0_r (zlen pre)). unfold zlen. rewrite Z.add_0_r, Nat2Z.id, app_nth2 by lia.
    rewrite Nat.sub_diag. cbn. apply u8_id. unfold byte, zlen in *. lia. }
  destruct (run_skip AdvanceShortSlice i P (zlen pre) tt (zlen (pre ++ enc))) as (s' & E1 & E2 & _); eauto; [lia| |].
  - apply sim_bind; [apply sim_u8|]. intros a j E _. rewrite u8_full in E by lia.
    destruct (_ <=? _); [|discriminate]. injection E as <- _. apply sim_advance.
    pose proof (byte_at_range P (zlen pre) HPb). unfold byte in *. lia.
  - unfold AdvanceShortSlice, pbind. rewrite u8_full by lia. destruct (Z.leb_spec (zlen pre + 1) (zlen P)); [|lia].
    rewrite Hbyte. rewrite advance_full by lia. destruct (Z.leb_spec (zlen pre + 1 + zlen str) (zlen P)); [|lia].
    rewrite zlen_app. do 2 f_equal. lia.
Qed.

Lemma string_encoding buffer str :
  (zlen str <= 255 -> exists enc, AppendShortString [] str = Ok enc /\ AppendShortString buffer str = Ok (buffer ++ enc) /\ zlen enc = 1 + zlen str) /\
  (255 < zlen str -> AppendShortString buffer str = Panic) /\
  (zlen str <= 65535 -> exists enc, AppendString [] str = Ok enc /\ AppendString buffer str = Ok (buffer ++ enc) /\ zlen enc = 2 + zlen str) /\
  (65535 < zlen str -> AppendString buffer str = Panic).
Proof.
  unfold AppendShortString, AppendString. splits; intros H.
  - destruct (Z.gtb_spec (zlen str) 255); [lia|]. eexists; splits; [reflexivity|now rewrite <- app_assoc|].
    cbn [app]. rewrite zlen_cons. lia.
  - destruct (Z.gtb_spec (zlen str) 255); [reflexivity|lia].
  - destruct (Z.gtb_spec (zlen str) 65535); [lia|]. rewrite !append16_spec. eexists; splits; [reflexivity|now rewrite <- app_assoc|].
    rewrite app_nil_l, zlen_app. unfold zlen at 1. rewrite le_digits_length. lia.
  - destruct (Z.gtb_spec (zlen str) 65535); [reflexivity|lia].
Qed.

Lemma sections_no_panic i : stream_bytes i ->
  parse_sections (initial i) <> PPanic /\ parse_sections (initial i) <> PHang.
Proof.
  intros Hi. pose proof (wp_sections (initial i)) as Hw. unfold wp in Hw.
  assert (I0 : inv (initial i)) by (unfold inv, initial; cbn; change (zlen []) with 0; splits; try lia; [constructor|assumption]).
  specialize (Hw I0 eq_refl). destruct (parse_sections (initial i)); try contradiction; split; discriminate.
Qed.
