(** Words, header and metrics accessors. *)
From Verif Require Import Base BaseFacts Spec_Helpers Model_Helpers Proofs_Helpers Model_Date Model_Words Model_Font
  Spec_Format Proofs_Format Model_Parse Spec_Parse Proofs_Parse8.

(** ** words *)
(** the reads of a pair of neighbouring EndOffset entries *)
Lemma end16 {A} d off (l : list (list A)) i b e : stored d off (offsets 2 l) -> zget l i = Ok b ->
  zlen (concat l) < 65536 -> e = off + 2 * i -> (do b <- zfrom d e; DecodeUint16LE b) = Ok (start_of l i + zlen b).
Proof.
  intros H E Hl ->. pose proof (end_le _ _ _ E). pose proof (start_nonneg l i). pose proof (zlen_nonneg b).
  apply from16; [exact (stored_end 2 l d off i b H E)|lia].
Qed.
Lemma start16 {A} d off (l : list (list A)) i b e (c : bool) : stored d off (offsets 2 l) -> zget l i = Ok b ->
  zlen (concat l) < 65536 -> e = off + 2 * (i - 1) -> (c = true <-> i > 0) ->
  (if c then do b <- zfrom d e; DecodeUint16LE b else Ok 0) = Ok (start_of l i).
Proof.
  intros H E Hl -> Hc. pose proof (start_le l i). pose proof (start_nonneg l i).
  pose proof (zget_ok_range _ _ _ E) as R. destruct c.
  - assert (0 < i) by (apply Hc in Hl as _ || (pose proof (proj1 Hc eq_refl); lia)).
    apply from16; [exact (stored_start 2 l d off i b H E ltac:(lia))|lia].
  - assert (i = 0) by (destruct (Z.eq_dec i 0); [assumption|]; assert (false = true) by (apply Hc; lia); discriminate).
    subst. now rewrite start_0.
Qed.

Lemma nonempty_len {A} (l : list A) : l <> [] -> 0 < zlen l.
Proof. destruct l; [congruence|]. rewrite zlen_cons. pose proof (zlen_nonneg l). lia. Qed.
Lemma forall_get {A} (P : A -> Prop) l i a : Forall P l -> zget l i = Ok a -> P a.
Proof. intros H E. apply zget_in in E. rewrite Forall_forall in H. auto. Qed.

Lemma get_word f ws i : stored (Data f) (OffsetToWords f) (words_bytes ws) ->
  Forall (fun w => w <> []) ws -> zlen (concat ws) < 65536 -> 0 <= i ->
  settings_GetWord f i = if i <? zlen ws then zget ws i else GetPredefinedWord i.
Proof.
  intros H Hne Hl Hi. unfold settings_GetWord, settings_NumWords, words_bytes in *.
  apply stored_cons in H. destruct H as [-> H]. cbn [bind].
  destruct (Z.ltb_spec i (zlen ws)) as [Hlt|]; [|reflexivity].
  destruct (zget_in_range ws i ltac:(lia)) as [w E]. rewrite E.
  apply stored_indexed in H. destruct H as [H1 H2]. cbv zeta.
  rewrite !shiftl_mul by lia. change (2 ^ 1) with 2.
  rewrite <- (bind_assoc (zfrom _ _) DecodeUint16LE).
  rewrite (end16 _ _ _ _ _ _ H1 E) by lia. cbn [bind].
  rewrite (start16 _ _ _ _ _ _ _ H1 E) by lia. cbn [bind].
  pose proof (forall_get _ _ _ _ Hne E) as Hw. pose proof (nonempty_len _ Hw).
  destruct (Z.leb_spec (start_of ws i + zlen w) (start_of ws i)); [lia|].
  apply stored_string; [|lia|assumption].
  pose proof (stored_blob _ _ _ _ _ H2 E) as H3. cbn in H3.
  replace (OffsetToWords f + 1 + zlen ws * 2) with (OffsetToWords f + 1 + Z.of_nat 2 * zlen ws) by lia. exact H3.
Qed.

Lemma predefined_table :
  forallb (fun i => match GetPredefinedWord i with Ok w => negb (zlen w =? 0) | _ => false end) (zseq 256) = true.
Proof. vm_compute. reflexivity. Qed.
Lemma predefined_total i : byte i -> exists w, GetPredefinedWord i = Ok w /\ w <> [].
Proof.
  intros Hi. pose proof (byte_forallb _ predefined_table i Hi) as H. cbv beta in H.
  destruct (GetPredefinedWord i) as [w| | |] eqn:E; try discriminate. exists w. split; [reflexivity|].
  destruct w; [change (negb true = true) in H; discriminate|congruence].
Qed.
Lemma predefined_panic i : ~ byte i -> GetPredefinedWord i = Panic.
Proof.
  intros H. unfold GetPredefinedWord. rewrite zget_panic; [reflexivity|].
  change (zlen predefWords) with 256. unfold byte in H. lia.
Qed.
(** the words other than "undefined", as their first index *)
Fixpoint bytes_eqb (a b : list Z) : bool :=
  match a, b with [], [] => true | x :: a', y :: b' => (x =? y) && bytes_eqb a' b' | _, _ => false end.
Lemma bytes_eqb_eq a : forall b, bytes_eqb a b = true <-> a = b.
Proof.
  induction a as [|x a IH]; intros [|y b]; cbn [bytes_eqb]; split; intros H; try discriminate; auto.
  - apply andb_prop in H. destruct H as [H1 H2]. apply IH in H2. apply Z.eqb_eq in H1. congruence.
  - injection H as -> ->. rewrite Z.eqb_refl. cbn. now apply IH.
Qed.
Definition undefined_word : list Z := str_bytes "undefined".
Definition word_at (i : Z) : list Z := str_bytes (nth (Z.to_nat i) predefWords EmptyString).
Lemma predefined_distinct_table :
  forallb (fun i => forallb (fun j => (i =? j) || bytes_eqb (word_at i) undefined_word ||
     negb (bytes_eqb (word_at i) (word_at j)))
    (zseq 256)) (zseq 256) = true.
Proof. vm_compute. reflexivity. Qed.
Lemma predefined_nth i : byte i -> GetPredefinedWord i = Ok (word_at i).
Proof. intros Hi. unfold GetPredefinedWord. rewrite (zget_nth _ _ EmptyString); [reflexivity|]. exact Hi. Qed.
Lemma predefined_distinct i j w : GetPredefinedWord i = Ok w -> GetPredefinedWord j = Ok w ->
  w <> undefined_word -> i = j.
Proof.
  intros Ei Ej Hw.
  assert (Hi : byte i) by (unfold GetPredefinedWord in Ei; destruct (zget predefWords i) eqn:E; try discriminate; now apply zget_ok_range in E).
  assert (Hj : byte j) by (unfold GetPredefinedWord in Ej; destruct (zget predefWords j) eqn:E; try discriminate; now apply zget_ok_range in E).
  pose proof (byte_forallb _ predefined_distinct_table i Hi) as H. cbv beta in H.
  pose proof (byte_forallb _ H j Hj) as H'. cbv beta in H'.
  rewrite (predefined_nth i Hi) in Ei. rewrite (predefined_nth j Hj) in Ej.
  assert (Xi : word_at i = w) by congruence. assert (Xj : word_at j = w) by congruence. rewrite Xi, Xj in H'.
  apply orb_prop in H'. destruct H' as [H'|H'].
  - apply orb_prop in H'. destruct H' as [H'|H']; [now apply Z.eqb_eq|]. apply bytes_eqb_eq in H'. contradiction.
  - assert (bytes_eqb w w = true) by now apply bytes_eqb_eq. rewrite H0 in H'. discriminate.
Qed.

(** ** header *)
Lemma stored_whole l post : stored (l ++ post) 0 l.
Proof. exists [], post. split; [reflexivity|reflexivity]. Qed.
Lemma zlen_date ymd : zlen (date_bytes ymd) = 4.
Proof. destruct ymd as [[y m] d]. reflexivity. Qed.
Lemma date_stored d i ymd : stored d i (date_bytes ymd) -> date_in_range ymd ->
  date_at d i = Ok (let '(y, m, dd) := ymd in mkDate y m dd).
Proof.
  destruct ymd as [[y m] dd]. intros H (Hy & Hm & Hd). unfold date_at.
  rewrite (stored_slice_eq _ _ _ _ H) by reflexivity. cbn [bind date_bytes].
  rewrite decode_date_spec; [|cbn; repeat constructor; unfold byte in *; lia].
  rewrite zlen_app, zlen_le_digits. change (Z.of_nat 2 + zlen [m; dd] <? 4) with false. cbv iota.
  cbn [le_digits app bind le_value]. f_equal. f_equal. lia.
Qed.

Lemma zlen_short s : zlen (short_string s) = 1 + zlen s.
Proof. unfold short_string. now rewrite zlen_cons. Qed.
Record header_layout (d : list Z) (h : header_fields) : Prop := {
  hl_format : stored d 0 (le_digits 4 (h_format h));
  hl_id : stored d 4 (le_digits 8 (h_id h));
  hl_major : stored d 12 (le_digits 2 (h_major h));
  hl_minor : stored d 14 (le_digits 2 (h_minor h));
  hl_first : stored d 16 (date_bytes (h_first_date h));
  hl_majord : stored d 20 (date_bytes (h_major_date h));
  hl_minord : stored d 24 (date_bytes (h_minor_date h));
  hl_name : stored d 28 (short_string (h_name h));
  hl_family : stored d (29 + zlen (h_name h)) (short_string (h_family h));
  hl_author : stored d (30 + zlen (h_name h) + zlen (h_family h)) (short_string (h_author h));
  hl_about : stored d (31 + zlen (h_name h) + zlen (h_family h) + zlen (h_author h)) (long_string (h_about h)) }.
Lemma header_laid_out d h : stored d 0 (header_bytes h) -> header_layout d h.
Proof.
  intros H. unfold header_bytes in H.
  do 10 (apply stored_app in H; let H1 := fresh "S" in destruct H as [H1 H]).
  rewrite ?zlen_le_digits, ?zlen_date in *. rewrite !zlen_short in *.
  constructor; try assumption.
  - eapply stored_at; [exact S7|lia].
  - eapply stored_at; [exact S8|lia].
  - eapply stored_at; [exact H|lia].
Qed.

Lemma header_fixed d h post : d = header_bytes h ++ post -> header_in_range h ->
  header_FormatVersion d = Ok (h_format h) /\ header_ID d = Ok (h_id h) /\
  header_VersionMajor d = Ok (h_major h) /\ header_VersionMinor d = Ok (h_minor h) /\
  header_FirstVersionDate d = Ok (let '(y, m, dd) := h_first_date h in mkDate y m dd) /\
  header_MajorVersionDate d = Ok (let '(y, m, dd) := h_major_date h in mkDate y m dd) /\
  header_MinorVersionDate d = Ok (let '(y, m, dd) := h_minor_date h in mkDate y m dd).
Proof.
  intros -> (R1 & R2 & R3 & R4 & R5 & R6 & R7 & _).
  pose proof (header_laid_out _ _ (stored_whole (header_bytes h) post)) as L.
  split; [exact (slice32 _ _ _ _ (hl_format _ _ L) eq_refl R1)|].
  split; [exact (slice64 _ _ _ _ (hl_id _ _ L) eq_refl R2)|].
  split; [exact (slice16 _ _ _ _ (hl_major _ _ L) eq_refl R3)|].
  split; [exact (slice16 _ _ _ _ (hl_minor _ _ L) eq_refl R4)|].
  split; [exact (date_stored _ _ _ (hl_first _ _ L) R5)|].
  split; [exact (date_stored _ _ _ (hl_majord _ _ L) R6)|].
  exact (date_stored _ _ _ (hl_minord _ _ L) R7).
Qed.

Lemma short_at d i s : stored d i (short_string s) ->
  zget d i = Ok (zlen s) /\ stored d (i + 1) s.
Proof. unfold short_string. intros H. now apply stored_cons in H. Qed.
Lemma u8_small x : 0 <= x < 256 -> u8 x = x.
Proof. intros. apply Z.mod_small. lia. Qed.

Lemma header_strings d h post : d = header_bytes h ++ post -> header_in_range h -> post <> [] ->
  header_Name d = Ok (h_name h) /\
  (30 + zlen (h_name h) <= 255 -> header_Family d = Ok (h_family h)) /\
  (31 + zlen (h_name h) + zlen (h_family h) <= 255 -> header_Author d = Ok (h_author h)) /\
  (33 + zlen (h_name h) + zlen (h_family h) + zlen (h_author h) <= 255 -> header_About d = Ok (h_about h)).
Proof.
  intros Hd (_ & _ & _ & _ & _ & _ & _ & R1 & R2 & R3 & R4) Hp.
  pose proof (stored_whole (header_bytes h) post) as HW. rewrite <- Hd in HW.
  pose proof (header_laid_out _ _ HW) as L.
  assert (Hlen : zlen (header_bytes h) < zlen d) by (rewrite Hd, zlen_app; pose proof (nonempty_len _ Hp); lia).
  assert (Hh : zlen (header_bytes h) = 33 + zlen (h_name h) + zlen (h_family h) + zlen (h_author h) + zlen (h_about h)).
  { unfold header_bytes, short_string, long_string. rewrite ?zlen_app, ?zlen_cons, ?zlen_le_digits, ?zlen_date, ?zlen_app, ?zlen_le_digits. lia. }
  destruct (short_at _ _ _ (hl_name _ _ L)) as [Gn Sn]. destruct (short_at _ _ _ (hl_family _ _ L)) as [Gf Sf].
  destruct (short_at _ _ _ (hl_author _ _ L)) as [Ga Sa].
  pose proof (zlen_nonneg (h_name h)). pose proof (zlen_nonneg (h_family h)). pose proof (zlen_nonneg (h_author h)).
  pose proof (zlen_nonneg (h_about h)).
  split; [|split; [|split]].
  - unfold header_Name. rewrite Gn. cbn [bind]. apply stored_string_in; auto; lia.
  - intros B. unfold header_Family. rewrite Gn. cbn [bind]. rewrite !u8_small by lia. rewrite Gf. cbn [bind].
    apply stored_string_in; auto; [|lia]. eapply stored_at; [exact Sf|lia].
  - intros B. unfold header_Author. rewrite Gn. cbn [bind]. rewrite !u8_small by lia. rewrite Gf. cbn [bind].
    rewrite !u8_small by lia. rewrite Ga. cbn [bind].
    apply stored_string_in; auto; [|lia]. eapply stored_at; [exact Sa|lia].
  - intros B. unfold header_About. rewrite Gn. cbn [bind]. rewrite !(u8_small (29 + _)) by lia. rewrite Gf. cbn [bind].
    rewrite (u8_small (30 + _ + _)) by lia. rewrite Ga. cbn [bind]. cbv zeta.
    rewrite (u8_small (31 + _ + _ + _)) by lia. rewrite (u8_small (31 + _ + _ + _ + _)) by lia.
    rewrite (u8_small (33 + _ + _ + _)) by lia.
    pose proof (hl_about _ _ L) as Sb. unfold long_string in Sb. apply stored_app in Sb. destruct Sb as [Sb1 Sb2].
    rewrite zlen_le_digits in Sb2. rewrite <- (bind_assoc (zslice _ _ _) DecodeUint16LE).
    rewrite (slice16 _ _ _ _ Sb1) by lia. cbn [bind].
    apply stored_string_in; auto; [|lia]. eapply stored_at; [exact Sb2|lia].
Qed.

(** ** metrics *)
Lemma metrics_stored d om m : stored d om (metrics_bytes m) -> metrics_in_range m ->
  metrics_NumGlyphs d om = Ok (m_glyphs m) /\ metrics_HasVertLayout d om = Ok (m_vert m) /\
  metrics_MonoWidth d om = Ok (m_mono m) /\ metrics_Monospaced d om = Ok (negb (m_mono m =? 0)) /\
  metrics_Ascent d om = Ok (m_ascent m) /\ metrics_ExtraAscent d om = Ok (m_extra_ascent m) /\
  metrics_Descent d om = Ok (m_descent m) /\ metrics_ExtraDescent d om = Ok (m_extra_descent m) /\
  metrics_UppercaseAscent d om = Ok (m_uppercase m) /\ metrics_MidlineAscent d om = Ok (m_midline m) /\
  metrics_HorzInterspacing d om = Ok (m_horz_spacing m) /\ metrics_VertInterspacing d om = Ok (m_vert_spacing m) /\
  metrics_LineGap d om = Ok (m_line_gap m) /\ metrics_VertLineWidth d om = Ok (m_vert_width m) /\
  metrics_VertLineGap d om = Ok (m_vert_gap m) /\
  metrics_LineHeight d om = Ok (m_ascent m + m_descent m + m_line_gap m) /\
  metrics_VertLineFullWidth d om = Ok (m_vert_width m + m_vert_gap m).
Proof.
  intros H [Hg _]. unfold metrics_bytes in H. apply stored_app in H. destruct H as [H0 H]. rewrite zlen_le_digits in H.
  change (Z.of_nat 2) with 2 in H.
  assert (G : forall k x, zget ((if m_vert m then 1 else 0) :: [m_mono m; m_ascent m; m_extra_ascent m; m_descent m; m_extra_descent m; m_uppercase m;
   m_midline m; m_horz_spacing m; m_vert_spacing m; m_line_gap m; m_vert_width m; m_vert_gap m]) (k - 2) = Ok x -> zget d (om + k) = Ok x).
  { intros k x E. rewrite <- E. rewrite <- (stored_get _ _ _ (k - 2) H) by (apply zget_ok_range in E; exact E). f_equal. lia. }
  assert (E2 := G 2 _ eq_refl). assert (E3 := G 3 _ eq_refl). assert (E4 := G 4 _ eq_refl). assert (E5 := G 5 _ eq_refl).
  assert (E6 := G 6 _ eq_refl). assert (E7 := G 7 _ eq_refl). assert (E8 := G 8 _ eq_refl). assert (E9 := G 9 _ eq_refl).
  assert (E10 := G 10 _ eq_refl). assert (E11 := G 11 _ eq_refl). assert (E12 := G 12 _ eq_refl).
  assert (E13 := G 13 _ eq_refl). assert (E14 := G 14 _ eq_refl).
  unfold metrics_NumGlyphs, metrics_HasVertLayout, metrics_Monospaced, metrics_LineHeight, metrics_VertLineFullWidth,
    metrics_MonoWidth, metrics_Ascent, metrics_ExtraAscent, metrics_Descent, metrics_ExtraDescent, metrics_UppercaseAscent,
    metrics_MidlineAscent, metrics_HorzInterspacing, metrics_VertInterspacing, metrics_LineGap, metrics_VertLineWidth, metrics_VertLineGap.
  rewrite E2, E3, E4, E5, E6, E7, E8, E9, E10, E11, E12, E13, E14. cbn [bind].
  split; [now apply (slice16 _ _ _ _ H0)|]. repeat split. destruct (m_vert m); reflexivity.
Qed.

(** the accessors of a parsed font never read outside its data *)
Definition reads {A} (o : outcome A) : Prop := exists a, o = Ok a.
Lemma parsed_reads first g i f : stream_bytes i -> Parse first g i = Ok f ->
  let d := Data f in let om := OffsetToMetrics f in
  reads (header_FormatVersion d) /\ reads (header_ID d) /\ reads (header_VersionMajor d) /\ reads (header_VersionMinor d) /\
  reads (header_FirstVersionDate d) /\ reads (header_MajorVersionDate d) /\ reads (header_MinorVersionDate d) /\
  reads (metrics_NumGlyphs d om) /\ reads (metrics_HasVertLayout d om) /\ reads (metrics_MonoWidth d om) /\
  reads (metrics_Monospaced d om) /\ reads (metrics_Ascent d om) /\ reads (metrics_ExtraAscent d om) /\
  reads (metrics_Descent d om) /\ reads (metrics_ExtraDescent d om) /\ reads (metrics_UppercaseAscent d om) /\
  reads (metrics_MidlineAscent d om) /\ reads (metrics_HorzInterspacing d om) /\ reads (metrics_VertInterspacing d om) /\
  reads (metrics_LineGap d om) /\ reads (metrics_VertLineWidth d om) /\ reads (metrics_VertLineGap d om) /\
  reads (metrics_LineHeight d om) /\ reads (metrics_VertLineFullWidth d om).
Proof.
  intros Hs E. destruct (offsets_for_all _ _ _ _ Hs E) as [Ho Hb]. unfold offsets_in_order in Ho. cbv zeta.
  set (d := Data f) in *. set (om := OffsetToMetrics f) in *.
  assert (Hom : 33 <= om) by lia. assert (Hl : om + 15 <= zlen d) by lia. clearbody om. clear Ho.
  assert (B : forall s, bytes (firstn s d)) by (intros; now apply bytes_firstn).
  assert (S : forall a b, 0 <= a <= b -> b <= zlen d -> exists s, zslice d a b = Ok s /\ bytes s /\ zlen s = b - a).
  { intros a b H1 H2. destruct (zslice d a b) as [s| | |] eqn:Es; try (rewrite zslice_ok in Es by lia; discriminate).
    exists s. pose proof (zslice_ok_inv _ _ _ _ Es) as (_ & _ & -> & Hz). split; [reflexivity|]. split; [now apply bytes_firstn, bytes_skipn|exact Hz]. }
  assert (G : forall k, 0 <= k < 15 -> exists x, zget d (om + k) = Ok x) by (intros; apply zget_in_range; lia).
  assert (D : forall a, 0 <= a -> a + 4 <= zlen d -> reads (date_at d a)).
  { intros a H1 H2. unfold date_at. destruct (S a (a + 4)) as (s & -> & Bs & Zs); [lia|lia|]. cbn [bind].
    rewrite decode_date_spec by assumption. replace (zlen s) with 4 by lia. change (4 <? 4) with false. cbv iota.
    destruct s as [|y0 [|y1 [|m [|dd t]]]]; try (unfold zlen in Zs; cbn in Zs; lia). cbn [bind]. eexists. reflexivity. }
  unfold reads in *.
  split; [unfold header_FormatVersion; destruct (S 0 4) as (s & -> & Bs & Zs); [lia|lia|]; cbn [bind]; rewrite decode32_spec by assumption; rewrite Zs; eexists; reflexivity|].
  split; [unfold header_ID; destruct (S 4 12) as (s & -> & Bs & Zs); [lia|lia|]; cbn [bind]; rewrite decode64_spec by assumption; rewrite Zs; eexists; reflexivity|].
  split; [unfold header_VersionMajor; destruct (S 12 14) as (s & -> & Bs & Zs); [lia|lia|]; cbn [bind]; rewrite decode16_spec by assumption; rewrite Zs; eexists; reflexivity|].
  split; [unfold header_VersionMinor; destruct (S 14 16) as (s & -> & Bs & Zs); [lia|lia|]; cbn [bind]; rewrite decode16_spec by assumption; rewrite Zs; eexists; reflexivity|].
  split; [apply D; lia|]. split; [apply D; lia|]. split; [apply D; lia|].
  split; [unfold metrics_NumGlyphs; destruct (S om (om + 2)) as (s & -> & Bs & Zs); [lia|lia|]; cbn [bind]; rewrite decode16_spec by assumption; rewrite Zs; replace (om + 2 - om) with 2 by lia; eexists; reflexivity|].
  destruct (G 2 ltac:(lia)) as [x2 X2]. destruct (G 3 ltac:(lia)) as [x3 X3].
  unfold metrics_NumGlyphs, metrics_HasVertLayout, metrics_Monospaced, metrics_LineHeight, metrics_VertLineFullWidth,
    metrics_MonoWidth, metrics_Ascent, metrics_ExtraAscent, metrics_Descent, metrics_ExtraDescent, metrics_UppercaseAscent,
    metrics_MidlineAscent, metrics_HorzInterspacing, metrics_VertInterspacing, metrics_LineGap, metrics_VertLineWidth, metrics_VertLineGap.
  destruct (G 4 ltac:(lia)) as [x4 X4]. destruct (G 6 ltac:(lia)) as [x6 X6]. destruct (G 12 ltac:(lia)) as [x12 X12].
  destruct (G 13 ltac:(lia)) as [x13 X13]. destruct (G 14 ltac:(lia)) as [x14 X14].
  repeat split; try (apply G; lia); rewrite ?X2, ?X3, ?X4, ?X6, ?X12, ?X13, ?X14; cbn [bind]; eexists; reflexivity.
Qed.

Lemma count_not_truncated f a b : color_NumDyeIndices f = Ok a -> color_NumPaletteIndices f = Ok b ->
  0 <= a <= 255 -> 0 <= b <= 255 -> color_Count f = if a + b <=? 255 then Ok (a + b) else Panic.
Proof.
  intros A B Ha Hb. unfold color_Count. rewrite A, B. cbn [bind]. unfold u8.
  destruct (Z.leb_spec (a + b) 255).
  - rewrite Z.mod_small by lia. destruct (Z.ltb_spec (a + b) a); [lia|reflexivity].
  - replace ((a + b) mod 256) with (a + b - 256).
    + destruct (Z.ltb_spec (a + b - 256) a); [reflexivity|lia].
    + apply Z.mod_unique with 1; lia.
Qed.
