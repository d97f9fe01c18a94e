(** Parse on truncated payloads. *)
From Verif Require Import Base BaseFacts Model_Helpers Spec_Helpers Proofs_Helpers Model_Font Model_Parse Spec_Parse Proofs_Parse Proofs_Parse2 Proofs_Parse3 Proofs_Parse4 Proofs_Parse5.
From Coq Require Import Lia.

Lemma bind_ok {A B} (m : action A) (c : A -> action B) s a s1 : m s = POk a s1 -> pbind m c s = c a s1.
Proof. unfold pbind. now intros ->. Qed.

Section Cut.
  Variable P : list Z.
  Hypothesis HP : bytes P.
  Variable k : Z.
  Hypothesis Hk : 0 <= k <= zlen P.
  Definition K : list Z := firstn (Z.to_nat k) P.

  Lemma K_len : zlen K = k.
  Proof. unfold K. rewrite zlen_firstn. lia. Qed.
  Lemma K_bytes : bytes K.
  Proof. now apply bytes_firstn. Qed.
  Lemma K_prefix : P = K ++ skipn (Z.to_nat k) P.
  Proof. unfold K. now rewrite firstn_skipn. Qed.

  Lemma K_le_at n i : 0 <= i -> i + Z.of_nat n <= k -> le_at n K i = le_at n P i.
  Proof.
    intros Hi Hn. unfold le_at. f_equal. rewrite K_prefix at 1. rewrite skipn_app, firstn_app.
    replace (n - length (skipn (Z.to_nat i) K))%nat with 0%nat.
    - now rewrite firstn_O, app_nil_r.
    - rewrite skipn_length. pose proof K_len. unfold zlen in *. lia.
  Qed.
  Lemma K_byte_at i : 0 <= i < k -> byte_at K i = byte_at P i.
  Proof.
    intros Hi. unfold byte_at. rewrite K_prefix at 1. rewrite app_nth1; [reflexivity|].
    pose proof K_len. unfold zlen in *. lia.
  Qed.
  Lemma K_slice n i : 0 <= i -> 0 <= n -> i + n <= k ->
    firstn (Z.to_nat n) (skipn (Z.to_nat i) K) = firstn (Z.to_nat n) (skipn (Z.to_nat i) P).
  Proof.
    intros Hi H0 Hn. rewrite K_prefix at 1. rewrite skipn_app, firstn_app.
    replace (Z.to_nat n - length (skipn (Z.to_nat i) K))%nat with 0%nat.
    - now rewrite firstn_O, app_nil_r.
    - rewrite skipn_length. pose proof K_len. unfold zlen in *. lia.
  Qed.

  (** A run on [P] that ends at [j]: on the first [k] bytes the run is the same if [j <= k]
      and fails if [k < j]. *)
  Definition cut_at {A} (i : Z) (m : action A) : Prop := forall a s, m (full P i) = POk a s ->
    exists j, s = full P j /\ i <= j <= zlen P /\
      (i <= k -> (j <= k -> m (full K i) = POk a (full K j)) /\
                 (k < j -> exists e s', m (full K i) = PErr e s')).

  Lemma cut_bind {A B} i (m : action A) (c : A -> action B) : cut_at i m ->
    (forall a j, m (full P i) = POk a (full P j) -> i <= j <= zlen P -> cut_at j (c a)) -> cut_at i (pbind m c).
  Proof.
    intros Hm Hc b s E. apply bind_inv in E as (a & s1 & E1 & E2).
    destruct (Hm a s1 E1) as (j & -> & Hj & Hcut). destruct (Hc a j E1 Hj b s E2) as (j' & -> & Hj' & Hcut').
    exists j'. split; [reflexivity|]. split; [lia|]. intros Hi. specialize (Hcut Hi). unfold pbind. split.
    - intros Hle. destruct Hcut as [Hcut _]. rewrite Hcut by lia. apply Hcut'; lia.
    - intros Hlt. destruct (Z.le_gt_cases j k).
      + destruct Hcut as [Hcut _]. rewrite Hcut by lia. apply Hcut'; lia.
      + destruct Hcut as [_ Hcut]. destruct Hcut as (e & s' & ->); [lia|]. eauto.
  Qed.
  Lemma cut_pure {A} i (m : action A) : 0 <= i <= zlen P ->
    (forall a s, m (full P i) = POk a s -> s = full P i /\ (i <= k -> m (full K i) = POk a (full K i))) -> cut_at i m.
  Proof.
    intros Hi H a s E. destruct (H a s E) as [-> E2]. exists i. split; [reflexivity|]. split; [lia|].
    intros Hik. split; [auto|lia].
  Qed.
  Lemma cut_ret {A} i (a : A) : 0 <= i <= zlen P -> cut_at i (pret a).
  Proof. intros Hi. apply cut_pure; [assumption|]. intros b s E. injection E as <- <-. auto. Qed.
  Lemma cut_when i b e : 0 <= i <= zlen P -> cut_at i (when b e).
  Proof. intros Hi. destruct b; [intros a s E; discriminate E|]. now apply cut_ret. Qed.
  Lemma cut_index i : 0 <= i <= zlen P -> cut_at i get_index.
  Proof. intros Hi. apply cut_pure; [assumption|]. intros b s E. injection E as <- <-. auto. Qed.
  Lemma cut_on_bytes {A} i (f : list Z -> outcome A) : 0 <= i <= zlen P -> local_at P i f -> cut_at i (on_bytes f).
  Proof.
    intros Hi Hl. apply cut_pure; [assumption|]. intros a s. unfold on_bytes. change (Bytes (full P i)) with P.
    intros E. split; [destruct (f P); now inversion E|]. intros Hik. change (Bytes (full K i)) with K.
    rewrite (Hl K _ K_prefix) by (rewrite K_len; lia). destruct (f P); try discriminate E. now injection E as <- <-.
  Qed.
  (** reads of [n] bytes *)
  Lemma cut_read {A} i n (m : action A) v : 0 <= i <= zlen P -> 0 <= n ->
    m (full P i) = (if i + n <=? zlen P then POk v (full P (i + n)) else PErr premature (full P i)) ->
    (i <= k -> exists w, m (full K i) = (if i + n <=? zlen K then POk w (full K (i + n)) else PErr premature (full K i)) /\
      (i + n <= k -> w = v)) -> cut_at i m.
  Proof.
    intros Hi Hn E1 E2 a s E. rewrite E1 in E. destruct (Z.leb_spec (i + n) (zlen P)); [|discriminate].
    injection E as <- <-. exists (i + n). split; [reflexivity|]. split; [lia|]. intros Hik.
    destruct (E2 Hik) as (w & -> & Hw). rewrite K_len. destruct (Z.leb_spec (i + n) k).
    - rewrite Hw by lia. split; [auto|lia].
    - split; [lia|eauto].
  Qed.
  Lemma cut_advance i n : 0 <= i <= zlen P -> 0 <= n -> cut_at i (AdvanceBytes n).
  Proof.
    intros Hi Hn. apply (cut_read i n _ tt); auto.
    - now rewrite advance_full by lia.
    - intros Hik. exists tt. split; [|auto]. rewrite advance_full; [reflexivity|lia|rewrite K_len; lia].
  Qed.
  Lemma cut_u8 i : 0 <= i <= zlen P -> cut_at i ReadUint8.
  Proof.
    intros Hi. apply (cut_read i 1 _ (byte_at P i)); [assumption|lia|now rewrite u8_full by lia|].
    intros Hik. exists (byte_at K i). rewrite u8_full by (rewrite K_len; lia).
    split; [reflexivity|]. intros. apply K_byte_at. lia.
  Qed.
  Lemma cut_u16 i : 0 <= i <= zlen P -> cut_at i ReadUint16.
  Proof.
    intros Hi. apply (cut_read i 2 _ (le_at 2 P i)); [assumption|lia|now rewrite u16_full by (auto; lia)|].
    intros Hik. exists (le_at 2 K i). rewrite u16_full by (try apply K_bytes; rewrite K_len; lia).
    split; [reflexivity|]. intros. apply K_le_at; lia.
  Qed.
  Lemma cut_u24 i : 0 <= i <= zlen P -> cut_at i ReadUint24.
  Proof.
    intros Hi. apply (cut_read i 3 _ (le_at 3 P i)); [assumption|lia|now rewrite u24_full by (auto; lia)|].
    intros Hik. exists (le_at 3 K i). rewrite u24_full by (try apply K_bytes; rewrite K_len; lia).
    split; [reflexivity|]. intros. apply K_le_at; lia.
  Qed.
  Lemma cut_read_str i n : 0 <= i <= zlen P -> 0 <= n -> cut_at i (read_str n).
  Proof.
    intros Hi Hn. apply (cut_read i n _ (firstn (Z.to_nat n) (skipn (Z.to_nat i) P))); [assumption|lia|now rewrite read_str_full by lia|].
    intros Hik. exists (firstn (Z.to_nat n) (skipn (Z.to_nat i) K)). rewrite read_str_full by (rewrite ?K_len; lia).
    split; [reflexivity|]. intros. apply K_slice; lia.
  Qed.
  Lemma cut_short_str i : 0 <= i <= zlen P -> cut_at i ReadShortStr.
  Proof.
    intros Hi. apply cut_bind; [now apply cut_u8|]. intros a j E Hj.
    apply u8_inv in E as (? & ? & ? & ?); [|lia|assumption]. apply cut_read_str; lia.
  Qed.
  Lemma cut_string i : 0 <= i <= zlen P -> cut_at i ReadString.
  Proof.
    intros Hi. apply cut_bind; [now apply cut_u16|]. intros a j E Hj.
    apply u16_inv in E as (? & ? & ? & ?); [|lia|assumption]. apply cut_read_str; lia.
  Qed.

  Ltac cut_prim := first
    [ apply cut_ret; lia | apply cut_when; lia | apply cut_index; lia | apply cut_u8; lia | apply cut_u16; lia
    | apply cut_u24; lia | apply cut_short_str; lia | apply cut_string; lia | apply cut_advance; bool_facts; lia ].
  Ltac cut_step := first
    [ cut_prim
    | apply cut_bind; [cut_prim|]; let a := fresh "a" in let j := fresh "j" in let E := fresh "E" in
      intros a j E ?; step_inv E; try subst j
    | match goal with |- cut_at _ (if ?c then _ else _) => let H := fresh "C" in destruct c eqn:H end ].
  Ltac cut_auto := repeat cut_step.

  Lemma cut_dyes i : 0 <= i <= zlen P -> cut_at i parse_dyes.
  Proof. intros Hi. unfold parse_dyes. cut_auto. Qed.
  Lemma cut_palettes i used : 0 <= i <= zlen P -> cut_at i (parse_palettes used).
  Proof. intros Hi. unfold parse_palettes. cut_auto. Qed.
  Lemma cut_words i : 0 <= i <= zlen P -> cut_at i parse_words.
  Proof. intros Hi. unfold parse_words. cut_auto. Qed.
  Lemma cut_settings i : 0 <= i <= zlen P -> cut_at i parse_settings.
  Proof. intros Hi. unfold parse_settings. cut_auto. Qed.
  Lemma cut_switches i n : 0 <= i <= zlen P -> cut_at i (parse_switches n).
  Proof. intros Hi. unfold parse_switches. cut_auto. Qed.
  Lemma cut_mapping i : 0 <= i <= zlen P -> cut_at i parse_mapping.
  Proof. intros Hi. unfold parse_mapping. cut_auto. Qed.
  Lemma cut_u16_blocks i f m : 0 <= i <= zlen P -> cut_at i (parse_u16_blocks f m).
  Proof. intros Hi. unfold parse_u16_blocks. cut_auto. Qed.
  Lemma cut_masks i n v : 0 <= i <= zlen P -> cut_at i (parse_glyph_masks n v).
  Proof.
    intros Hi. unfold parse_glyph_masks.
    assert (0 <= u16 (n - 1)) by (unfold u16; apply Z.mod_pos_bound; lia). cut_auto.
  Qed.
  Lemma cut_header : cut_at 0 parse_header.
  Proof.
    assert (0 <= 0 <= zlen P) by lia. unfold parse_header. cut_auto.
    change (0 + 28) with 28 in *. apply cut_on_bytes; [lia|]. apply local_header; auto; lia.
  Qed.
  Lemma cut_metrics i : 0 <= i <= zlen P -> cut_at i parse_metrics.
  Proof.
    intros Hi. unfold parse_metrics. cut_auto. apply cut_bind; [apply cut_on_bytes; [lia|apply local_metrics; lia]|].
    intros [] j E Hj. apply on_bytes_inv in E as [_ ->]. cut_auto.
  Qed.
  Lemma cut_glyph_names om i : 0 <= i <= zlen P -> 0 <= om -> om + 15 <= i -> cut_at i (parse_glyph_names om).
  Proof.
    intros Hi Ho Hm. unfold parse_glyph_names. cut_auto.
    apply cut_bind; [apply cut_on_bytes; [lia|apply local_num_glyphs; lia]|]. intros ng j1 E1 Hj1.
    apply on_bytes_inv in E1 as [E1 ->].
    apply cut_bind; [apply cut_on_bytes; [lia|apply local_has_vert; lia]|]. intros vert j2 E2 Hj2.
    apply on_bytes_inv in E2 as [E2 ->]. cut_auto.
  Qed.

  (** the length read whose error is ignored: the length 0 is refused afterwards *)
  Lemma cut_rules i n m1 m2 : 0 <= i <= zlen P -> cut_at i (parse_rules n m1 m2).
  Proof.
    intros Hi. unfold parse_rules. cut_step. cut_step.
    match goal with |- cut_at _ (if ?c then _ else _) => destruct c eqn:C end; [|cut_auto].
    cut_step. bool_facts. set (j := i + 2 + _) in *.
    intros r s E. apply bind_inv in E as (len & s1 & E1 & E2).
    rewrite ign24_full in E1 by (auto; lia). destruct (Z.leb_spec (j + 3) (zlen P)).
    - injection E1 as <- <-. pose proof (le_at_range 3 P j HP) as Hl.
      assert (Hc : cut_at (j + 3) (run _ <- when (le_at 3 P j <? a0 * 8) m1; run _ <- when (le_at 3 P j >? a0 * n) m2;
         run _ <- AdvanceBytes (le_at 3 P j); pret a)) by cut_auto.
      destruct (Hc r s E2) as (j' & -> & Hj' & Hcut). exists j'. split; [reflexivity|]. split; [lia|].
      intros Hjk. assert (EK : ignore_err ReadUint24 (full K j) =
        if j + 3 <=? k then POk (le_at 3 K j) (full K (j + 3)) else POk 0 (full K j)).
      { rewrite ign24_full by (try apply K_bytes; rewrite K_len; lia). now rewrite K_len. }
      destruct (Z.leb_spec (j + 3) k); rewrite (bind_ok _ _ _ _ _ EK).
      + rewrite K_le_at by lia. apply Hcut. lia.
      + split; [lia|]. intros _. destruct (Z.ltb_spec 0 (a0 * 8)); [|lia]. cbn. eauto.
    - exfalso. injection E1 as <- <-. destruct (Z.ltb_spec 0 (a0 * 8)); [discriminate E2|lia].
  Qed.

  Lemma cut_bind_wp {A B} i (m : action A) (c : A -> action B) Q : 0 <= i <= zlen P -> cut_at i m ->
    (inv (full P i) -> wp m (fun a s' => ext (full P i) s' /\ Q a s') (full P i)) ->
    (forall a j, i <= j <= zlen P -> Q a (full P j) -> cut_at j (c a)) -> cut_at i (pbind m c).
  Proof.
    intros Hi Hm Hw Hc. apply cut_bind; [assumption|]. intros a j E Hj.
    destruct (wp_full P m _ i a _ (Hw (inv_full P HP i Hi)) E) as [(_ & H1 & _) H2]. apply Hc; [cbn in H1; lia|assumption].
  Qed.

  Lemma cut_prefix : cut_at 0 parse_prefix.
  Proof.
    unfold parse_prefix. pose proof (zlen_nonneg P).
    eapply cut_bind_wp; [lia|apply cut_header|intros; now apply wp_header|]. cbn [Index full]. intros [] j1 H1 I1.
    eapply cut_bind_wp; [lia|apply cut_metrics; lia|apply wp_metrics|]. cbn [Index full]. intros om j2 H2 (-> & I2).
    eapply cut_bind_wp; [lia|apply cut_dyes; lia|apply wp_dyes|]. cbn [Index full]. intros [od used] j3 H3 (J3 & I3). cbn [fst] in J3. subst od.
    eapply cut_bind_wp; [lia|apply cut_palettes; lia|apply wp_palettes|]. cbn [Index full]. intros op j4 H4 (-> & I4).
    apply cut_bind; [apply cut_on_bytes; [lia|apply local_colors; lia]|]. intros [] j E _. apply on_bytes_inv in E as [_ ->].
    eapply cut_bind_wp; [lia|apply cut_glyph_names; lia|intros; apply wp_glyph_names; [assumption|lia|cbn [Index full]; lia]|].
    cbn [Index full]. intros [[ogn ng] vert] j5 H5 (J5 & I5). cbn [fst] in J5. subst ogn.
    eapply cut_bind_wp; [lia|apply cut_masks; lia|apply wp_masks|]. cbn [Index full]. intros ogm j6 H6 (-> & I6).
    apply cut_bind; [apply cut_on_bytes; [lia|apply local_glyphs; lia]|]. intros [] j E _. apply on_bytes_inv in E as [_ ->].
    eapply cut_bind_wp; [lia|apply cut_words; lia|apply wp_words|]. cbn [Index full]. intros ow j7 H7 (-> & I7).
    eapply cut_bind_wp; [lia|apply cut_settings; lia|apply wp_settings|]. cbn [Index full]. intros [[osn osd] nset] j8 H8 (J8 & I8 & K8).
    cbn [fst snd] in J8, I8, K8. subst osn.
    eapply cut_bind_wp; [lia|apply cut_switches; lia|apply wp_switches|]. cbn [Index full]. intros osw j9 H9 (-> & I9).
    eapply cut_bind_wp; [lia|apply cut_mapping; lia|apply wp_mapping|]. cbn [Index full]. intros omp j10 H10 (-> & I10).
    eapply cut_bind_wp; [lia|apply cut_u16_blocks; lia|apply wp_u16_blocks|]. cbn [Index full]. intros oc j11 H11 (-> & I11).
    eapply cut_bind_wp; [lia|apply cut_u16_blocks; lia|apply wp_u16_blocks|]. cbn [Index full]. intros ous j12 H12 (-> & I12).
    eapply cut_bind_wp; [lia|apply cut_u16_blocks; lia|apply wp_u16_blocks|]. cbn [Index full]. intros ogs j13 H13 (-> & I13).
    eapply cut_bind_wp; [lia|apply cut_rules; lia|apply wp_rules|]. cbn [Index full]. intros our j14 H14 (-> & I14).
    eapply cut_bind_wp; [lia|apply cut_rules; lia|apply wp_rules|]. cbn [Index full]. intros ogr j15 H15 (-> & I15).
    apply cut_ret. lia.
  Qed.
End Cut.
