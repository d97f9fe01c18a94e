(** The sections of Parse on arbitrary readers. *)
From Verif Require Import Base BaseFacts Model_Helpers Spec_Helpers Proofs_Helpers Model_Font Model_Parse Spec_Parse Proofs_Parse Proofs_Parse2 Proofs_Parse3.
From Coq Require Import Lia.

Ltac wp_prim := lazymatch goal with
  | |- wp get_index _ _ => apply wp_index
  | |- wp (when _ _) _ _ => apply wp_when; [assumption|intros ?]
  | |- wp (pret _) _ _ => apply wp_ret
  | |- wp (AdvanceBytes _) _ _ => apply wp_advance; [assumption|bool_facts; lia|let s' := fresh "s'" in intros s' ? ?]
  | |- wp ReadUint8 _ _ => apply wp_u8; [assumption|let s' := fresh "s'" in let v := fresh "v" in intros v s' ? ? ? ?]
  | |- wp ReadUint16 _ _ => apply wp_u16; [assumption|let s' := fresh "s'" in let v := fresh "v" in intros v s' ? ? ? ?]
  | |- wp ReadUint24 _ _ => apply wp_u24; [assumption|let s' := fresh "s'" in let v := fresh "v" in intros v s' ? ? ?]
  | |- wp (ignore_err ReadUint24) _ _ => apply wp_ign24; [assumption|let s' := fresh "s'" in let v := fresh "v" in intros v s' ? ? ?]
  | |- wp ReadShortStr _ _ => apply wp_short_str; [assumption|let s' := fresh "s'" in let v := fresh "v" in intros v s' ? ? ? ? ?]
  | |- wp ReadString _ _ => apply wp_string; [assumption|let s' := fresh "s'" in let v := fresh "v" in intros v s' ? ?] end.
Ltac ext_facts := repeat match goal with
  | H : ext ?s ?s', X : ext ?s0 ?s |- _ => 
    lazymatch goal with | Y : ext s0 s' |- _ => fail | _ => pose proof (ext_trans _ _ _ X H) end
  end;
  repeat match goal with
  | H : ext ?s ?s' |- _ => lazymatch goal with | Y : inv s' |- _ => fail | _ => assert (inv s') by apply H end
  end.
Ltac wp_step := first
  [ apply wp_bind; wp_prim; (split; [first [assumption|now apply ext_refl]|]); unfold byte in *; ext_facts
  | match goal with |- wp (if ?c then _ else _) _ _ => let H := fresh "C" in destruct c eqn:H end ].
Ltac wp_auto := repeat wp_step; try wp_prim.
Ltac splits := lazymatch goal with |- _ /\ _ => split; [splits|splits] | _ => idtac end.
Ltac wp_done := splits; try assumption; try (now apply ext_refl); try reflexivity; bool_facts; try lia.

Lemma wp_header s : inv s -> Index s = 0 -> wp parse_header (fun _ s' => ext s s' /\ 33 <= Index s') s.
Proof.
  intros Hs H0. unfold parse_header. wp_auto.
  match goal with E0 : Index ?s0 = Index s + 28, X : zget (Bytes ?s1) (Index ?s0) = Ok ?n |- wp _ _ ?s2 =>
    assert (G : zget (Bytes s2) 28 = Ok n /\ 29 + n < Index s2) end.
  { split; [|lia].
    match goal with E0 : Index ?s0 = Index s + 28, X : zget (Bytes ?s1) (Index ?s0) = Ok ?n, E : ext ?s1 ?s2 |- zget (Bytes ?s2) _ = _ =>
      rewrite E0, H0 in X; destruct E as ((t & u & -> & _) & _); rewrite zget_app_l; [exact X|apply zget_ok_range in X; lia] end. }
  destruct G as [G1 G2].
  match goal with |- wp _ _ ?s2 => assert (I : inv s2) by assumption; destruct I as (J1 & J2 & J3) end.
  apply zget_ok_range in G1 as G3.
  apply wp_on_bytes; [assumption|intros; split; [assumption|lia]| |];
    unfold header_Validate, header_FormatVersion, header_ID, header_Name, unsafe_string;
    rewrite G1; rewrite !zslice_ok by lia; cbn [bind];
    rewrite decode32_spec, decode64_spec by (apply bytes_firstn, bytes_skipn; assumption);
    rewrite !zlen_firstn, !zlen_skipn;
    match goal with |- context [if ?a <? 4 then _ else _] => destruct (Z.ltb_spec a 4); [lia|] end;
    match goal with |- context [if ?a <? 8 then _ else _] => destruct (Z.ltb_spec a 8); [lia|] end;
    cbn [bind]; match goal with |- context [zget ?b 29] => destruct (zget_in_range b 29) as [x Ex]; [lia|rewrite Ex] end;
    cbn [bind]; repeat match goal with |- context [if ?c then _ else _] => destruct c end; try discriminate;
    rewrite zslice_ok by lia; cbn [bind]; match goal with |- context [if ?c then _ else _] => destruct c end; discriminate.
Qed.

Lemma wp_dyes s : inv s -> wp parse_dyes (fun r s' => ext s s' /\ fst r = Index s /\ Index s + 1 <= Index s') s.
Proof. intros Hs. unfold parse_dyes. wp_auto; wp_done. Qed.
Lemma wp_palettes used s : inv s -> wp (parse_palettes used) (fun r s' => ext s s' /\ r = Index s /\ Index s + 1 <= Index s') s.
Proof. intros Hs. unfold parse_palettes. wp_auto; wp_done. Qed.
Lemma wp_words s : inv s -> wp parse_words (fun r s' => ext s s' /\ r = Index s /\ Index s + 1 <= Index s') s.
Proof. intros Hs. unfold parse_words. wp_auto; wp_done. Qed.
Lemma wp_settings s : inv s -> wp parse_settings (fun r s' => ext s s' /\ fst (fst r) = Index s /\ Index s + 1 <= snd (fst r) /\ snd (fst r) <= Index s') s.
Proof. intros Hs. unfold parse_settings. wp_auto; wp_done; cbn [fst snd]; lia. Qed.
Lemma wp_switches n s : inv s -> wp (parse_switches n) (fun r s' => ext s s' /\ r = Index s /\ Index s + 1 <= Index s') s.
Proof. intros Hs. unfold parse_switches. wp_auto; wp_done. Qed.
Lemma wp_mapping s : inv s -> wp parse_mapping (fun r s' => ext s s' /\ r = Index s /\ Index s + 2 <= Index s') s.
Proof. intros Hs. unfold parse_mapping. wp_auto; wp_done. Qed.
Lemma wp_u16_blocks f m s : inv s -> wp (parse_u16_blocks f m) (fun r s' => ext s s' /\ r = Index s /\ Index s + 1 <= Index s') s.
Proof. intros Hs. unfold parse_u16_blocks. wp_auto; wp_done. Qed.
Lemma wp_rules n m1 m2 s : inv s -> wp (parse_rules n m1 m2) (fun r s' => ext s s' /\ r = Index s /\ Index s + 2 <= Index s') s.
Proof. intros Hs. unfold parse_rules. wp_auto; wp_done. Qed.
Lemma wp_kernings n m s : inv s -> wp (parse_kernings n m) (fun r s' => ext s s' /\ r = Index s /\ Index s <= Index s') s.
Proof. intros Hs. unfold parse_kernings. wp_auto; wp_done. Qed.
Lemma wp_masks n v s : inv s -> wp (parse_glyph_masks n v) (fun r s' => ext s s' /\ r = Index s /\ Index s + 3 <= Index s') s.
Proof.
  intros Hs. unfold parse_glyph_masks.
  assert (0 <= u16 (n - 1)) by (unfold u16; apply Z.mod_pos_bound; lia). wp_auto; wp_done.
Qed.

Lemma num_glyphs_total b om : bytes b -> 0 <= om -> om + 2 <= zlen b ->
  metrics_NumGlyphs b om = Ok (le_at 2 b om).
Proof.
  intros Hb H0 H. unfold metrics_NumGlyphs. rewrite zslice_zfrom by lia. cbn [bind].
  rewrite decode16_spec by now apply bytes_firstn, bytes_skipn. rewrite zlen_firstn, zlen_skipn.
  match goal with |- context [if ?a <? 2 then _ else _] => destruct (Z.ltb_spec a 2); [lia|] end.
  rewrite firstn_firstn. reflexivity.
Qed.
Lemma metrics_validate_total b om : bytes b -> 0 <= om -> om + 15 <= zlen b ->
  metrics_Validate b om <> Panic /\ metrics_Validate b om <> Hang.
Proof.
  intros Hb H0 H. unfold metrics_Validate. rewrite num_glyphs_total by (auto; lia). cbn [bind].
  unfold metrics_Ascent, metrics_ExtraAscent, metrics_VertInterspacing, metrics_HasVertLayout.
  destruct (zget_in_range b (om + 2)) as [x2 ->]; [lia|]. destruct (zget_in_range b (om + 4)) as [x4 ->]; [lia|].
  destruct (zget_in_range b (om + 5)) as [x5 ->]; [lia|]. destruct (zget_in_range b (om + 11)) as [x11 ->]; [lia|].
  cbn [bind]. repeat match goal with |- context [if ?c then _ else _] => destruct c end; split; discriminate.
Qed.
Lemma wp_metrics s : inv s -> wp parse_metrics (fun r s' => ext s s' /\ r = Index s /\ Index s' = Index s + 15) s.
Proof.
  intros Hs. unfold parse_metrics. wp_auto. apply wp_bind.
  destruct H as (E & L & I). pose proof I as (I1 & I2 & I3). pose proof Hs as (J1 & _).
  destruct (metrics_validate_total (Bytes s') (Index s) I2) as [M1 M2]; [lia|lia|].
  apply wp_on_bytes; auto. intros [] _. split; [now apply ext_refl|]. wp_prim. wp_done.
  unfold ext; wp_done.
Qed.
Lemma wp_glyph_names om s : inv s -> 0 <= om -> om + 15 <= Index s ->
  wp (parse_glyph_names om) (fun r s' => ext s s' /\ fst (fst r) = Index s /\ Index s + 2 <= Index s') s.
Proof.
  intros Hs Ho Hm. unfold parse_glyph_names. wp_auto.
  pose proof H3 as (I1 & I2 & I3).
  apply wp_bind, wp_on_bytes; [assumption| |rewrite num_glyphs_total by (auto; lia); discriminate|rewrite num_glyphs_total by (auto; lia); discriminate].
  intros n En. split; [now apply ext_refl|].
  destruct (zget_in_range (Bytes s') (om + 2)) as [x Ex]; [lia|].
  apply wp_bind, wp_on_bytes; [assumption| |unfold metrics_HasVertLayout; rewrite Ex; discriminate|unfold metrics_HasVertLayout; rewrite Ex; discriminate].
  intros vert _. split; [now apply ext_refl|]. wp_auto; wp_done.
Qed.
