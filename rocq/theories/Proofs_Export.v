(** Exported fonts and Validate. *)
From Verif Require Import Base BaseFacts Spec_Helpers Model_Helpers Model_Font Model_Parse Spec_Parse Model_Builder Model_Export Spec_Export
  Proofs_Parse Proofs_Parse2 Proofs_Parse3 Proofs_Parse4 Proofs_Parse5 Proofs_Parse6 Proofs_Parse7 Proofs_Parse8.
From Coq Require Import Lia.

(** ** Validate *)
Definition monotone {A} (g : list Z -> outcome A) : Prop := forall B t v, g B = Ok v -> g (B ++ t) = Ok v.
Lemma mono_ret {A} (v : A) : monotone (fun _ => Ok v).
Proof. intros B t w H. exact H. Qed.
Lemma mono_err {A} m : monotone (fun _ => @Err A m).
Proof. intros B t w H. exact H. Qed.
Lemma mono_const {A} (o : outcome A) : monotone (fun _ => o).
Proof. intros B t w H. exact H. Qed.
Lemma mono_bind {A C} (g : list Z -> outcome A) (k : A -> list Z -> outcome C) :
  monotone g -> (forall a, monotone (k a)) -> monotone (fun B => do a <- g B; k a B).
Proof.
  intros H1 H2 B t v E. destruct (g B) as [a| | |] eqn:G; try discriminate. cbn in E. rewrite (H1 B t a G). cbn. now apply H2.
Qed.
Lemma mono_if {A} (c : bool) (g k : list Z -> outcome A) : monotone g -> monotone k -> monotone (fun B => if c then g B else k B).
Proof. intros H1 H2. destruct c; assumption. Qed.
Lemma mono_get i : monotone (fun B => zget B i).
Proof. intros B t v H. apply zget_ok_range in H as R. rewrite zget_app_l; [exact H|lia]. Qed.
Lemma mono_slice i j : monotone (fun B => zslice B i j).
Proof.
  intros B t v H. unfold zslice in *. destruct ((0 <=? i) && (i <=? j) && (j <=? zlen B)) eqn:E; [|discriminate]. rewrite !andb_true_iff in E. rewrite zlen_app. pose proof (zlen_nonneg t).
  replace ((0 <=? i) && (i <=? j) && (j <=? zlen B + zlen t)) with true by lia. inversion H; subst. f_equal.
  rewrite skipn_app, firstn_app. rewrite skipn_length. unfold zlen in *. replace (Z.to_nat (j - i) - (length B - Z.to_nat i))%nat with 0%nat by lia. cbn. now rewrite app_nil_r.
Qed.
Ltac mono := repeat first
  [ apply mono_ret | apply mono_err | apply mono_const | apply mono_get | apply mono_slice
  | apply mono_if | (apply mono_bind; [|intros ?]) ].
Lemma mono_header : monotone header_Validate.
Proof.
  unfold header_Validate, header_FormatVersion, header_ID, header_Name, unsafe_string. mono.
Qed.
Lemma mono_metrics om : monotone (fun B => metrics_Validate B om).
Proof. unfold metrics_Validate, metrics_NumGlyphs, metrics_Ascent, metrics_ExtraAscent, metrics_VertInterspacing, metrics_HasVertLayout. mono. Qed.
Lemma mono_colors od op : monotone (fun B => color_Validate B od op).
Proof. unfold color_Validate. mono. Qed.
Lemma mono_glyphs om og : monotone (fun B => glyphs_Validate B om og).
Proof. unfold glyphs_Validate, metrics_NumGlyphs. mono. Qed.

Lemma ext_valid (g : list Z -> outcome unit) s s' : monotone g -> ext s s' -> g (Bytes s) = Ok tt -> g (Bytes s') = Ok tt.
Proof. intros M ((t & u & -> & _) & _) H. now apply M. Qed.
Lemma wp_and {A} (m : action A) Q (R : A -> pst -> Prop) s : wp m (fun a s' => ext s s' /\ Q a s') s -> (forall a s', m s = POk a s' -> R a s') -> wp m (fun a s' => ext s s' /\ (Q a s' /\ R a s')) s.
Proof. unfold wp. destruct (m s) as [a s'|e s'| |]; auto. intros [H1 H2] H3. auto. Qed.
Lemma header_ok s a s' : parse_header s = POk a s' -> header_Validate (Bytes s') = Ok tt.
Proof.
  intros H. unfold parse_header in H. repeat (apply bind_inv in H as (? & ? & _ & H)). unfold on_bytes in H.
  match type of H with (match header_Validate (Bytes ?x) with _ => _ end) = _ => destruct (header_Validate (Bytes x)) as [[]| | |] eqn:E; inversion H; subst; exact E end.
Qed.
Lemma metrics_ok s om s' : parse_metrics s = POk om s' -> metrics_Validate (Bytes s') om = Ok tt.
Proof.
  intros H. unfold parse_metrics in H. apply bind_inv in H as (o & s1 & H1 & H). apply bind_inv in H as (u & s2 & _ & H). apply bind_inv in H as (v & s3 & H2 & H).
  unfold pret in H. inversion H; subst. unfold on_bytes in H2. destruct (metrics_Validate (Bytes s2) om) as [[]| | |] eqn:E; inversion H2; subst. exact E.
Qed.
Definition validated (f : Font) (B : list Z) : Prop :=
  header_Validate B = Ok tt /\ metrics_Validate B (OffsetToMetrics f) = Ok tt /\ glyphs_Validate B (OffsetToMetrics f) (OffsetToGlyphNames f) = Ok tt /\
  color_Validate B (OffsetToDyes f) (OffsetToPalettes f) = Ok tt.
Lemma validated_ext f s s' : ext s s' -> validated f (Bytes s) -> validated f (Bytes s').
Proof.
  intros E (H1 & H2 & H3 & H4). split; [|split; [|split]].
  - exact (ext_valid _ _ _ mono_header E H1).
  - exact (ext_valid _ _ _ (mono_metrics _) E H2).
  - exact (ext_valid _ _ _ (mono_glyphs _ _) E H3).
  - exact (ext_valid _ _ _ (mono_colors _ _) E H4).
Qed.
Lemma wp_prefix_valid s : inv s -> Index s = 0 ->
  wp parse_prefix (fun r s' => ext s s' /\ forall h v, validated (fst r h v) (Bytes s')) s.
Proof.
  intros Hs H0. unfold parse_prefix.
  eapply wp_bind2; [apply wp_and; [now apply wp_header|apply header_ok]|]. intros [] s1 E1 (I1 & V1). cbn beta in I1. pose proof E1 as (_ & _ & Hs1).
  eapply wp_bind2; [apply wp_and; [now apply wp_metrics|apply metrics_ok]|]. intros om s2 E2 ((-> & I2) & V2). pose proof E2 as (_ & _ & Hs2).
  eapply wp_bind2; [now apply wp_dyes|]. intros [od used] s3 E3 (J3 & I3). cbn [fst] in J3. subst od. pose proof E3 as (_ & _ & Hs3).
  eapply wp_bind2; [now apply wp_palettes|]. intros op s4 E4 (-> & I4). pose proof E4 as (_ & _ & Hs4).
  ext_len.
  destruct (color_validate_total (Bytes s4) (Index s2) (Index s3)) as [M1 M2]; [lia|lia|].
  apply wp_bind, wp_on_bytes; auto. intros [] V4. split; [now apply ext_refl|].
  eapply wp_bind2; [apply wp_glyph_names; [assumption|lia|lia]|]. intros [[ogn ng] vert] s5 E5 (J5 & I5).
  cbn [fst] in J5. subst ogn. pose proof E5 as (_ & _ & Hs5).
  eapply wp_bind2; [now apply wp_masks|]. intros ogm s6 E6 (-> & I6). pose proof E6 as (_ & _ & Hs6).
  ext_len.
  destruct (glyphs_validate_total (Bytes s6) (Index s1) (Index s4)) as [M3 M4]; [apply Hs6|lia|lia|lia|lia|].
  apply wp_bind, wp_on_bytes; auto. intros [] V6. split; [now apply ext_refl|].
  eapply wp_bind2; [now apply wp_words|]. intros ow s7 E7 (-> & I7). pose proof E7 as (_ & _ & Hs7).
  eapply wp_bind2; [now apply wp_settings|]. intros [[osn osd] nset] s8 E8 (J8 & I8 & K8).
  cbn [fst snd] in J8, I8, K8. subst osn. pose proof E8 as (_ & _ & Hs8).
  eapply wp_bind2; [now apply wp_switches|]. intros osw s9 E9 (-> & I9). pose proof E9 as (_ & _ & Hs9).
  eapply wp_bind2; [now apply wp_mapping|]. intros omp s10 E10 (-> & I10). pose proof E10 as (_ & _ & Hs10).
  eapply wp_bind2; [now apply wp_u16_blocks|]. intros oc s11 E11 (-> & I11). pose proof E11 as (_ & _ & Hs11).
  eapply wp_bind2; [now apply wp_u16_blocks|]. intros ous s12 E12 (-> & I12). pose proof E12 as (_ & _ & Hs12).
  eapply wp_bind2; [now apply wp_u16_blocks|]. intros ogs s13 E13 (-> & I13). pose proof E13 as (_ & _ & Hs13).
  eapply wp_bind2; [now apply wp_rules|]. intros our s14 E14 (-> & I14). pose proof E14 as (_ & _ & Hs14).
  eapply wp_bind2; [now apply wp_rules|]. intros ogr s15 E15 (-> & I15). pose proof E15 as (_ & _ & Hs15).
  apply wp_ret. 
  assert (E6x : ext s6 s15) by (repeat (eapply ext_trans; [eassumption|]); now apply ext_refl).
  assert (E4x : ext s4 s15) by (repeat (eapply ext_trans; [eassumption|]); now apply ext_refl).
  assert (E2x : ext s2 s15) by (repeat (eapply ext_trans; [eassumption|]); now apply ext_refl).
  assert (E1x : ext s1 s15) by (repeat (eapply ext_trans; [eassumption|]); now apply ext_refl).
  split.
  - eapply ext_trans; eassumption.
  - intros h v. split; [|split; [|split]]; cbn [fst OffsetToMetrics OffsetToDyes OffsetToPalettes OffsetToGlyphNames].
    + exact (ext_valid _ _ _ mono_header E1x V1).
    + exact (ext_valid _ _ _ (mono_metrics _) E2x V2).
    + exact (ext_valid _ _ _ (mono_glyphs _ _) E6x V6).
    + exact (ext_valid _ _ _ (mono_colors _ _) E4x V4).
Qed.
Lemma wp_sections_valid s : inv s -> Index s = 0 -> wp parse_sections (fun f s' => ext s s' /\ validated f (Bytes s')) s.
Proof.
  intros Hs H0. unfold wp. rewrite sections_split.
  match goal with |- match ?m s with _ => _ end => change (wp m (fun f s' => ext s s' /\ validated f (Bytes s')) s) end.
  eapply wp_bind2; [now apply wp_prefix_valid|]. intros [mk ng] s15 E15 HQ. pose proof E15 as (_ & _ & Hs15).
  eapply wp_bind2; [now apply wp_kernings|]. intros ohk s16 E16 (-> & I16). pose proof E16 as (_ & _ & Hs16).
  eapply wp_bind2; [now apply wp_kernings|]. intros ovk s17 E17 (-> & I17). pose proof E17 as (_ & _ & Hs17).
  apply wp_ret. split.
  - repeat (eapply ext_trans; [eassumption|]). now apply ext_refl.
  - apply (validated_ext _ s15); [eapply ext_trans; eassumption|]. apply HQ.
Qed.
Lemma parsed_valid first g i f : stream_bytes i -> Parse first g i = Ok f -> font_Validate f FmtDefault = Ok tt /\ font_Validate f FmtStrict = Panic.
Proof.
  intros Hi. unfold Parse. destruct first as [sig err].
  destruct (_ || _); [destruct (_ =? _); discriminate|]. destruct (negb _); [discriminate|]. destruct g; [discriminate|].
  unfold parse_body, pbind.
  pose proof (wp_sections_valid (initial i)) as Hw. unfold wp in Hw.
  assert (I0 : inv (initial i)) by (unfold inv, initial; cbn; change (zlen []) with 0; repeat split; try lia; [constructor|assumption]).
  specialize (Hw I0 eq_refl). destruct (parse_sections (initial i)) as [f0 s|e s| |]; try contradiction; try discriminate.
  unfold on_bytes. destruct (EnsureEOF s); try discriminate. cbn [pret]. intros E. injection E as <-.
  destruct Hw as [_ (V1 & V2 & V3 & V4)]. unfold font_Validate, strict, FmtDefault, FmtStrict. cbn [set_Data Data OffsetToMetrics OffsetToDyes OffsetToPalettes OffsetToGlyphNames].
  rewrite V1, V2, V3, V4. split; reflexivity.
Qed.

(** ** Exporting *)
Lemma write_honest w c out n e w' : write w c = (out, n, e, w') -> (forall x w0, w = x :: w0 -> 0 <= fst x <= zlen c /\ (fst x < zlen c -> snd x <> None)) ->
  (exists t, c = out ++ t) /\ (e = None -> out = c).
Proof.
  intros E H. unfold write in E. destruct w as [|[m e0] w0]; inversion E; subst.
  - split; [exists []; now rewrite app_nil_r|auto].
  - destruct (H _ _ eq_refl) as [H1 H2]. cbn in H1, H2. split; [exists (skipn (Z.to_nat n) c); now rewrite firstn_skipn|].
    intros ->. destruct (Z.eq_dec n (zlen c)); [|exfalso; apply H2; [lia|reflexivity]]. subst. unfold zlen. rewrite Nat2Z.id. apply firstn_all.
Qed.
Lemma honest_head w c cs : honest w (c :: cs) -> forall x w0, w = x :: w0 -> 0 <= fst x <= zlen c /\ (fst x < zlen c -> snd x <> None).
Proof. intros H [n e] w0 ->. cbn in H. cbn. tauto. Qed.
Lemma honest_tail w c cs out n e w' : honest w (c :: cs) -> write w c = (out, n, e, w') -> honest w' cs.
Proof. intros H E. unfold write in E. destruct w as [|[m e0] w0]; inversion E; subst; cbn in *; tauto. Qed.
Lemma chunks_spec : forall chunks w more out e w', honest w (chunks ++ more) -> write_chunks w chunks = (out, e, w') ->
  (exists t, concat chunks = out ++ t) /\ (e = None -> out = concat chunks /\ honest w' more /\ w' = skipn (length chunks) w) /\
  (e = None <-> Forall (fun x => snd x = None) (firstn (length chunks) w)).
Proof.
  induction chunks as [|c cs IH]; intros w more out e w' H E; cbn [write_chunks] in E.
  - inversion E; subst. split; [exists []; reflexivity|]. cbn. split; [auto|]. split; [constructor|auto].
  - destruct (write w c) as [[[o1 n1] e1] w1] eqn:W. cbn [app] in H. destruct (write_honest _ _ _ _ _ _ W (honest_head _ _ _ H)) as [(t & P1) P2]. pose proof (honest_tail _ _ _ _ _ _ _ H W) as H'.
    assert (W1 : w1 = skipn 1 w /\ (e1 = None <-> Forall (fun x => snd x = None) (firstn 1 w))).
    { unfold write in W. destruct w as [|[m e0] w0]; inversion W; subst; (split; [reflexivity|]); cbn; [split; [constructor|auto]|]. split; [intros ->; repeat constructor|]. intros F. now inversion F. }
    destruct W1 as [W1 W2].
    assert (FS : firstn (length (c :: cs)) w = firstn 1 w ++ firstn (length cs) w1). { subst w1. destruct w as [|x w0]; cbn; [now destruct (length cs)|reflexivity]. }
    destruct e1 as [m|].
    + injection E as <- <- <-. split; [exists (t ++ concat cs); cbn; rewrite P1 at 1; now rewrite app_assoc|]. split; [discriminate|]. split; [discriminate|].
      intros F. exfalso. rewrite FS in F. apply Forall_app in F. destruct W2 as [_ W2]. specialize (W2 (proj1 F)). discriminate.
    + destruct (write_chunks w1 cs) as [[o2 e2] w2] eqn:W3. injection E as <- <- <-. specialize (P2 eq_refl). subst o1.
      destruct (IH _ _ _ _ _ H' W3) as [(t2 & Q1) [Q2 Q3]]. split; [exists t2; cbn; rewrite Q1; now rewrite <- !app_assoc|]. split.
      * intros X. destruct (Q2 X) as (-> & Q4 & Q5). split; [reflexivity|]. split; [exact Q4|]. rewrite Q5, W1. destruct w as [|x w0]; cbn; [now rewrite skipn_nil|reflexivity].
      * rewrite Q3, FS, Forall_app. tauto.
Qed.
Lemma not_fails k w : ~ fails_within k w <-> Forall (fun x => snd x = None) (firstn k w).
Proof.
  unfold fails_within. rewrite Forall_forall. split.
  - intros H x I. destruct (snd x) eqn:E; [|reflexivity]. exfalso. apply H. exists x. split; [exact I|congruence].
  - intros H (x & I & N). apply N, H, I.
Qed.
Lemma firstn_add {A} n m (l : list A) : firstn (n + m) l = firstn n l ++ firstn m (skipn n l).
Proof. revert l; induction n as [|n IH]; intros [|x l]; cbn; [now destruct m|reflexivity|now destruct m|]. now rewrite IH. Qed.
Lemma export_spec body closing w out r : honest w (signature :: body ++ closing) -> Export body closing w = (out, r) ->
  (r = Ok tt <-> ~ fails_within (1 + length body + length closing) w) /\
  (r = Ok tt -> out = file (concat body ++ concat closing)) /\
  (r <> Ok tt -> (exists m, r = Err m) /\ exists t, file (concat body ++ concat closing) = out ++ t).
Proof.
  intros H E. unfold Export in E. destruct (write w signature) as [[[o1 n1] e1] w1] eqn:W.
  destruct (write_honest _ _ _ _ _ _ W (honest_head _ _ _ H)) as [(t & P1) P2]. pose proof (honest_tail _ _ _ _ _ _ _ H W) as H1.
  assert (W1 : w1 = skipn 1 w /\ (e1 = None <-> Forall (fun x => snd x = None) (firstn 1 w)) /\ (e1 = None -> n1 = 6)).
  { unfold write in W. destruct w as [|[m e0] w0]; inversion W; subst; (split; [reflexivity|]); cbn; [split; [split; [constructor|auto]|reflexivity]|].
    split; [split; [intros ->; repeat constructor|intros F; now inversion F]|]. intros ->. cbn in H. destruct H as (A & B & _). change (zlen signature) with 6 in *.
    destruct (Z.eq_dec n1 6); [assumption|]. exfalso. apply B; [lia|reflexivity]. }
  destruct W1 as (W1 & W2 & W3). rewrite not_fails. change (1 + length body + length closing)%nat with (1 + (length body + length closing))%nat. rewrite firstn_add, firstn_add, !Forall_app, <- W1.
  unfold file. change [116; 103; 103; 102; 110; 116] with signature.
  destruct e1 as [m|].
  - injection E as <- <-. split; [split; [discriminate|]; intros [F _]; apply W2 in F; discriminate|]. split; [discriminate|]. intros _. split; [eauto|].
    exists (t ++ concat body ++ concat closing). rewrite P1 at 1. now rewrite <- !app_assoc.
  - rewrite (W3 eq_refl) in E. change (negb (6 =? 6)) with false in E. cbv iota in E. specialize (P2 eq_refl). subst o1.
    destruct (write_chunks w1 body) as [[o2 e2] w2] eqn:X. destruct (chunks_spec _ _ _ _ _ _ H1 X) as [(t2 & Q1) [Q2 Q3]].
    destruct e2 as [m|].
    + injection E as <- <-. split; [split; [discriminate|]; intros (_ & F & _); apply Q3 in F; discriminate|]. split; [discriminate|]. intros _. split; [eauto|].
      exists (t2 ++ concat closing). rewrite Q1. now rewrite <- !app_assoc.
    + destruct (Q2 eq_refl) as (-> & H2 & ->). rewrite <- (app_nil_r closing) in H2.
      destruct (write_chunks (skipn (length body) w1) closing) as [[o3 e3] w3] eqn:Y. destruct (chunks_spec _ _ _ _ _ _ H2 Y) as [(t3 & R1) [R2 R3]].
      injection E as <- <-. destruct e3 as [m|].
      * split; [split; [discriminate|]; intros (_ & _ & F); apply R3 in F; discriminate|]. split; [discriminate|]. intros _. split; [eauto|]. exists t3. rewrite R1. now rewrite ?app_assoc.
      * destruct (R2 eq_refl) as (-> & _). split; [split; [tauto|reflexivity]|]. split; [auto|congruence].
Qed.

(** ** Reading an exported font *)
Lemma reparse i P f i' : within_bounds P -> delivers i P -> parse_payload i = Ok f -> delivers i' (Data f) ->
  (exists t, P = Data f ++ t) /\
  (zlen (Data f) <= content_end f (Data f) -> parse_payload i' = Ok f) /\
  ((exists d t, parse_payload i' = Ok (set_Data f d) /\ Data f = d ++ t) \/
   parse_payload i' = Panic /\ exists k, 0 <= k < zlen (Data f) /\ parse_payload [(firstn (Z.to_nat k) (Data f), EOF)] = Ok (set_Data f (firstn (Z.to_nat k) (Data f)))).
Proof.
  intros [HP HM] D E D'. pose proof (payload_result i P D HP HM) as R. destruct (data_prefix i P f (conj HP HM) D E) as (t & PT). split; [eauto|].
  destruct (parse_sections (full P 0)) as [g s1|e' s1| |] eqn:PS; try contradiction; [|congruence].
  destruct R as (j & s2 & -> & Hj & _ & Rl & En & Hcase & Hend).
  destruct Hcase as [X|[X _]]; [|congruence]. rewrite X in E. injection E as <-. cbn [set_Data Data] in *. set (K := Bytes s2) in *.
  assert (HK : bytes K) by (rewrite PT in HP; now apply bytes_app in HP). pose proof (zlen_nonneg t) as Lt.
  assert (LK : zlen K <= zlen P) by (rewrite PT, zlen_app; lia).
  assert (KF : K = firstn (Z.to_nat (zlen K)) P). { rewrite PT. unfold zlen. rewrite Nat2Z.id, firstn_app, Nat.sub_diag, firstn_all. cbn. now rewrite app_nil_r. }
  assert (JK : j <= zlen K). { destruct Rl as (A & B & C & _). pose proof (rel_len P j s2). unfold K. lia. }
  assert (SK : parse_sections (full K 0) = POk g (full K j)).
  { destruct (Z_lt_ge_dec (zlen P) (OffsetToVertKernings g + 3)) as [Hs|Hl].
    - assert (P = K). { specialize (Hend (or_intror Hs)). rewrite X in Hend. injection Hend as Y. now symmetry. } rewrite <- H. exact PS.
    - destruct (sections_cut P g j (zlen K) HP PS ltac:(pose proof (zlen_nonneg K); lia)) as (_ & _ & _ & _ & _ & C6). rewrite <- KF in C6. apply C6; [|exact JK].
      destruct En as (_ & _ & _ & _ & [(_ & En & _)|(En & _)]); [|lia]. pose proof (le_at_range 3 P (OffsetToVertKernings g) HP). lia. }
  pose proof (payload_result i' K D' HK ltac:(unfold MaxFontDataSize; lia)) as R'. rewrite SK in R'. destruct R' as (j' & s2' & Ej & _ & _ & Rl' & En' & Hcase' & Hend'). injection Ej as <-.
  split.
  - intros Hc. apply Hend'. rewrite content_end_le in Hc. change (OffsetToVertKernings (set_Data g K)) with (OffsetToVertKernings g) in Hc.
    destruct En' as (_ & _ & _ & _ & [(_ & En' & _)|(En' & _)]); [left; lia|now right].
  - destruct Hcase' as [Y|(Y & Hlt & Hv)].
    + left. exists (Bytes s2'). destruct Rl' as (_ & _ & Z & _). exists (rest s2'). split; [exact Y|]. now rewrite Z.
    + right. split; [exact Y|]. exists j. split; [lia|]. set (L := firstn (Z.to_nat j) K).
      assert (LL : zlen L = j) by (unfold L; rewrite zlen_firstn; lia).
      assert (DL : delivers [(L, EOF)] L) by (split; [cbn; destruct L; exact I|reflexivity]). assert (BL : bytes L) by now apply bytes_firstn.
      pose proof (payload_result [(L, EOF)] L DL BL ltac:(unfold MaxFontDataSize; lia)) as RL.
      assert (SL : parse_sections (full L 0) = POk g (full L j)).
      { destruct (sections_cut K g j j HK SK ltac:(lia)) as (_ & _ & _ & _ & _ & C6). apply C6; [|lia].
        destruct En' as (_ & _ & _ & _ & [(_ & En' & _)|(En' & _)]); [|lia]. pose proof (le_at_range 3 K (OffsetToVertKernings g) HK). lia. }
      rewrite SL in RL. destruct RL as (j2 & s3 & Ej & _ & _ & _ & _ & _ & F). injection Ej as <-. apply F. left. lia.
Qed.
