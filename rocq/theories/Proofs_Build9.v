(** Built fonts are accepted by the parser. *)
From Coq Require Import Permutation.
From Verif Require Import Base BaseFacts Spec_Helpers Model_Helpers Proofs_Helpers Spec_Names Model_Names Proofs_Names Model_Date
  Model_Mask Spec_Mask Model_Font Model_Words Model_Parse Spec_Parse Spec_Format Proofs_Format Spec_Layout Spec_LayoutFont Spec_Accept Proofs_Accept
  Model_Builder Spec_Builder Proofs_Builder Proofs_Build Proofs_Build2 Proofs_Build3 Proofs_Build4 Proofs_Build5 Proofs_Build6 Proofs_Build7 Proofs_Build8 Spec_Build.

(** ** Colors have the types of the arguments *)
Definition colors_typed (b : builder) : Prop :=
  Forall (fun d => bytes (fst d) /\ bytes (snd d)) (b_dyes b) /\
  Forall (fun p => bytes (fst p) /\ Forall color_typed (snd p)) (b_palettes b).
Lemma main_typed : bytes (str_bytes "main") /\ bytes [255].
Proof. split; unfold bytes; repeat constructor; unfold byte; lia. Qed.
Lemma colors_typed_step b op : op_typed op -> colors_typed b -> colors_typed (bstep b op).
Proof.
  intros T [H1 H2]. pose proof (frame_colors b op) as F. destruct op;
    try (destruct F as [F1 F2]; unfold colors_typed; rewrite F1, F2; split; assumption); cbn [bstep op_typed] in *.
  - destruct (add_dye b name alphas) as [(_ & _ & ->)|(_ & m & ->)]; [|split; assumption]. split; cbn [fst with_colors b_dyes b_palettes]; [|exact H2].
    apply Forall_app. split; [exact H1|]. constructor; [exact T|constructor].
  - destruct (add_palette b name colors) as [(_ & _ & ->)|(_ & m & ->)]; [|split; assumption]. split; cbn [fst with_colors b_dyes b_palettes]; [exact H1|].
    apply Forall_app. split; [exact H2|]. constructor; [exact T|constructor].
  - destruct (build_builder o sort b) as [->|(_ & _ & ->)]; [split; assumption|]. split; [|constructor]. constructor; [exact main_typed|constructor].
Qed.
Lemma colors_typed_history id date ops : Forall op_typed ops -> colors_typed (history id date ops).
Proof.
  unfold history. assert (G : forall b, colors_typed b -> Forall op_typed ops -> colors_typed (fold_left bstep ops b)).
  { induction ops as [|op r IH]; intros b F T; [exact F|]. cbn [fold_left]. apply IH; [|exact (Forall_inv_tail T)]. apply colors_typed_step; [exact (Forall_inv T)|exact F]. }
  apply G. split; constructor.
Qed.
Lemma id_step b op : bh_ID (b_header (bstep b op)) = bh_ID (b_header b).
Proof.
  pose proof (frame_header b op) as F. destruct op; try (rewrite F; reflexivity); clear F; cbn [bstep];
    unfold SetFirstVerDate, SetMajorVerDate, SetMinorVerDate, set_date, RaiseMajorVersion, RaiseMinorVersion, SetVersion,
      SetName, SetFamily, SetAuthor, SetAbout, set_text; cbv zeta; repeat split_if; reflexivity.
Qed.
Lemma id_history id date ops : bh_ID (b_header (history id date ops)) = id.
Proof.
  unfold history. assert (G : forall b, bh_ID (b_header (fold_left bstep ops b)) = bh_ID (b_header b)).
  { induction ops as [|op r IH]; intros b; [reflexivity|]. cbn [fold_left]. rewrite IH. apply id_step. }
  rewrite G. reflexivity.
Qed.

(** ** Every mapped switch has cases *)
Definition cased (b : builder) : Prop := Forall (fun x => me_Cases (snd x) <> []) (b_mapping b).
Lemma switch_cases b k n : switches_ok b -> computeNumSwitchCases b k = Ok n -> 1 <= n.
Proof.
  intros [_ W] H. unfold computeNumSwitchCases in H. destruct (k >=? 254); [inversion H; lia|]. apply bind_ok_inv in H. destruct H as (ss & E & H). apply zget_in in E.
  rewrite Forall_forall in W. destruct (W ss E) as (NE & _). apply bind_ok_inv in H. destruct H as ([m f] & E2 & H). inversion H. subst m. clear H.
  assert (G : forall ss c f0 n f, (f0 = false -> 1 <= c) -> ofold (fun '(numCases, first) settingIndex =>
      do setting <- zget (b_settings b) settingIndex;
      let numOptions := zlen (snd setting) in
      if numOptions =? 0 then Panic else Ok ((if (first : bool) then numOptions else numCases * numOptions), false)) ss (c, f0) = Ok (n, f) ->
      (ss <> [] \/ f0 = false) -> 1 <= n).
  { clear. induction ss as [|x r IH]; intros c f0 n f H0; cbn [ofold].
    - intros H [D|D]; [contradiction|]. inversion H. subst. auto.
    - intros H _. apply bind_ok_inv in H. destruct H as ([c1 f1] & E & H). apply bind_ok_inv in E. destruct E as (s & _ & E). cbv zeta in E.
      pose proof (zlen_nonneg (snd s)). destruct (Z.eqb_spec (zlen (snd s)) 0); [discriminate|]. inversion E. subst c1 f1. eapply IH; [|exact H|right; reflexivity].
      intros _. destruct f0; [lia|]. specialize (H0 eq_refl). nia. }
  apply (G ss 0 true n f); [discriminate|exact E2|left; exact NE].
Qed.
Lemma cased_put b cp e : cased b -> me_Cases e <> [] -> cased (with_mapping b (m_set Z.eqb (b_mapping b) cp e)).
Proof.
  intros H N. unfold cased in *. cbn [with_mapping b_mapping]. apply Forall_forall. intros [c' e'] I1. apply m_set_in in I1. rewrite Forall_forall in H. destruct I1 as [I1|I1]; [inversion I1; exact N|]. exact (H _ I1).
Qed.
Lemma cased_step b op : switches_ok b -> cased b -> cased (bstep b op).
Proof.
  intros W H. pose proof (frame_mapping b op) as F. destruct op; try (unfold cased; rewrite F; exact H); clear F; cbn [bstep].
  - unfold Map. repeat split_if; try exact H. apply cased_put; [exact H|discriminate].
  - unfold MapGroup. repeat split_if; try exact H. apply cased_put; [exact H|discriminate].
  - unfold MapWithSwitchSingles. do 3 (destruct (_ : bool) in |- *; [exact H|]). destruct (computeNumSwitchCases b switch) as [n| | |] eqn:E; [|exact H..].
    apply (switch_cases _ _ _ W) in E. destruct (Z.eqb_spec (zlen uids) n) as [L|]; cbn [negb]; [|exact H]. apply cased_put; [exact H|]. cbn. destruct uids; [rewrite zlen_nil in L; lia|discriminate].
  - unfold MapWithSwitch. do 3 (destruct (_ : bool) in |- *; [exact H|]). cbv zeta.
    match goal with |- cased (fst (match ?c with _ => _ end)) => destruct c as [cs| | |] eqn:E end; [|exact H..]. apply cased_put; [exact H|]. cbn [me_Cases].
    apply bind_ok_inv in E. destruct E as (n & E1 & E). apply (switch_cases _ _ _ W) in E1. destruct (Z.eqb_spec (zlen uids) n) as [L|]; cbn [negb] in E; [|discriminate].
    apply bind_ok_inv in E. destruct E as (fl & _ & E). apply bind_ok_inv in E. destruct E as ([cs' j] & E2 & E). inversion E. subst cs'.
    destruct uids as [|g r]; [rewrite zlen_nil in L; lia|]. clear - E2. cbn [ofold] in E2. apply bind_ok_inv in E2. destruct E2 as ([c1 j1] & E1 & E2). apply bind_ok_inv in E1. destruct E1 as (f & _ & E1). inversion E1. subst c1 j1. clear E1.
    cbn [app] in E2. assert (G : forall r c0 i0, c0 <> [] -> ofold (fun '(cases, i) group => do f <- zget fl i; Ok (cases ++ [mkMapGroup group f], i + 1)) r (c0, i0) = Ok (cs, j) -> cs <> []).
    { clear. induction r as [|x r IH]; intros c0 i0 N; cbn [ofold]; [intros H; inversion H; subst; exact N|]. intros H. apply bind_ok_inv in H. destruct H as ([c1 j1] & E & H). apply bind_ok_inv in E. destruct E as (f & _ & E). inversion E. subst.
      eapply IH; [|exact H]. destruct c0; discriminate. }
    eapply G; [|exact E2]. discriminate.
Qed.
Lemma cased_history id date ops : Forall op_typed ops -> cased (history id date ops).
Proof.
  intros T. rewrite <- (rev_involutive ops) in *. generalize dependent (rev ops). clear ops. intros ops. induction ops as [|op r IH]; intros T; [constructor|].
  cbn [rev] in *. unfold history in *. rewrite fold_left_app. cbn [fold_left]. apply Forall_app in T. destruct T as [T1 T2]. apply cased_step; [|apply IH; exact T1].
  exact (proj2 (proj2 (limits_history id date _ T1))).
Qed.

(** ** The layout consists of bytes *)
Lemma bytes_concat (l : list (list Z)) : Forall bytes l -> bytes (concat l).
Proof. intros F. induction F; cbn [concat]; [constructor|]. apply Forall_app. split; assumption. Qed.
Lemma bytes_concat_map {A} (f : A -> list Z) l : (forall x, In x l -> bytes (f x)) -> bytes (concat (map f l)).
Proof. intros H. apply bytes_concat. apply Forall_forall. intros x I1. apply in_map_iff in I1. destruct I1 as (y & <- & I1). auto. Qed.
Lemma bytes_digits {A} w (g : A -> Z) l : bytes (concat (map (fun x => le_digits w (g x)) l)).
Proof. apply bytes_concat_map. intros. apply le_digits_bytes. Qed.
Lemma bytes_offsets {A} w (l : list (list A)) : bytes (offsets w l).
Proof. unfold offsets. apply bytes_concat_map. intros. apply le_digits_bytes. Qed.
Lemma bytes_indexed w l : bytes (concat l) -> bytes (indexed w l).
Proof. intros H. apply bytes_app. split; [apply bytes_offsets|exact H]. Qed.
Lemma bytes_cons x l : byte x -> bytes l -> bytes (x :: l).
Proof. constructor; assumption. Qed.
Lemma byte_len {A} (l : list A) : zlen l <= 255 -> byte (zlen l).
Proof. pose proof (zlen_nonneg l). unfold byte. lia. Qed.
Lemma loose_bytes s : loose_name s -> bytes s.
Proof. intros (_ & _ & F & _). eapply Forall_impl; [|exact F]. unfold alnum, letter, hyphen, byte. intros. lia. Qed.
Lemma loose_len s : loose_name s -> 1 <= zlen s <= 32.
Proof. intros (N & L & _). unfold zlen. destruct s; [contradiction|]. cbn [length] in *. lia. Qed.

Lemma group_bytes_ok b c g : byte (mg_Flags c) -> group_described b c g -> bytes (group_bytes g) /\ 3 <= zlen (group_bytes g).
Proof.
  intros F (H1 & H2 & (idxs & H3 & H4) & H5).
  assert (L : zlen (group_glyphs g) = zlen (mg_Glyphs c)).
  { unfold zlen. rewrite (Permutation_length H4), <- (Forall2_len _ _ _ H3). reflexivity. }
  unfold group_bytes. cbv zeta. rewrite L.
  assert (T : byte ((match g with GList _ _ => 0 | GRange _ _ _ => 128 end) + (zlen (mg_Glyphs c) - 1))) by (destruct g; unfold byte; lia).
  assert (R : bytes (match g with GList _ l => concat (map (le_digits 2) l) | GRange _ first _ => le_digits 2 first end)).
  { destruct g; [apply bytes_concat_map; intros; apply le_digits_bytes|apply le_digits_bytes]. }
  assert (RL : 2 <= zlen (match g with GList _ l => concat (map (le_digits 2) l) | GRange _ first _ => le_digits 2 first end)).
  { destruct g as [fl gl|fl first size]; [|rewrite zlen_le_digits; lia]. cbn [group_glyphs] in L. rewrite (zlen_concat_fixed _ 2) by reflexivity. lia. }
  split.
  - apply bytes_cons; [exact T|]. apply bytes_app. split; [|exact R]. destruct (Z.eqb_spec (zlen (mg_Glyphs c)) 1) as [|N]; [constructor|]. rewrite (proj1 H5 N). constructor; [exact F|constructor].
  - rewrite zlen_cons, zlen_app. pose proof (zlen_nonneg (if zlen (mg_Glyphs c) =? 1 then [] else [group_flags g])). lia.
Qed.
Lemma entry_bytes_ok b me e : byte (me_Switch me) -> Forall (fun g => byte (mg_Flags g)) (me_Cases me) -> entry_described b me e -> bytes (entry_bytes e).
Proof.
  intros S F H. destruct e as [i|g|k gs]; cbn [entry_bytes entry_described] in *.
  - apply bytes_cons; [unfold byte; lia|apply le_digits_bytes].
  - destruct H as (_ & c & E & _ & G). rewrite E in F. apply bytes_cons; [unfold byte; lia|]. exact (proj1 (group_bytes_ok b c g (Forall_inv F) G)).
  - destruct H as (<- & _ & _ & G). apply bytes_cons; [exact S|]. apply bytes_concat. revert F. induction G as [|c g cs gs' X _ IH]; intros F; cbn [map]; constructor.
    + exact (proj1 (group_bytes_ok b c g (Forall_inv F) X)).
    + apply IH. exact (Forall_inv_tail F).
Qed.
Lemma in_flat (l : list (list Z * list Z)) f y : In f l -> In y (fst f) -> In (true, y) (flat l).
Proof. intros I1 I2. unfold flat. apply in_concat. exists (map (pair true) (fst f) ++ map (pair false) (snd f)). split; [apply (in_map (fun f : list Z * list Z => map (pair true) (fst f) ++ map (pair false) (snd f))); exact I1|]. apply in_or_app. left. apply in_map. exact I2. Qed.
Lemma Forall2_in_r {A B} (R : A -> B -> Prop) l m y : Forall2 R l m -> In y m -> exists x, In x l /\ R x y.
Proof. intros F. induction F as [|a c l' m' H _ IH]; intros I1; [destruct I1|]. destruct I1 as [<-|I1]; [exists a; split; [left; reflexivity|exact H]|]. destruct (IH I1) as (x & X1 & X2). exists x. split; [right; exact X1|exact X2]. Qed.
Lemma rule_bytes_ok b elemR w r t : rule_fine r -> rule_stored elemR b r t -> zlen (b_setsOrder b) <= 255 -> bytes (rule_bytes w t).
Proof.
  intros (_ & B1 & B2 & B3 & B4) ((H1 & H2 & H3 & H4 & _ & (input & _ & H5) & H6) & _ & HO & _) HS. unfold rule_bytes. apply bytes_app. split.
  - rewrite H1, H2, H3, H4. repeat apply bytes_cons; try assumption; [apply byte_len; exact HO|constructor].
  - assert (D : bytes (concat (map (le_digits w) (rule_out t)))) by (apply bytes_concat_map; intros; apply le_digits_bytes).
    assert (G : forall bl, incl bl (rule_head t ++ rule_body t ++ rule_tail t) -> (forall y, In (true, y) (flat bl) -> In (true, y) (flat (rule_head t) ++ flat (rule_body t) ++ flat (rule_tail t))) -> bytes (block_bytes w bl)).
    { intros bl I1 I2. unfold block_bytes. apply bytes_concat_map. intros f I3. unfold fragment_bytes. rewrite Forall_forall in H6. destruct (H6 f (I1 f I3)) as [L1 L2].
      pose proof (zlen_nonneg (fst f)). pose proof (zlen_nonneg (snd f)). apply bytes_cons; [unfold byte; lia|]. apply bytes_app. split; [|apply bytes_concat_map; intros; apply le_digits_bytes].
      apply Forall_forall. intros y I4. destruct (Forall2_in_r _ _ _ _ H5 (I2 y (in_flat bl f y I3 I4))) as ([k x] & _ & X1 & X2). cbn [fst snd] in *. subst k.
      unfold set_indexed_as in X2. apply zget_ok_range in X2. unfold byte. lia. }
    apply bytes_app. split; [exact D|]. apply bytes_app. split; [|apply bytes_app; split].
    + apply G; [intros x; rewrite !in_app_iff; tauto|intros y; rewrite !in_app_iff; tauto].
    + apply G; [intros x; rewrite !in_app_iff; tauto|intros y; rewrite !in_app_iff; tauto].
    + apply G; [intros x; rewrite !in_app_iff; tauto|intros y; rewrite !in_app_iff; tauto].
Qed.
Lemma date_bytes_ok d : date_typed d -> bytes (date_bytes (ymd d)).
Proof. intros (_ & H1 & H2). unfold date_bytes, ymd. apply bytes_app. split; [apply le_digits_bytes|]. repeat apply bytes_cons; try assumption. constructor. Qed.

Section Bytes.
  Variable o : order.
  Variable b : builder.
  Variable l : layout.
  Hypothesis FN : fine b.
  Hypothesis CT : colors_typed b.
  Hypothesis SO : settings_ok b.
  Hypothesis WO : switches_ok b.
  Hypothesis DS : describes b l.
  Hypothesis BT : built o b l.

  Lemma words_loose : exists words, words_described words (l_words l) /\ zlen (l_words l) = zlen words /\ forall w, In w (map fst words) -> loose_name w.
  Proof.
    destruct (bt_word_names _ _ _ BT) as (words & H1 & _ & _ & H2 & H3). exists words. split; [exact H1|]. split; [exact H2|]. intros w I1. apply H3 in I1. unfold options in I1.
    apply in_concat in I1. destruct I1 as (os & I1 & I2). apply in_map_iff in I1. destruct I1 as (s & <- & I1). destruct SO as (_ & _ & F). rewrite Forall_forall in F.
    destruct (F s I1) as (_ & X & _). rewrite Forall_forall in X. exact (X w I2).
  Qed.
  Lemma sets_order : zlen (b_setsOrder b) <= 255.
  Proof. pose proof (proj1 (bt_sets _ _ _ BT)) as L. pose proof (Forall2_len _ _ _ (ds_glyph_sets _ _ DS)) as E. unfold zlen in *. rewrite E. exact L. Qed.

  Lemma built_bytes : bytes (font_bytes l).
  Proof.
    unfold font_bytes, sections. apply bytes_concat. repeat match goal with |- Forall _ (_ :: _) => apply Forall_cons end.
    - rewrite (ds_header _ _ DS). destruct (fn_header _ FN) as (_ & _ & D1 & D2 & D3 & S1 & S2 & S3 & S4). destruct (bt_header _ _ _ BT) as (L1 & L2 & L3 & L4).
      unfold header_bytes, short_string, long_string. cbn [h_format h_id h_major h_minor h_first_date h_major_date h_minor_date h_name h_family h_author h_about].
      repeat match goal with |- bytes (_ ++ _) => apply bytes_app; split end; try apply le_digits_bytes; try (apply date_bytes_ok; assumption); try (apply bytes_cons; [apply byte_len|]; assumption). exact S4.
    - rewrite (ds_metrics _ _ DS). unfold metrics_bytes. cbn [m_glyphs m_vert m_mono m_ascent m_extra_ascent m_descent m_extra_descent m_uppercase m_midline m_horz_spacing m_vert_spacing m_line_gap m_vert_width m_vert_gap].
      apply bytes_app. split; [apply le_digits_bytes|]. apply bytes_cons; [destruct (bm_vert (b_metrics b)); unfold byte; lia|]. exact (fn_metrics _ FN).
    - rewrite (ds_dyes _ _ DS). unfold dyes_bytes. pose proof (bt_colors _ _ _ BT). pose proof (zlen_nonneg (b_palettes b)). destruct CT as [C1 _]. rewrite Forall_forall in C1.
      apply bytes_cons; [apply byte_len; lia|]. apply bytes_app. split; [apply bytes_offsets|]. apply bytes_app. split; [apply bytes_concat_map; intros x I1; apply C1; exact I1|].
      apply bytes_indexed. apply bytes_concat_map. intros x I1. apply C1. exact I1.
    - rewrite (ds_palettes _ _ DS). unfold palettes_bytes. pose proof (bt_colors _ _ _ BT). pose proof (zlen_nonneg (b_dyes b)). destruct CT as [_ C1]. rewrite Forall_forall in C1.
      assert (LP : zlen (b_palettes b) <= 255) by lia. apply bytes_cons; [exact (byte_len _ LP)|]. apply bytes_app. split; [apply bytes_offsets|]. apply bytes_app. split.
      + apply bytes_concat_map. intros c I1. apply in_concat in I1. destruct I1 as (cs & I1 & I2). apply in_map_iff in I1. destruct I1 as (p & <- & I1).
        destruct (C1 p I1) as [_ X]. rewrite Forall_forall in X. specialize (X c I2). destruct c as [[[r g] bl] a]. unfold color_typed in X. cbn. repeat apply bytes_cons; try tauto. constructor.
      + apply bytes_indexed. apply bytes_concat_map. intros x I1. apply C1. exact I1.
    - unfold glyph_names_bytes. apply bytes_app. split; [apply le_digits_bytes|]. apply bytes_app. split; [apply bytes_digits|]. apply bytes_indexed. apply bytes_concat_map.
      intros [name i] I1. destruct (ds_names _ _ DS) as [_ N]. apply N in I1. destruct I1 as (NE & uid & gd & _ & I1 & <-). destruct (fn_glyphs _ FN) as (_ & _ & G).
      destruct (G uid gd I1) as (_ & _ & [X|[_ X]] & _); [rewrite X in NE; contradiction|exact X].
    - unfold glyph_masks_bytes. apply bytes_indexed. apply bytes_concat_map. intros g I1. destruct (Forall2_in_r _ _ _ _ (ds_glyphs _ _ DS) I1) as (uid & _ & gd & I2 & E & D).
      destruct (fn_glyphs _ FN) as (_ & _ & G). destruct (G uid gd I2) as (_ & _ & _ & P1 & P2 & P3 & P4). unfold glyph_bytes. apply bytes_app. split; [|exact (proj1 D)].
      rewrite E. unfold placement_bytes. cbn. destruct (m_vert (l_metrics l)); repeat apply bytes_cons; try assumption; constructor.
    - destruct words_loose as (words & (_ & _ & lens & txts & P1 & P2 & E1 & E2) & H2 & H3). unfold words_bytes. apply bytes_cons; [apply byte_len; exact (bt_words _ _ _ BT)|].
      apply bytes_indexed. rewrite E2. apply bytes_concat_map. intros x I1. apply loose_bytes, H3, in_map. apply (Permutation_in _ P2 I1).
    - unfold setting_names_bytes. destruct SO as (_ & S1 & S2). pose proof (ds_settings _ _ DS) as (words & _ & S3).
      apply bytes_cons; [pose proof (Forall2_len _ _ _ S3); apply byte_len; unfold zlen in *; lia|]. apply bytes_indexed. apply bytes_concat_map. intros t I1.
      destruct (Forall2_in_r _ _ _ _ S3 I1) as (s & I2 & -> & _). rewrite Forall_forall in S2. apply loose_bytes, S2, I2.
    - unfold setting_defs_bytes. apply bytes_indexed. exact (bt_options _ _ _ BT).
    - rewrite (ds_switches _ _ DS). destruct WO as [W1 W2]. unfold switches_bytes. apply bytes_cons; [apply byte_len; lia|]. apply bytes_indexed. apply bytes_concat.
      eapply Forall_impl; [|exact W2]. intros s (_ & _ & X). eapply Forall_impl; [|exact X]. destruct SO as (_ & S1 & _). unfold byte. intros. cbv beta in *. lia.
    - unfold mapping_bytes. apply bytes_app. split; [apply le_digits_bytes|]. apply bytes_app. split; [apply bytes_digits|]. apply bytes_indexed. apply bytes_concat_map. intros y I1.
      destruct (bt_mapped _ _ _ BT) as (m & M1 & M2). destruct (Forall2_in_r _ _ _ _ M1 I1) as ([cp e] & I2 & I3 & _ & E & _). cbn [snd] in *.
      destruct (proj2 (fn_mapping _ FN) cp e I3) as (_ & X1 & X2). apply (entry_bytes_ok b e); assumption.
    - rewrite (bt_conditions _ _ _ BT). apply bytes_cons; [apply byte_len; discriminate|constructor].
    - rewrite (ds_utf8_sets _ _ DS). apply bytes_cons; [apply byte_len; discriminate|constructor].
    - destruct (bt_sets _ _ _ BT) as (L1 & _ & L3). unfold sets_bytes. apply bytes_cons; [apply byte_len; lia|]. apply bytes_indexed. apply bytes_concat_map. intros t I1.
      rewrite Forall_forall in L3. destruct (L3 t I1) as [X1 X2]. destruct (Forall2_in_r _ _ _ _ (ds_glyph_sets _ _ DS) I1) as (uid & _ & s & _ & D1 & D2).
      unfold set_bytes. apply bytes_cons; [apply byte_len; lia|]. apply bytes_app. split.
      + apply bytes_concat_map. intros x I2. destruct (Forall2_in_r _ _ _ _ D1 I2) as (r & _ & _ & _ & X). apply bytes_app. split; [apply le_digits_bytes|]. constructor; [exact X|constructor].
      + apply bytes_cons; [apply byte_len; lia|]. apply bytes_concat_map. intros. apply le_digits_bytes.
    - unfold rules_bytes. apply bytes_app. split; [apply le_digits_bytes|]. apply bytes_indexed. apply bytes_concat_map. intros t I1.
      destruct (Forall2_in_r _ _ _ _ (proj1 (bt_utf8_rules _ _ _ BT)) I1) as (r & I2 & X). destruct (fn_rules _ FN) as [_ R]. rewrite Forall_forall in R. exact (rule_bytes_ok b _ 4 r t (R r I2) X sets_order).
    - unfold rules_bytes. apply bytes_app. split; [apply le_digits_bytes|]. apply bytes_indexed. apply bytes_concat_map. intros t I1.
      destruct (Forall2_in_r _ _ _ _ (proj1 (bt_glyph_rules _ _ _ BT)) I1) as (r & I2 & X). destruct (fn_rules _ FN) as [R _]. rewrite Forall_forall in R. exact (rule_bytes_ok b _ 2 r t (R r I2) X sets_order).
    - unfold kernings_bytes. apply bytes_app. split; [apply le_digits_bytes|]. apply bytes_app. split; apply bytes_digits.
    - unfold kernings_bytes. apply bytes_app. split; [apply le_digits_bytes|]. apply bytes_app. split; apply bytes_digits.
    - constructor.
  Qed.
End Bytes.

(** ** Sizes *)
Lemma total_map {A B} (f : A -> list B) l lo hi : (forall x, In x l -> lo <= zlen (f x) <= hi) ->
  lo * zlen l <= total (map f l) <= hi * zlen l.
Proof.
  unfold total. induction l as [|x r IH]; intros H; cbn [map concat]; [change (zlen (@nil B)) with 0; change (zlen (@nil A)) with 0; lia|].
  rewrite zlen_app, zlen_cons. pose proof (H x (or_introl eq_refl)). specialize (IH (fun y I1 => H y (or_intror I1))). lia.
Qed.
Lemma total_app_split {A B} (f g : A -> list B) l k : (forall x, In x l -> zlen (f x) = k + zlen (g x)) -> total (map f l) = k * zlen l + total (map g l).
Proof.
  unfold total. induction l as [|x r IH]; intros H; cbn [map concat]; [change (zlen (@nil B)) with 0; change (zlen (@nil A)) with 0; lia|].
  rewrite !zlen_app, zlen_cons, (H x (or_introl eq_refl)), (IH (fun y I1 => H y (or_intror I1))). lia.
Qed.
Lemma zlen_indexed w l : zlen (indexed w l) = Z.of_nat w * zlen l + total l.
Proof. unfold indexed, total. rewrite zlen_app, zlen_offsets. reflexivity. Qed.
Lemma total_zlens {A} (l : list (list A)) : total l = fold_right Z.add 0 (map zlen l).
Proof. unfold total. induction l as [|x r IH]; [reflexivity|]. cbn [map concat fold_right]. rewrite zlen_app, IH. reflexivity. Qed.
Lemma bytes_total_le {A} (l : list (list A)) lo hi : Forall (fun x => lo <= zlen x <= hi) l -> lo * zlen l <= total l <= hi * zlen l.
Proof. intros F. pose proof (total_map (fun x => x) l lo hi) as T. rewrite map_id in T. apply T. rewrite Forall_forall in F. exact F. Qed.
Lemma F2_zlen {A B} (R : A -> B -> Prop) l m : Forall2 R l m -> zlen l = zlen m.
Proof. intros F. unfold zlen. rewrite (Forall2_len _ _ _ F). reflexivity. Qed.
Lemma block_size w bl : block_shaped bl -> 1 <= zlen (block_bytes w bl).
Proof.
  intros S. assert (N : bl <> []) by (destruct S as [->|[N _]]; [discriminate|exact N]). destruct bl as [|f r]; [contradiction|].
  unfold block_bytes. cbn [map concat]. unfold fragment_bytes at 1. cbn [app]. rewrite zlen_cons. pose proof (zlen_nonneg ((fst f ++ concat (map (le_digits w) (snd f))) ++ concat (map (fragment_bytes w) r))). lia.
Qed.
(** at least 8 bytes per rule *)
Lemma rules_size w R b rs ts : Forall2 (rule_stored R b) rs ts -> 8 * zlen ts <= total (map (rule_bytes w) ts).
Proof.
  intros F. unfold total. induction F as [|r t rs ts X _ IH]; [cbn; unfold zlen; cbn; lia|]. cbn [map concat]. rewrite zlen_cons, zlen_app.
  destruct X as (_ & _ & _ & S1 & S2 & S3). apply (block_size w) in S1, S2, S3. unfold rule_bytes at 1. rewrite !zlen_app.
  change (zlen [rule_condition t; block_length (rule_head t); block_length (rule_body t); block_length (rule_tail t); zlen (rule_out t)]) with 5.
  pose proof (zlen_nonneg (concat (map (le_digits w) (rule_out t)))). lia.
Qed.

Section Accepted.
  Variable o : order.
  Variable b : builder.
  Variable l : layout.
  Hypothesis FN : fine b.
  Hypothesis CT : colors_typed b.
  Hypothesis CO : colors_ok b.
  Hypothesis SO : settings_ok b.
  Hypothesis WO : switches_ok b.
  Hypothesis CA : cased b.
  Hypothesis ID : 0 <= bh_ID (b_header b) < 2 ^ 64.
  Hypothesis DS : describes b l.
  Hypothesis BT : built o b l.
  Hypothesis PL : parser_limits b (font_of l).

  Lemma len_glyphs : zlen (l_glyphs l) = zlen (b_order b).
  Proof. symmetry. apply (F2_zlen _ _ _ (ds_glyphs _ _ DS)). Qed.
  Lemma section_size k s : nth_error (sections l) k = Some s -> section_start l (S k) - section_start l k = zlen s.
  Proof. intros H. rewrite (start_S _ _ _ H). lia. Qed.

  Lemma section_small k s : nth_error (sections l) k = Some s -> zlen s <= 33554432.
  Proof.
    intros H. pose proof (bt_size _ _ _ BT) as S. unfold font_bytes, MaxFontDataSize in S. apply nth_error_split in H. destruct H as (l1 & l2 & E & _). rewrite E, concat_app in S.
    cbn [concat] in S. rewrite !zlen_app in S. pose proof (zlen_nonneg (concat l1)). pose proof (zlen_nonneg (concat l2)). lia.
  Qed.

  Lemma built_accepted (E : Z -> Prop) : E (bh_ID (b_header b)) -> accepted E l.
  Proof.
    intros HE. pose proof len_glyphs as LG. pose proof (bt_glyphs _ _ _ BT) as LG2. unfold MaxGlyphs in LG2.
    constructor.
    - exact (built_bytes o b l FN CT SO WO DS BT).
    - exact (bt_size _ _ _ BT).
    - rewrite (ds_header _ _ DS). destruct (fn_header _ FN) as (M1 & M2 & (D1 & D1' & D1'') & (D2 & D2' & D2'') & (D3 & D3' & D3'') & _).
      destruct (bt_header _ _ _ BT) as (L1 & L2 & L3 & L4). pose proof (pl_name _ _ PL). unfold header_in_range, date_in_range, ymd. cbn.
      unfold byte in *. repeat split; try lia; try assumption.
    - rewrite (ds_metrics _ _ DS). cbn. lia.
    - rewrite (ds_metrics _ _ DS). cbn. pose proof (bt_metrics _ _ _ BT) as M. unfold GetMetricsStatus in M. cbv zeta in M.
      destruct (Z.eqb_spec (bm_ascent (b_metrics b)) 0); [discriminate|]. destruct (Z.leb_spec (bm_ascent (b_metrics b)) (bm_extraAscent (b_metrics b))); [discriminate|].
      split; [assumption|]. split; [lia|]. exact (pl_spacing _ _ PL).
    - rewrite (ds_dyes _ _ DS), (ds_palettes _ _ DS). destruct (pl_colors _ _ PL) as [C1 C2]. split; [exact C1|]. split; [exact C2|]. exact (proj2 CO).
    - pose proof (bt_names _ _ _ BT) as LN. split; [lia|]. unfold sized. rewrite zlen_map.
      assert (T : 0 * zlen (l_names l) <= total (map fst (l_names l)) <= 32 * zlen (l_names l)).
      { apply total_map. intros [name i] I1. destruct (ds_names _ _ DS) as [_ N]. apply N in I1. destruct I1 as (NE & uid & gd & _ & I1 & <-). destruct (fn_glyphs _ FN) as (_ & _ & G).
        destruct (G uid gd I1) as (_ & _ & [X|[X _]] & _); [rewrite X in NE; contradiction|]. apply loose_len in X. cbn [fst]. lia. }
      lia.
    - pose proof (pl_masks _ _ PL) as M. cbn [font_of OffsetToWords OffsetToGlyphMasks] in M. rewrite (section_size 5 _ eq_refl) in M. unfold glyph_masks_bytes in M. rewrite zlen_indexed, zlen_map in M.
      rewrite (total_app_split _ snd _ (if bm_vert (b_metrics b) then 4 else 1)) in M; [change (Z.of_nat 3) with 3 in M; destruct (bm_vert (b_metrics b)); lia|].
      intros g _. rewrite (ds_metrics _ _ DS). cbn [m_vert]. unfold glyph_bytes. rewrite zlen_app. unfold placement_bytes. destruct (bm_vert (b_metrics b)); reflexivity.
    - pose proof (bt_words _ _ _ BT) as LW. split; [exact LW|]. destruct (words_loose o b l SO BT) as (words & (_ & _ & lens & txts & P1 & P2 & E1 & E2) & H2 & H3).
      assert (T : 1 * zlen (l_words l) <= total (l_words l) <= 32 * zlen (l_words l)).
      { apply bytes_total_le. apply Forall_forall. intros w I1. apply (in_map zlen) in I1. rewrite E1 in I1. apply in_map_iff in I1. destruct I1 as (e & <- & I1).
        apply loose_len, H3, in_map. apply (Permutation_in _ P1 I1). }
      unfold sized. lia.
    - destruct SO as (_ & S1 & S2). destruct (ds_settings _ _ DS) as (words & _ & S3). pose proof (F2_zlen _ _ _ S3) as LS. rewrite Forall_forall in S2. split; [lia|]. unfold sized. rewrite !zlen_map.
      assert (T1 : 1 * zlen (l_settings l) <= total (map fst (l_settings l)) <= 32 * zlen (l_settings l)).
      { apply total_map. intros t I1. destruct (Forall2_in_r _ _ _ _ S3 I1) as (s & I2 & -> & _). apply loose_len, S2, I2. }
      assert (T2 : 0 * zlen (l_settings l) <= total (map snd (l_settings l)) <= 255 * zlen (l_settings l)).
      { apply total_map. intros t I1. destruct (Forall2_in_r _ _ _ _ S3 I1) as (s & I2 & _ & X). rewrite <- (F2_zlen _ _ _ X). pose proof (zlen_nonneg (snd s)). destruct (S2 s I2) as (_ & _ & Y). lia. }
      assert (T3 : total (map snd (l_settings l)) = zlen (concat (map snd (b_settings b)))).
      { clear - S3. unfold total. induction S3 as [|s t ss ts X _ IH]; [reflexivity|]. cbn [map concat]. rewrite !zlen_app, IH. destruct X as [_ X]. rewrite (F2_zlen _ _ _ X). reflexivity. }
      pose proof (pl_options _ _ PL). pose proof (zlen_nonneg (l_settings l)). lia.
    - rewrite (ds_switches _ _ DS). destruct WO as [W1 W2]. pose proof (pl_switches _ _ PL) as W3. split; [exact W3|]. destruct (ds_settings _ _ DS) as (words & _ & S3). rewrite <- (F2_zlen _ _ _ S3).
      assert (T : 1 * zlen (b_switches b) <= total (b_switches b) <= zlen (b_settings b) * zlen (b_switches b)).
      { apply bytes_total_le. eapply Forall_impl; [|exact W2]. intros sw (N1 & N2 & N3). split; [destruct sw; [contradiction|]; rewrite zlen_cons; pose proof (zlen_nonneg sw); lia|].
        assert (I1 : incl sw (zseq (zlen (b_settings b)))) by (intros x I1; apply in_zseq; rewrite Forall_forall in N3; exact (N3 x I1)).
        pose proof (NoDup_incl_length N2 I1) as L. apply inj_le in L. fold (zlen sw) in L. fold (zlen (zseq (zlen (b_settings b)))) in L.
        rewrite zlen_zseq in L by apply zlen_nonneg. exact L. }
      destruct SO as (_ & S1 & _). unfold sized. pose proof (zlen_nonneg (b_switches b)). nia.
    - pose proof (bt_mapping _ _ _ BT) as LM. unfold MaxGlyphs in LM. split; [lia|].
      destruct (bt_mapped _ _ _ BT) as (m & M1 & M2).
      assert (T : forall y, In y (l_mapping l) -> 3 <= zlen (entry_bytes (snd y))).
      { intros y I1. destruct (Forall2_in_r _ _ _ _ M1 I1) as ([cp e] & I2 & I3 & _ & X & _). cbn [snd] in *. pose proof CA as C. unfold cased in C. rewrite Forall_forall in C. specialize (C _ I3). cbn [snd] in C.
        destruct (proj2 (fn_mapping _ FN) cp e I3) as (_ & _ & FL). destruct (snd y) as [i|g|k gs]; cbn [entry_described entry_bytes] in *.
        - rewrite zlen_cons, zlen_le_digits. lia.
        - destruct X as (_ & c & X & _ & G). rewrite X in FL. rewrite zlen_cons. pose proof (proj2 (group_bytes_ok b c g (Forall_inv FL) G)). lia.
        - destruct X as (_ & _ & _ & G). destruct G as [|c g cs gs' G _]; [contradiction|]. cbn [map concat]. rewrite zlen_cons, zlen_app.
          pose proof (proj2 (group_bytes_ok b c g (Forall_inv FL) G)). pose proof (zlen_nonneg (concat (map group_bytes gs'))). lia. }
      assert (LO : 3 * zlen (l_mapping l) <= total (map (fun x => entry_bytes (snd x)) (l_mapping l))).
      { clear - T. unfold total. induction (l_mapping l) as [|y r IH]; [cbn; unfold zlen; cbn; lia|]. cbn [map concat]. rewrite zlen_cons, zlen_app. pose proof (T y (or_introl eq_refl)).
        specialize (IH (fun z I1 => T z (or_intror I1))). lia. }
      pose proof (pl_mapping _ _ PL) as X. cbn [font_of OffsetToRewriteConditions OffsetToMapping] in X. rewrite (section_size 10 _ eq_refl) in X. unfold mapping_bytes in X.
      rewrite !zlen_app, zlen_indexed, zlen_map, zlen_le_digits in X. rewrite (zlen_concat_fixed _ 4) in X by reflexivity.
      assert (E1 : zlen (b_mapping b) = zlen (l_mapping l)) by (rewrite <- (F2_zlen _ _ _ M1); unfold zlen; rewrite (Permutation_length M2); reflexivity).
      rewrite E1 in X. unfold sized. rewrite zlen_map. change (Z.of_nat 2) with 2 in X. change (Z.of_nat 3) with 3 in X. 
      assert (Y : total (map (fun x => entry_bytes (snd x)) (l_mapping l)) < 16777216) by lia. split; [|exact Y]. split; [exact LO|].
      destruct (l_mapping l) as [|y r]; [reflexivity|]. rewrite zlen_cons. pose proof (zlen_nonneg r). lia.
    - rewrite (bt_conditions _ _ _ BT). split; [discriminate|]. repeat split; discriminate.
    - rewrite (ds_utf8_sets _ _ DS). split; [discriminate|]. repeat split; discriminate.
    - destruct (bt_sets _ _ _ BT) as (L1 & L2 & L3). split; [exact L1|]. unfold sized. rewrite zlen_map. fold (total (map (set_bytes 2) (l_glyph_sets l))) in L2.
      assert (T : 4 * zlen (l_glyph_sets l) <= total (map (set_bytes 2) (l_glyph_sets l)) <= 65536 * zlen (l_glyph_sets l)); [|lia].
      apply total_map. intros t I1. rewrite Forall_forall in L3. destruct (L3 t I1) as [X1 X2]. destruct (Forall2_in_r _ _ _ _ (ds_glyph_sets _ _ DS) I1) as (uid & _ & s & I2 & D1 & D2).
      pose proof (pl_sets _ _ PL) as P. rewrite Forall_forall in P. specialize (P _ I2). cbn [snd] in P. unfold set_bytes. rewrite zlen_cons, zlen_app, zlen_cons.
      rewrite (zlen_concat_fixed _ 3) by (intros; rewrite zlen_app; reflexivity). rewrite (zlen_concat_fixed _ 2) by reflexivity.
      pose proof (zlen_nonneg (set_ranges t)). pose proof (zlen_nonneg (set_elements t)).
      assert (0 < zlen (set_ranges t) + zlen (set_elements t)); [|lia].
      rewrite <- (F2_zlen _ _ _ D1), <- (F2_zlen _ _ _ D2). destruct P as [P|P]; [destruct (bs_ranges s)|destruct (bs_list s)]; try contradiction; rewrite zlen_cons;
        [pose proof (zlen_nonneg (bs_list s)); pose proof (zlen_nonneg l0)|pose proof (zlen_nonneg (bs_ranges s)); pose proof (zlen_nonneg l0)]; lia.
    - destruct (bt_utf8_rules _ _ _ BT) as (R1 & R2 & R3). split; [lia|]. unfold sized. rewrite zlen_map. pose proof (F2_zlen _ _ _ R1) as E1.
      pose proof (pl_utf8_rules _ _ PL) as X1. cbn [font_of OffsetToGlyphRewrites OffsetToUtf8Rewrites] in X1. rewrite (section_size 14 _ eq_refl) in X1.
      pose proof (section_small 14 _ eq_refl) as X2. unfold rules_bytes in X1, X2. fold (total (map (rule_bytes 4) (l_utf8_rules l))) in R3.
      rewrite zlen_app, zlen_indexed, zlen_map, zlen_le_digits in X1, X2. change (Z.of_nat 2) with 2 in X1, X2. change (Z.of_nat 3) with 3 in X1, X2.
      pose proof (rules_size 4 _ _ _ _ R1) as T. pose proof (zlen_nonneg (l_utf8_rules l)). unfold u32 in R3. rewrite Z.mod_small in R3 by lia. lia.
    - destruct (bt_glyph_rules _ _ _ BT) as (R1 & R2 & R3). split; [lia|]. unfold sized. rewrite zlen_map. pose proof (F2_zlen _ _ _ R1) as E1.
      pose proof (pl_glyph_rules _ _ PL) as X1. cbn [font_of OffsetToHorzKernings OffsetToGlyphRewrites] in X1. rewrite (section_size 15 _ eq_refl) in X1.
      pose proof (section_small 15 _ eq_refl) as X2. unfold rules_bytes in X1, X2. fold (total (map (rule_bytes 2) (l_glyph_rules l))) in R3.
      rewrite zlen_app, zlen_indexed, zlen_map, zlen_le_digits in X1, X2. change (Z.of_nat 2) with 2 in X1, X2. change (Z.of_nat 3) with 3 in X1, X2.
      pose proof (rules_size 2 _ _ _ _ R1) as T. pose proof (zlen_nonneg (l_glyph_rules l)). unfold u32 in R3. rewrite Z.mod_small in R3 by lia. lia.
    - rewrite (bt_vert _ _ _ BT). destruct (bt_horz _ _ _ BT) as [K1 K2]. rewrite LG. split; [lia|].
      assert (K : zlen (l_horz l) <= zlen (b_order b) * zlen (b_order b)); [|change (zlen (@nil (Z * Z * Z))) with 0; split; [exact K|nia]].
      destruct (ds_horz _ _ DS) as (_ & p & P1 & P2).
      assert (ND : NoDup (map fst p)) by (apply (Permutation_NoDup (Permutation_map fst (Permutation_sym P1))); exact (proj1 (fn_kerning _ FN))).
      assert (IN : incl (map fst p) (list_prod (b_order b) (b_order b))).
      { intros x I1. apply in_map_iff in I1. destruct I1 as (y & <- & I1). clear - P2 I1. induction P2 as [|x y' p' l' X _ IH]; [destruct I1|]. destruct I1 as [<-|I1]; [|exact (IH I1)].
        destruct y' as [[prev curr] v]. destruct X as (X1 & X2 & _). apply zget_in in X1, X2. destruct x as [[u w] k]. cbn [fst snd] in *. apply in_prod; assumption. }
      pose proof (NoDup_incl_length ND IN) as L. rewrite prod_length, map_length, (Permutation_length P1) in L. rewrite K1. unfold zlen. lia.
  Qed.
End Accepted.

Lemma built_layout id date ops o sort b' f :
  date_typed date -> 0 <= id < 2 ^ 64 -> entropy_too_low id = false -> Forall op_typed ops ->
  perm_order o -> (forall l, Permutation l (sort l)) ->
  Build o sort (history id date ops) = (b', Ok f) -> parser_limits b' f ->
  exists l, f = font_of l /\ accepted (fun id => entropy_too_low id = false) l.
Proof.
  intros HD HI HE HT HO HS HB HP.
  pose proof (limits_history id date ops HT) as (_ & (_ & L & _) & _).
  destruct (build_ok o sort _ b' f HO HS (fine_history id date ops HD HT) L HB) as (_ & l & D1 & -> & D2).
  assert (E : b' = history id date (ops ++ [OBuild o sort])).
  { unfold history. rewrite fold_left_app. cbn [fold_left bstep]. fold (history id date ops). rewrite HB. reflexivity. }
  assert (HT' : Forall op_typed (ops ++ [OBuild o sort])) by (apply Forall_app; split; [exact HT|]; constructor; [exact HO|constructor]).
  pose proof (limits_history id date _ HT') as (L1 & L2 & L3). pose proof (id_history id date (ops ++ [OBuild o sort])) as EI.
  pose proof (fine_history id date _ HD HT') as FN. pose proof (colors_typed_history id date _ HT') as CT. pose proof (cased_history id date _ HT') as CA. rewrite <- E in *.
  exists l. split; [reflexivity|].
  apply (built_accepted o b'); try assumption; rewrite EI; assumption.
Qed.
Lemma built_parses id date ops o sort b' f i :
  date_typed date -> 0 <= id < 2 ^ 64 -> entropy_too_low id = false -> Forall op_typed ops ->
  perm_order o -> (forall l, Permutation l (sort l)) ->
  Build o sort (history id date ops) = (b', Ok f) -> parser_limits b' f ->
  delivers i (Data f) -> parse_payload i = Ok f.
Proof. intros HD HI HE HT HO HS HB HP HV. destruct (built_layout id date ops o sort b' f HD HI HE HT HO HS HB HP) as (l & -> & A). exact (accepted_parses l i A HV). Qed.
Lemma built_data_bytes id date ops o sort b' f :
  date_typed date -> 0 <= id < 2 ^ 64 -> entropy_too_low id = false -> Forall op_typed ops ->
  perm_order o -> (forall l, Permutation l (sort l)) ->
  Build o sort (history id date ops) = (b', Ok f) -> parser_limits b' f -> bytes (Data f).
Proof. intros HD HI HE HT HO HS HB HP. destruct (built_layout id date ops o sort b' f HD HI HE HT HO HS HB HP) as (l & -> & A). exact (ac_bytes _ _ A). Qed.
