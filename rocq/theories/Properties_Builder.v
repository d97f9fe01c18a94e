(** Theorems C46 and C47 (the calls that change a builder). [history id date ops] is the builder
    after the calls [ops] on a new one; [sample_builder] is an example with all kinds of content. *)
From Coq Require Import Permutation.
From Verif Require Import Base BaseFacts Spec_Helpers Model_Helpers Model_Date Spec_Names Spec_Mask Model_Mask Model_Font
  Model_Words Model_Builder Spec_Builder Sample_Builder Proofs_Builder.

Ltac splits := repeat match goal with |- _ /\ _ => split end.
Ltac small := cbn; unfold zlen, byte, uint64; cbn; lia.

Example sample_typed : Forall op_typed sample_ops.
Proof.
  unfold sample_ops, sample_glyphs, sample_colors, sample_settings, sample_mapping, sample_rewrites, sample_kerning, op_typed,
    bytes, byte, uint64, int32, color_typed, byte, alpha_ok, alpha_readable, int_rect, sample_mask, zlen. cbn.
  repeat first [apply Forall_cons | apply Forall_nil | split | lia | cbn; unfold MinInt, MaxInt; lia
    | cbn; unfold bytes, byte; repeat constructor; lia].
Qed.

(** ** C46 *)

(** Full statement: after a removal that returns true the set lacks the removed element and
    keeps the others; after removing a set the font still builds. False: *)
Theorem C46_range_refuted : exists b uid first last s,
  m_get Z.eqb (b_glyphSets b) uid = Some s /\ In (first, last) (bs_ranges s) /\
  snd (RemoveGlyphSetRange b uid first last) = true /\
  m_get Z.eqb (b_glyphSets (fst (RemoveGlyphSetRange b uid first last))) uid = Some s.
Proof. exists sample_builder, 2001, 1001, 1003, (mkBSet [(1001, 1003)] [1005]). splits; [vm_compute; reflexivity|left; reflexivity|vm_compute; reflexivity..]. Qed.
Print Assumptions C46_range_refuted.
Theorem C46_set_refuted : exists b uid o sort b' f,
  Build o sort b = (b', Ok f) /\ snd (RemoveGlyphSet b uid) = true /\ snd (Build o sort (fst (RemoveGlyphSet b uid))) = Panic.
Proof.
  exists (history 1 sample_date (sample_glyphs ++ [OCreateGlyphSet [2001]])), 2001, no_order, no_sort.
  destruct (Build no_order no_sort (history 1 sample_date (sample_glyphs ++ [OCreateGlyphSet [2001]]))) as [b' r] eqn:E.
  assert (R : match r with Ok _ => True | _ => False end).
  { change r with (snd (b', r)). rewrite <- E. vm_compute. exact I. }
  destruct r as [f|m| |]; [|destruct R..]. exists b', f. splits; [reflexivity|vm_compute; reflexivity..].
Qed.
Print Assumptions C46_set_refuted.

(** The failures are general: a removal of a range or an element never changes anything. The
    result is right: it is true exactly if the element is there. *)
Theorem C46_range_never_removed_refuted : forall b uid first last b' r, RemoveGlyphSetRange b uid first last = (b', r) ->
  (r = true <-> exists s, m_get Z.eqb (b_glyphSets b) uid = Some s /\ In (first, last) (bs_ranges s)) /\
  (forall k, m_get Z.eqb (b_glyphSets b') k = m_get Z.eqb (b_glyphSets b) k) /\
  b' = with_glyphSets b (b_glyphSets b') (b_setsOrder b).
Proof. exact remove_range. Qed.
Print Assumptions C46_range_never_removed_refuted.
Theorem C46_listed_never_removed_refuted : forall b uid g b' r, RemoveGlyphSetListGlyph b uid g = (b', r) ->
  (r = true <-> exists s, m_get Z.eqb (b_glyphSets b) uid = Some s /\ In g (bs_list s)) /\
  (forall k, m_get Z.eqb (b_glyphSets b') k = m_get Z.eqb (b_glyphSets b) k) /\
  b' = with_glyphSets b (b_glyphSets b') (b_setsOrder b).
Proof. exact remove_listed. Qed.
Print Assumptions C46_listed_never_removed_refuted.
Theorem C46_rune_range_never_removed_refuted : forall b uid first last b' r, RemoveRuneSetRange b uid first last = (b', r) ->
  (r = true <-> exists s, m_get Z.eqb (rune_sets b) uid = Some s /\ In (first, last) (bs_ranges s)) /\
  (forall k, m_get Z.eqb (rune_sets b') k = m_get Z.eqb (rune_sets b) k) /\
  b' = with_runeSets b (b_runeSets b').
Proof. exact remove_rune_range. Qed.
Print Assumptions C46_rune_range_never_removed_refuted.
Theorem C46_rune_listed_never_removed_refuted : forall b uid g b' r, RemoveRuneSetListRune b uid g = (b', r) ->
  (r = true <-> exists s, m_get Z.eqb (rune_sets b) uid = Some s /\ In g (bs_list s)) /\
  (forall k, m_get Z.eqb (rune_sets b') k = m_get Z.eqb (rune_sets b) k) /\
  b' = with_runeSets b (b_runeSets b').
Proof. exact remove_rune_listed. Qed.
Print Assumptions C46_rune_listed_never_removed_refuted.
(** Once a set has been removed, the builder never builds a font again, whatever is called. *)
Theorem C46_removed_never_builds_refuted : forall id date ops uid later, let b := history id date ops in
  snd (RemoveGlyphSet b uid) = true ->
  forall o sort b' f, Build o sort (fold_left bstep later (fst (RemoveGlyphSet b uid))) <> (b', Ok f).
Proof. exact removed_never_builds. Qed.
Print Assumptions C46_removed_never_builds_refuted.
Example C46_sample_removal : snd (RemoveGlyphSet sample_builder 2001) = true /\
  snd (RemoveGlyphSetRange sample_builder 2001 1001 1003) = true /\ snd (RemoveGlyphSetListGlyph sample_builder 2001 1005) = true /\
  snd (RemoveGlyphSetListGlyph sample_builder 2001 1001) = false.
Proof. vm_compute. auto. Qed.

(** What holds: adding adds exactly the requested element, and RemoveGlyphSet itself makes
    exactly the given set unknown. Missing: the removals above. *)
Theorem C46_add_range_partial : forall b uid first last b', AddGlyphSetRange b uid first last = (b', Ok tt) ->
  exists s, m_get Z.eqb (b_glyphSets b) uid = Some s /\ ~ In (first, last) (bs_ranges s) /\
    forall k, m_get Z.eqb (b_glyphSets b') k =
      if k =? uid then Some (mkBSet (bs_ranges s ++ [(first, last)]) (bs_list s)) else m_get Z.eqb (b_glyphSets b) k.
Proof. exact add_range. Qed.
Print Assumptions C46_add_range_partial.
Theorem C46_add_listed_partial : forall b uid g b', AddGlyphSetListGlyph b uid g = (b', Ok tt) ->
  exists s, m_get Z.eqb (b_glyphSets b) uid = Some s /\ ~ In g (bs_list s) /\
    forall k, m_get Z.eqb (b_glyphSets b') k =
      if k =? uid then Some (mkBSet (bs_ranges s) (bs_list s ++ [g])) else m_get Z.eqb (b_glyphSets b) k.
Proof. exact add_listed. Qed.
Print Assumptions C46_add_listed_partial.
Theorem C46_remove_set_partial : forall b uid,
  (snd (RemoveGlyphSet b uid) = true <-> In uid (map fst (b_glyphSets b))) /\
  (forall k, m_get Z.eqb (b_glyphSets (fst (RemoveGlyphSet b uid))) k = if k =? uid then None else m_get Z.eqb (b_glyphSets b) k).
Proof. exact remove_set. Qed.
Print Assumptions C46_remove_set_partial.
Example C46_sample_addition : exists b', AddGlyphSetRange sample_builder 2001 1002 1004 = (b', Ok tt) /\
  exists b'', AddGlyphSetListGlyph sample_builder 2001 1001 = (b'', Ok tt).
Proof. eexists. split; [vm_compute; reflexivity|]. eexists. vm_compute. reflexivity. Qed.

(** ** C47 *)

(** Each addition does exactly what was asked for, or fails and changes nothing; when it does
    which is decided by the limits alone. *)
Theorem C47_add_dye : forall b name alphas,
  (~ In name (color_names b) /\ color_count b + zlen alphas <= 255 /\
   AddDye b name alphas = (with_colors b (b_dyes b ++ [(name, alphas)]) (b_palettes b), Ok tt)) \/
  ((In name (color_names b) \/ 255 < color_count b + zlen alphas) /\ exists m, AddDye b name alphas = (b, Err m)).
Proof. exact add_dye. Qed.
Print Assumptions C47_add_dye.
Theorem C47_add_palette : forall b name cs,
  (~ In name (color_names b) /\ color_count b + zlen cs <= 255 /\
   AddPalette b name cs = (with_colors b (b_dyes b) (b_palettes b ++ [(name, cs)]), Ok tt)) \/
  ((In name (color_names b) \/ 255 < color_count b + zlen cs) /\ exists m, AddPalette b name cs = (b, Err m)).
Proof. exact add_palette. Qed.
Print Assumptions C47_add_palette.
Theorem C47_add_setting : forall b name opts,
  (setting_acceptable b name opts /\
   AddSetting b name opts = (with_settings b (b_settings b ++ [(name, opts)]), Ok (zlen (b_settings b)))) \/
  (~ setting_acceptable b name opts /\ exists m, AddSetting b name opts = (b, Err m)).
Proof. exact add_setting. Qed.
Print Assumptions C47_add_setting.
Theorem C47_add_switch : forall b l, zlen (b_settings b) <= 255 ->
  (switch_acceptable b l /\
   AddSwitch b l = (with_switches b (b_switches b ++ [l]), Ok (zlen (b_switches b)))) \/
  (~ switch_acceptable b l /\ exists m, AddSwitch b l = (b, Err m)).
Proof. exact add_switch. Qed.
Print Assumptions C47_add_switch.
(** all four succeed and fail on the sample *)
Example C47_sample_additions :
  (exists b', AddDye sample_builder (str_bytes "other") [1; 2] = (b', Ok tt)) /\
  (exists m, AddDye sample_builder (str_bytes "extra") [1; 2] = (sample_builder, Err m)) /\
  (exists m, AddPalette sample_builder (str_bytes "many") (repeat (1, 2, 3, 4) 253) = (sample_builder, Err m)) /\
  (exists b', AddSetting sample_builder (str_bytes "another") [] = (b', Ok 2)) /\
  (exists m, AddSetting sample_builder (str_bytes "case") [] = (sample_builder, Err m)) /\
  (exists b', AddSwitch sample_builder [1] = (b', Ok 2)) /\
  (exists m, AddSwitch sample_builder [1; 1] = (sample_builder, Err m)) /\
  (exists m, AddSwitch sample_builder [2] = (sample_builder, Err m)).
Proof. splits; eexists; vm_compute; reflexivity. Qed.

(** After any history of calls the names are different, the color indices, settings, options and
    switches are within the limits, and switches refer to existing settings. *)
Theorem C47_limits : forall id date ops, Forall op_typed ops ->
  let b := history id date ops in colors_ok b /\ settings_ok b /\ switches_ok b.
Proof. exact limits_history. Qed.
Print Assumptions C47_limits.
Example C47_sample_limits : color_count sample_builder = 3 /\ zlen (b_settings sample_builder) = 2 /\ zlen (b_switches sample_builder) = 2.
Proof. vm_compute. auto. Qed.

(** Full statement: so is the number of color sections, which the format stores in a byte.
    False: sections without colors are not counted, and with 256 of them Build panics. *)
Theorem C47_sections_refuted : exists ops, Forall op_typed ops /\
  let b := history 1 sample_date ops in ~ color_sections_ok b /\ snd (Build no_order no_sort b) = Panic.
Proof.
  exists (sample_glyphs ++ map (fun i => OAddDye [i / 16; i mod 16] []) (zseq 256)). split; [|split].
  - apply Forall_app. split; [exact (proj1 (proj1 (Forall_app _ _ _) sample_typed))|]. apply Forall_forall. intros op H.
    apply in_map_iff in H. destruct H as (i & <- & H). apply in_zseq in H. cbn. unfold bytes, byte.
    split; [|constructor]. constructor; [lia|]. constructor; [lia|constructor].
  - unfold color_sections_ok. vm_compute. intros H. apply H. reflexivity.
  - vm_compute. reflexivity.
Qed.
Print Assumptions C47_sections_refuted.
(** It is as long as no section without colors is added. *)
Theorem C47_sections_partial : forall id date ops, Forall op_typed ops -> Forall nonempty_section ops ->
  color_sections_ok (history id date ops).
Proof. exact sections_history. Qed.
Print Assumptions C47_sections_partial.
Example C47_sample_nonempty : Forall nonempty_section sample_ops.
Proof. repeat (apply Forall_cons; [cbn; first [exact I | discriminate]|]). apply Forall_nil. Qed.
