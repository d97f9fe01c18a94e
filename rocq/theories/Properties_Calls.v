(** Theorems C74 and C75 (what calls that add mappings, kernings, sets and rules take and do). [Panic]
    and [Err] are told apart; "refused" means that the builder is left exactly as it was. *)
From Verif Require Import Base BaseFacts Spec_Helpers Model_Helpers Model_Date Model_Font Model_Builder Spec_Builder Spec_Rules Spec_Calls
  Sample_Builder Proofs_Builder Proofs_Build7 Proofs_Typed Proofs_Calls.

(** ** C74 *)

(** Full statement: a mapping is taken exactly if the code point is not a control code, the glyphs
    exist, and there are as many groups as the switch has cases; then only this code point's mapping
    changes; otherwise there is an error and nothing changes. True of Map and MapGroup: *)
Theorem C74_map_partial : forall b cp uid b' r, Map b cp uid = (b', r) ->
  (r = Ok tt <-> 32 <= cp /\ glyph_known b uid) /\
  (r = Ok tt -> maps b cp (mkMapEntry 255 [mkMapGroup [uid] 0]) b') /\ (r <> Ok tt -> b' = b /\ exists m, r = Err m).
Proof. exact map_spec. Qed.
Print Assumptions C74_map_partial.
Theorem C74_group_partial : forall b cp flags uids b' r, MapGroup b cp flags uids = (b', r) ->
  (r = Ok tt <-> 32 <= cp /\ 2 <= zlen uids <= 127 /\ Forall (glyph_known b) uids) /\
  (r = Ok tt -> maps b cp (mkMapEntry 254 [mkMapGroup uids flags]) b') /\ (r <> Ok tt -> b' = b /\ exists m, r = Err m).
Proof. exact map_group_spec. Qed.
Print Assumptions C74_group_partial.

(** After every history of calls, exactly what MapWithSwitchSingles and MapWithSwitch take, what
    they panic at and what they do. Missing: the glyphs are not checked, there are panics, and groups of
    one glyph are never taken. *)
Theorem C74_singles_partial : forall id date ops cp k uids b' r, Forall op_typed ops -> byte k ->
  let b := history id date ops in MapWithSwitchSingles b cp k uids = (b', r) ->
  (r = Ok tt <-> 32 <= cp /\ switch_cases b k (zlen uids)) /\ (r = Panic <-> 32 <= cp /\ switch_unusable b k) /\ r <> Hang /\
  (r = Ok tt -> maps b cp (mkMapEntry k (map (fun u => mkMapGroup [u] 0) uids)) b') /\ (r <> Ok tt -> b' = b).
Proof. intros id date ops cp k uids b' r T K b. apply singles_spec; [apply (limits_history id date ops T)|exact K]. Qed.
Print Assumptions C74_singles_partial.
Theorem C74_switch_partial : forall id date ops cp k groups flags b' r, Forall op_typed ops -> byte k ->
  let b := history id date ops in MapWithSwitch b cp k groups flags = (b', r) ->
  (r = Ok tt <-> 32 <= cp /\ switch_cases b k (zlen groups) /\ Forall (fun g => 2 <= zlen g) groups /\ zlen flags = zlen groups) /\
  (r = Panic <-> 32 <= cp /\ (switch_unusable b k \/ switch_cases b k (zlen groups) /\
     (first_empty groups flags \/
      Forall (fun g => g <> []) groups /\ zlen flags = multiple groups /\ Exists (fun g => zlen g = 1) groups))) /\ r <> Hang /\
  (r = Ok tt -> maps b cp (mkMapEntry k (map (fun x => mkMapGroup (fst x) (snd x)) (combine groups flags))) b') /\ (r <> Ok tt -> b' = b).
Proof. intros id date ops cp k groups flags b' r T K b. apply switch_spec; [apply (limits_history id date ops T)|exact K]. Qed.
Print Assumptions C74_switch_partial.

(** one call of each kind that is taken, and one that is refused for each reason *)
Example C74_ex : let b := sample_builder in
  switch_cases b 1 4 /\ switch_unusable b 254 /\
  snd (Map b 120 1001) = Ok tt /\ is_ok (snd (Map b 31 1001)) = false /\ is_ok (snd (Map b 120 5)) = false /\
  snd (MapGroup b 120 3 [1001; 1002]) = Ok tt /\ is_ok (snd (MapGroup b 120 3 [1001])) = false /\ is_ok (snd (MapGroup b 120 3 [1001; 5])) = false /\
  snd (MapWithSwitchSingles b 120 1 [1001; 1002; 1003; 1001]) = Ok tt /\ is_ok (snd (MapWithSwitchSingles b 120 1 [1001; 1002; 1003])) = false /\
  snd (MapWithSwitchSingles b 120 255 []) = Panic /\ is_ok (snd (MapWithSwitchSingles b 120 2 [])) = false /\
  snd (MapWithSwitch b 120 0 [[1001; 1002]; [1002; 1003]] [1; 2]) = Ok tt /\ is_ok (snd (MapWithSwitch b 120 0 [[1001; 1002]; [1002; 1003]] [1])) = false /\
  snd (MapWithSwitch b 120 0 [[1001; 1002]; []] [1]) = Panic.
Proof.
  cbv zeta. split; [|split; [left; lia|vm_compute; repeat split]].
  split; [lia|]. exists [1; 0]. split; [reflexivity|]. split; [|vm_compute; reflexivity]. constructor; [vm_compute; discriminate|constructor; [vm_compute; discriminate|constructor]].
Qed.

(** Glyphs that do not exist are taken, and then Build panics. *)
Theorem C74_unknown_refuted : exists ops cp k uid, Forall op_typed ops /\
  let b := history 7777 sample_date ops in
  ~ glyph_known b uid /\ exists b', MapWithSwitchSingles b cp k [uid; uid] = (b', Ok tt) /\
  is_ok (snd (Build no_order no_sort b)) = true /\ snd (Build no_order no_sort b') = Panic.
Proof.
  exists (sample_glyphs ++ sample_settings), 120, 0, 5. split; [|split; [|eexists; split; [vm_compute; reflexivity|]]].
  - apply all_typed. vm_compute. reflexivity.
  - unfold glyph_known. vm_compute. intros H. repeat (destruct H as [H|H]; [discriminate|]). exact H.
  - split; vm_compute; reflexivity.
Qed.
Print Assumptions C74_unknown_refuted.
(** Groups of one glyph, which take no flags, are foreseen by the code, but no flags make the call
    succeed: with the right number of flags it panics. *)
Theorem C74_one_glyph_refuted : exists ops k groups, Forall op_typed ops /\
  let b := history 7777 sample_date ops in
  switch_cases b k (zlen groups) /\ Forall (fun g => g <> [] /\ Forall (glyph_known b) g) groups /\
  MapWithSwitch b 120 k groups [1] = (b, Panic) /\ forall flags, snd (MapWithSwitch b 120 k groups flags) <> Ok tt.
Proof.
  exists (sample_glyphs ++ sample_settings), 0, [[1001]; [1002; 1003]].
  assert (T : Forall op_typed (sample_glyphs ++ sample_settings)) by (apply all_typed; vm_compute; reflexivity).
  split; [exact T|]. cbv zeta. split; [|split; [|split; [vm_compute; reflexivity|]]].
  - split; [lia|]. exists [0]. split; [reflexivity|]. split; [|vm_compute; reflexivity]. constructor; [vm_compute; discriminate|constructor].
  - assert (K : map fst (b_glyphs (history 7777 sample_date (sample_glyphs ++ sample_settings))) = [1001; 1002; 1003; 1004; 1005]) by (vm_compute; reflexivity).
    unfold glyph_known. rewrite K.
    apply Forall_cons; [split; [discriminate|]|apply Forall_cons; [split; [discriminate|]|apply Forall_nil]]; rewrite Forall_forall; cbn; tauto.
  - intros flags. destruct (MapWithSwitch _ _ _ _ _) as [b' r] eqn:E.
    assert (B : byte 0) by (unfold byte; lia).
    destruct (C74_switch_partial 7777 sample_date _ _ _ _ _ _ _ T B E) as (H & _).
    cbn [snd]. intros X. apply H in X. destruct X as (_ & _ & F & _). inversion_clear F as [|? ? G _]. vm_compute in G. apply G. reflexivity.
Qed.
Print Assumptions C74_one_glyph_refuted.

(** ** C75 *)

(** Full statement: kernings, sets and rules are taken exactly if what they refer to exists and the
    numbers fit the format; then only this kerning, set or rule changes; otherwise there is an error
    and nothing changes. Glyph sets and rules: exactly what is taken and done. Kernings are always taken. *)
Theorem C75_kerning_partial : forall b prev next k,
  kerning_at (SetKerningPair b prev next k) (prev, next) = (if k =? 0 then None else Some (mkKPair 0 k)) /\
  (forall p, p <> (prev, next) -> kerning_at (SetKerningPair b prev next k) p = kerning_at b p) /\
  SetKerningPair b prev next k = with_kerning b (b_horz (SetKerningPair b prev next k)) (b_vert b).
Proof. exact kerning_spec. Qed.
Print Assumptions C75_kerning_partial.
Theorem C75_create_set_partial : forall b random b' r, CreateGlyphSet b random = (b', r) ->
  (forall uid, r = Ok uid <-> zlen (b_glyphSets b) < 255 /\ (exists rest, random = uid :: rest) /\ ~ set_known b uid) /\
  (forall uid, r = Ok uid -> sets b uid (mkBSet [] []) b' /\ b_setsOrder b' = b_setsOrder b ++ [uid]) /\
  ((forall uid, r <> Ok uid) -> b' = b /\ exists m, r = Err m).
Proof. exact create_set_spec. Qed.
Print Assumptions C75_create_set_partial.
Theorem C75_range_partial : forall b uid first last b' r, AddGlyphSetRange b uid first last = (b', r) ->
  (r = Ok tt <-> glyph_known b first /\ glyph_known b last /\
    exists s, set_at b uid = Some s /\ zlen (bs_ranges s) < 255 /\ ~ In (first, last) (bs_ranges s)) /\
  (r = Ok tt -> forall s, set_at b uid = Some s ->
    sets b uid (mkBSet (bs_ranges s ++ [(first, last)]) (bs_list s)) b' /\ b_setsOrder b' = b_setsOrder b) /\
  (r <> Ok tt -> b' = b /\ exists m, r = Err m).
Proof. exact add_range_spec. Qed.
Print Assumptions C75_range_partial.
Theorem C75_listed_partial : forall b uid g b' r, AddGlyphSetListGlyph b uid g = (b', r) ->
  (r = Ok tt <-> glyph_known b g /\ exists s, set_at b uid = Some s /\ zlen (bs_list s) < 255 /\ ~ In g (bs_list s)) /\
  (r = Ok tt -> forall s, set_at b uid = Some s ->
    sets b uid (mkBSet (bs_ranges s) (bs_list s ++ [g])) b' /\ b_setsOrder b' = b_setsOrder b) /\
  (r <> Ok tt -> b' = b /\ exists m, r = Err m).
Proof. exact add_listed_spec. Qed.
Print Assumptions C75_listed_partial.
Theorem C75_utf8_rule_partial : forall b out sequence b' r, AddSimpleUtf8RewriteRule b out sequence = (b', r) ->
  (r = Ok tt <-> 1 <= zlen sequence <= 255) /\
  (r = Ok tt -> exists rl, b' = with_rules b (b_glyphRules b) (b_utf8Rules b ++ [rl]) /\
     br_condition rl = 255 /\ br_headLen rl = 0 /\ br_bodyLen rl = zlen sequence /\ br_tailLen rl = 0 /\ br_output rl = [out] /\
     rule_input rl (map (pair false) sequence)) /\
  (r <> Ok tt -> b' = b /\ exists m, r = Err m).
Proof. exact utf8_rule_spec. Qed.
Print Assumptions C75_utf8_rule_partial.
Theorem C75_glyph_rule_partial : forall b head body tail input out b' r, byte head -> byte body -> byte tail ->
  AddGlyphRewriteRule b head body tail input out = (b', r) ->
  (r = Ok tt <-> rule_acceptable b head body tail input out) /\
  (r = Ok tt -> exists rl, is_rule b head body tail input out rl /\ b' = with_rules b (b_glyphRules b ++ [rl]) (b_utf8Rules b)) /\
  (r <> Ok tt -> b' = b /\ exists m, r = Err m).
Proof. exact glyph_rule_spec. Qed.
Print Assumptions C75_glyph_rule_partial.

(** calls that are taken, and calls that are refused for each reason *)
Example C75_ex : let b := sample_builder in
  kerning_at b (1001, 1003) = Some (mkKPair 0 2) /\ kerning_at (SetKerningPair b 1001 1003 0) (1001, 1003) = None /\
  snd (CreateGlyphSet b [3001]) = Ok 3001 /\ is_ok (snd (CreateGlyphSet b [2001])) = false /\
  snd (AddGlyphSetRange b 2001 1002 1003) = Ok tt /\ is_ok (snd (AddGlyphSetRange b 2001 1001 1003)) = false /\ is_ok (snd (AddGlyphSetRange b 2001 1001 7)) = false /\
  snd (AddGlyphSetListGlyph b 2001 1001) = Ok tt /\ is_ok (snd (AddGlyphSetListGlyph b 2001 1005)) = false /\ is_ok (snd (AddGlyphSetListGlyph b 2002 1005)) = false /\
  snd (AddSimpleUtf8RewriteRule b 8594 [45; 62]) = Ok tt /\ is_ok (snd (AddSimpleUtf8RewriteRule b 8594 [])) = false /\
  snd (AddGlyphRewriteRule b 0 2 1 [1001; 2001; 1003] [1002; 1003]) = Ok tt /\ is_ok (snd (AddGlyphRewriteRule b 0 2 0 [1001; 2001; 1003] [1002])) = false /\
  is_ok (snd (AddGlyphRewriteRule b 0 2 1 [1001; 2001; 1003] [2001])) = false /\ is_ok (snd (AddGlyphRewriteRule b 255 1 3 [1001; 2001; 1003] [1001])) = false.
Proof. vm_compute. repeat split. Qed.

(** Rune sets: none is ever created. Whatever was called before, CreateRuneSet panics or, if the first random
    number is that of a glyph set or there is none, gives an error; so adding to one never succeeds. *)
Theorem C75_rune_sets_refuted : forall id date ops, let b := history id date ops in
  (forall uid rest, ~ set_known b uid -> CreateRuneSet b (uid :: rest) = (b, Panic)) /\
  (forall random uid, snd (CreateRuneSet b random) <> Ok uid) /\
  (forall uid first last, exists m, AddRuneSetRange b uid first last = (b, Err m)) /\
  (forall uid cp, exists m, AddRuneSetListRune b uid cp = (b, Err m)).
Proof. exact rune_sets_dead. Qed.
Print Assumptions C75_rune_sets_refuted.
(** Kernings of glyphs that do not exist are taken, and then Build panics. *)
Theorem C75_kerning_unknown_refuted : exists ops prev next, Forall op_typed ops /\
  let b := history 7777 sample_date ops in
  ~ glyph_known b prev /\ ~ glyph_known b next /\
  is_ok (snd (Build no_order no_sort b)) = true /\ snd (Build no_order no_sort (SetKerningPair b prev next 3)) = Panic.
Proof.
  exists sample_glyphs, 5, 6. split; [|split; [|split]].
  - apply all_typed. vm_compute. reflexivity.
  - unfold glyph_known. vm_compute. intros H. repeat (destruct H as [H|H]; [discriminate|]). exact H.
  - unfold glyph_known. vm_compute. intros H. repeat (destruct H as [H|H]; [discriminate|]). exact H.
  - split; vm_compute; reflexivity.
Qed.
Print Assumptions C75_kerning_unknown_refuted.
(** A rule that has no body, and one that has no elements at all, are taken (the error is created but not returned). *)
Theorem C75_empty_rule_refuted : exists ops, Forall op_typed ops /\
  let b := history 7777 sample_date ops in
  snd (AddGlyphRewriteRule b 0 0 1 [1001] [1002]) = Ok tt /\ snd (AddGlyphRewriteRule b 0 0 0 [] []) = Ok tt.
Proof. exists sample_glyphs. split; [apply all_typed; vm_compute; reflexivity|]. vm_compute. auto. Qed.
Print Assumptions C75_empty_rule_refuted.
