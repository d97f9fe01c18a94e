(** What survives building: C67 to C71. [b] is the builder after any history of calls; the font
    built from it is read with the accessors of font.go. *)
From Coq Require Import Permutation.
From Verif Require Import Base BaseFacts Spec_Helpers Spec_Format Spec_Layout Proofs_Format Proofs_Font4 Model_Helpers Model_Names Model_Date Model_Mask Spec_Mask Model_Words Model_Font Model_Rewrites
  Model_Builder Spec_Builder Spec_Props Spec_Kept Proofs_Rewrites Proofs_Builder Sample_Builder Proofs_Typed Proofs_Kept Proofs_Sections.

(** [f] is the font built from the builder [b], the result of calls of the API *)
Definition built_from (id : Z) (date : Date) (ops : list bop) (b : builder) (f : Font) : Prop :=
  uint64 id /\ date_typed date /\ Forall op_typed ops /\ b = history id date ops /\
  exists o sort b', perm_order o /\ (forall l, Permutation l (sort l)) /\ Build o sort b = (b', Ok f).
Ltac from_builder := intros; match goal with H : built_from _ _ _ ?b ?f |- _ => destruct H as (HI & HD & HT & -> & o & sort & b' & HO & HS & HB) end.

Lemma built_check id date ops f : uint64 id -> date_typed date -> Forall op_typed ops ->
  snd (Build no_order no_sort (history id date ops)) = Ok f -> built_from id date ops (history id date ops) f.
Proof.
  intros H1 H2 H3 H4. split; [exact H1|]. split; [exact H2|]. split; [exact H3|]. split; [reflexivity|].
  destruct (Build no_order no_sort (history id date ops)) as [b' r] eqn:E. cbn [snd] in H4. subst r.
  exists no_order, no_sort, b'. split; [intros n A l; reflexivity|]. split; [intros l; reflexivity|exact E].
Qed.
Ltac built := apply built_check; [vm_compute; split; congruence|repeat split; vm_compute; congruence|apply all_typed; vm_compute; reflexivity|vm_compute; reflexivity].
(** the font built from calls *)
Definition font_from (ops : list bop) : outcome Font := snd (Build no_order no_sort (history 7777 sample_date ops)).

(** ** C67 *)

(** Full statement: every glyph is found under its index with its placement and its pixels, and
    under its name with its index. False for names, which the search of C25 misses. *)
Theorem C67_name_refuted : exists id date ops b f i uid gd, built_from id date ops b f /\
  zget (b_order b) i = Ok uid /\ glyph_at b uid = Some gd /\ gd_Name gd <> [] /\ glyphs_FindIndexByName f (gd_Name gd) <> Ok i.
Proof.
  exists 7777, sample_date, (sample_glyphs ++ [OSetGlyphName 1003 (str_bytes "bb")]). eexists.
  let B := eval vm_compute in (font_from (sample_glyphs ++ [OSetGlyphName 1003 (str_bytes "bb")])) in match B with Ok ?f => exists f end.
  exists 2, 1003. eexists. split; [built|]. split; [vm_compute; reflexivity|]. split; [vm_compute; reflexivity|]. split; [vm_compute; discriminate|vm_compute; discriminate].
Qed.
Print Assumptions C67_name_refuted.

(** A glyph found by name has that name. *)
Theorem C67_name_partial : forall id date ops b f name, built_from id date ops b f ->
  exists r, glyphs_FindIndexByName f name = Ok r /\
    (r = GlyphMissing \/ exists uid gd, zget (b_order b) r = Ok uid /\ glyph_at b uid = Some gd /\ gd_Name gd = name).
Proof. from_builder. eapply kept_name; eassumption. Qed.
Print Assumptions C67_name_partial.

(** Advances, placements and pixels. What is missing: fonts with 16 MiB of glyph data. *)
Theorem C67_glyph_partial : forall id date ops b f i uid, built_from id date ops b f -> masks_fit b f ->
  zget (b_order b) i = Ok uid ->
  exists gd, glyph_at b uid = Some gd /\
    glyphs_Advance f i = Ok (gp_Advance (gd_Placement gd)) /\
    glyphs_Placement f i = Ok (kept_placement b (gd_Placement gd)) /\
    exists r, glyphs_RasterizeMask f i = Ok r /\ same_pixels r (gd_Mask gd).
Proof. from_builder. eapply kept_glyph; eassumption. Qed.
Print Assumptions C67_glyph_partial.

(** There are as many glyphs as the builder has; the next index panics. *)
Theorem C67_count_partial : forall id date ops b f i, built_from id date ops b f ->
  glyphs_Count f = Ok (zlen (b_order b)) /\
  (masks_fit b f -> zlen (b_order b) <= i -> glyphs_Advance f i = Panic /\ glyphs_Placement f i = Panic).
Proof. from_builder. split; [eapply kept_metrics; eassumption|intros; eapply kept_beyond; eassumption]. Qed.
Print Assumptions C67_count_partial.

Example C67_example : exists f, built_from 7777 sample_date sample_ops sample_builder f /\ masks_fit sample_builder f /\
  zget (b_order sample_builder) 4 = Ok 1005 /\ glyphs_Count f = Ok 5 /\ glyphs_Advance f 4 = Ok 2 /\ glyphs_Advance f 5 = Panic /\
  glyphs_FindIndexByName f (str_bytes "comma") = Ok 1 /\
  match glyph_at sample_builder 1005, glyphs_RasterizeMask f 4 with
  | Some gd, Ok (Some m) => pixel (gd_Mask gd) 1 (-1) = 128 /\ pixel m 1 (-1) = 128 /\ pixel m 2 (-1) = 0 | _, _ => False end.
Proof.
  let B := eval vm_compute in (font_from sample_ops) in match B with Ok ?f => exists f end.
  split; [unfold sample_builder; built|]. vm_compute. repeat split; auto; discriminate.
Qed.

(** ** C68 *)

(** Full statement: the header and the metrics read from the font are those of the builder. False
    for the strings after a long name (C22). *)
Theorem C68_family_refuted : exists id date ops b f, built_from id date ops b f /\ header_Family (Data f) <> Ok (text_of TFamily b).
Proof.
  set (ops := sample_glyphs ++ [OSetName (repeat 97 255); OSetFamily (str_bytes "family")]).
  exists 7777, sample_date, ops. eexists. let B := eval vm_compute in (font_from ops) in match B with Ok ?f => exists f end.
  split; [built|]. vm_compute. discriminate.
Qed.
Print Assumptions C68_family_refuted.

Theorem C68_numbers : forall id date ops b f, built_from id date ops b f ->
  header_FormatVersion (Data f) = Ok 2 /\ header_ID (Data f) = Ok id /\
  header_VersionMajor (Data f) = Ok (fst (version_of b)) /\ header_VersionMinor (Data f) = Ok (snd (version_of b)) /\
  header_FirstVersionDate (Data f) = Ok (date_of First b) /\ header_MajorVersionDate (Data f) = Ok (date_of Major b) /\
  header_MinorVersionDate (Data f) = Ok (date_of Minor b).
Proof. from_builder. pose proof (kept_header id date ops o sort b' f HD HT HO HS HB HI) as K. tauto. Qed.
Print Assumptions C68_numbers.

(** The name always; the others as long as the strings before them are short. What is missing:
    longer strings. *)
Theorem C68_strings_partial : forall id date ops b f, built_from id date ops b f ->
  header_Name (Data f) = Ok (text_of TName b) /\
  (30 + zlen (text_of TName b) <= 255 -> header_Family (Data f) = Ok (text_of TFamily b)) /\
  (31 + zlen (text_of TName b) + zlen (text_of TFamily b) <= 255 -> header_Author (Data f) = Ok (text_of TAuthor b)) /\
  (33 + zlen (text_of TName b) + zlen (text_of TFamily b) + zlen (text_of TAuthor b) <= 255 -> header_About (Data f) = Ok (text_of TAbout b)).
Proof. from_builder. pose proof (kept_header id date ops o sort b' f HD HT HO HS HB HI) as K. tauto. Qed.
Print Assumptions C68_strings_partial.

Theorem C68_metrics : forall id date ops b f, built_from id date ops b f ->
  metrics_HasVertLayout (Data f) (OffsetToMetrics f) = Ok (vertical b) /\
  forall k, match k with
    | MonoWidth => metrics_MonoWidth | Ascent => metrics_Ascent | ExtraAscent => metrics_ExtraAscent | Descent => metrics_Descent
    | ExtraDescent => metrics_ExtraDescent | MidlineAscent => metrics_MidlineAscent | UppercaseAscent => metrics_UppercaseAscent
    | HorzInterspacing => metrics_HorzInterspacing | VertInterspacing => metrics_VertInterspacing | LineGap => metrics_LineGap
    | VertLineWidth => metrics_VertLineWidth | VertLineGap => metrics_VertLineGap
    end (Data f) (OffsetToMetrics f) = Ok (metric_of k b).
Proof. from_builder. pose proof (kept_metrics id date ops o sort b' f HD HT HO HS HB) as K. tauto. Qed.
Print Assumptions C68_metrics.

Definition header_ops : list bop := sample_glyphs ++
  [OSetName (str_bytes "tinny"); OSetFamily (str_bytes "tins"); OSetAuthor (str_bytes "someone"); OSetAbout (str_bytes "for tests");
   OSetVersion 3 4 (mkDate 2025 1 2); OSetVertLayoutUsed true; OSetMetric VertLineWidth 9; OSetMetric LineGap 2; OSetMetric UppercaseAscent 7].
Example C68_example : let b := history 7777 sample_date header_ops in exists f, built_from 7777 sample_date header_ops b f /\
  version_of b = (3, 4) /\ header_VersionMinor (Data f) = Ok 4 /\ header_MinorVersionDate (Data f) = Ok (mkDate 2025 1 2) /\
  33 + zlen (text_of TName b) + zlen (text_of TFamily b) + zlen (text_of TAuthor b) <= 255 /\ header_About (Data f) = Ok (str_bytes "for tests") /\
  metrics_HasVertLayout (Data f) (OffsetToMetrics f) = Ok true /\ metrics_VertLineWidth (Data f) (OffsetToMetrics f) = Ok 9 /\
  metrics_UppercaseAscent (Data f) (OffsetToMetrics f) = Ok 7.
Proof.
  intros b. let B := eval vm_compute in (font_from header_ops) in match B with Ok ?f => exists f end.
  split; [unfold b; built|]. vm_compute. repeat split; discriminate.
Qed.

(** ** C69 *)

(** Full statement: the dyes and palettes read from the font are those of the builder. False for
    a dye without colors, which panics ... *)
Theorem C69_empty_refuted : exists id date ops b f key d, built_from id date ops b f /\
  zget (kept_dyes b) key = Ok d /\ color_EachDyeAlpha f key <> Ok (snd d).
Proof.
  set (ops := sample_glyphs ++ [OAddDye (str_bytes "empty") []; OAddDye (str_bytes "main") [7]]).
  exists 7777, sample_date, ops. eexists. let B := eval vm_compute in (font_from ops) in match B with Ok ?f => exists f end.
  exists 0. eexists. split; [built|]. split; [vm_compute; reflexivity|]. vm_compute. discriminate.
Qed.
Print Assumptions C69_empty_refuted.
(** ... and with a dye without a name. *)
Theorem C69_nameless_refuted : exists id date ops b f, built_from id date ops b f /\
  color_EachDye f <> Ok (numbered 0 (map fst (kept_dyes b))).
Proof.
  set (ops := sample_glyphs ++ [OAddDye (str_bytes "main") [7]; OAddDye [] [7; 8]]).
  exists 7777, sample_date, ops. eexists. let B := eval vm_compute in (font_from ops) in match B with Ok ?f => exists f end.
  split; [built|]. vm_compute. discriminate.
Qed.
Print Assumptions C69_nameless_refuted.

(** Names, colors and color indices, if every section has a name and a color. What is missing:
    sections without. *)
Theorem C69_partial : forall id date ops b f, built_from id date ops b f -> whole_sections b ->
  color_EachDye f = Ok (numbered 0 (map fst (kept_dyes b))) /\ color_EachPalette f = Ok (numbered 0 (map fst (b_palettes b))) /\
  (forall key, 0 <= key -> color_EachDyeAlpha f key = (do d <- zget (kept_dyes b) key; Ok (snd d)) /\
     color_EachPaletteColor f key = (do p <- zget (b_palettes b) key; Ok (snd p))) /\
  color_Count f = Ok (zlen (concat (map snd (kept_dyes b))) + zlen (concat (map snd (b_palettes b)))) /\
  color_GoColorPalette f = Ok ((0, 0, 0, 0) :: map (fun a => (a, a, a, a)) (concat (map snd (kept_dyes b))) ++ concat (map snd (b_palettes b))).
Proof. from_builder. eapply kept_colors; eassumption. Qed.
Print Assumptions C69_partial.

(** Exactly, for every history: a section without colors panics and the others do not; one section
    without a name makes the enumeration of the names panic. *)
Theorem C69_exact_partial : forall id date ops b f, built_from id date ops b f ->
  (forall key, 0 <= key ->
     color_EachDyeAlpha f key = (do d <- zget (kept_dyes b) key; match snd d with [] => Panic | l => Ok l end) /\
     color_NumDyeAlphas f key = (do d <- zget (kept_dyes b) key; match snd d with [] => Panic | l => Ok (zlen l) end) /\
     color_EachPaletteColor f key = (do p <- zget (b_palettes b) key; match snd p with [] => Panic | l => Ok l end) /\
     color_NumPaletteColors f key = (do p <- zget (b_palettes b) key; match snd p with [] => Panic | l => Ok (zlen l) end)) /\
  (zlen (concat (map fst (b_dyes b))) < 65536 -> (~ In [] (map fst (kept_dyes b)) /\ color_EachDye f = Ok (numbered 0 (map fst (kept_dyes b)))) \/
     (In [] (map fst (kept_dyes b)) /\ color_EachDye f = Panic)) /\
  (zlen (concat (map fst (b_palettes b))) < 65536 -> (~ In [] (map fst (b_palettes b)) /\ color_EachPalette f = Ok (numbered 0 (map fst (b_palettes b)))) \/
     (In [] (map fst (b_palettes b)) /\ color_EachPalette f = Panic)) /\
  (color_NumDyes f = Ok (zlen (kept_dyes b)) /\ color_NumPalettes f = Ok (zlen (b_palettes b)) /\
   color_NumDyeIndices f = Ok (zlen (concat (map snd (kept_dyes b)))) /\ color_NumPaletteIndices f = Ok (zlen (concat (map snd (b_palettes b)))) /\
   color_Count f = Ok (zlen (concat (map snd (kept_dyes b))) + zlen (concat (map snd (b_palettes b))))) /\
  ((~ In [] (map snd (kept_dyes b)) /\ ~ In [] (map snd (b_palettes b)) /\
    color_GoColorPalette f = Ok ((0, 0, 0, 0) :: map (fun a => (a, a, a, a)) (concat (map snd (kept_dyes b))) ++ concat (map snd (b_palettes b)))) \/
   ((In [] (map snd (kept_dyes b)) \/ In [] (map snd (b_palettes b))) /\ color_GoColorPalette f = Panic)).
Proof. from_builder. eapply kept_exact_colors; eassumption. Qed.
Print Assumptions C69_exact_partial.
(** Three dyes, one without colors and one without a name *)
Example C69_exact_example : exists f, let ops := sample_glyphs ++ [OAddDye (str_bytes "empty") []; OAddDye (str_bytes "main") [7; 9]; OAddDye [] [8]] in
  built_from 7777 sample_date ops (history 7777 sample_date ops) f /\
  color_EachDyeAlpha f 0 = Panic /\ color_EachDyeAlpha f 1 = Ok [7; 9] /\ color_EachDyeAlpha f 2 = Ok [8] /\ color_EachDye f = Panic /\ color_Count f = Ok 3.
Proof.
  let B := eval vm_compute in (font_from (sample_glyphs ++ [OAddDye (str_bytes "empty") []; OAddDye (str_bytes "main") [7; 9]; OAddDye [] [8]])) in match B with Ok ?f => exists f end.
  cbv zeta. split; [built|]. vm_compute. repeat split.
Qed.

Example C69_example : exists f g, built_from 7777 sample_date sample_ops sample_builder f /\ whole_sections sample_builder /\
  color_EachDyeAlpha f 0 = Ok [255; 128] /\ color_EachPaletteColor f 0 = Ok [(1, 2, 3, 255)] /\ color_Count f = Ok 3 /\
  (* no color given *)
  built_from 7777 sample_date sample_glyphs (history 7777 sample_date sample_glyphs) g /\ color_EachDye g = Ok [(0, str_bytes "main")].
Proof.
  let B := eval vm_compute in (font_from sample_ops) in match B with Ok ?f => exists f end.
  let B := eval vm_compute in (font_from sample_glyphs) in match B with Ok ?f => exists f end.
  split; [unfold sample_builder; built|].
  split. { assert (E : b_dyes sample_builder = [(str_bytes "main", [255; 128])] /\ b_palettes sample_builder = [(str_bytes "extra", [(1, 2, 3, 255)])]) by (vm_compute; split; reflexivity).
    destruct E as [E1 E2]. unfold whole_sections. rewrite E1, E2. split; [|split]; [repeat constructor; discriminate..|]. split; reflexivity. }
  split; [vm_compute; reflexivity|]. split; [vm_compute; reflexivity|]. split; [vm_compute; reflexivity|]. split; [built|vm_compute; reflexivity].
Qed.

(** ** C70 *)

(** Full statement: settings and switches read from the font are those of the builder. False for
    a setting without options, which panics ... *)
Theorem C70_no_options_refuted : exists id date ops b f key s, built_from id date ops b f /\
  zget (b_settings b) key = Ok s /\ settings_GetNumOptions f key <> Ok (zlen (snd s)).
Proof.
  set (ops := sample_glyphs ++ [OAddSetting (str_bytes "empty") []]).
  exists 7777, sample_date, ops. eexists. let B := eval vm_compute in (font_from ops) in match B with Ok ?f => exists f end.
  exists 0. eexists. split; [built|]. split; [vm_compute; reflexivity|]. vm_compute. discriminate.
Qed.
Print Assumptions C70_no_options_refuted.
(** ... and for switches with more than 256 combinations, two of which are the same case. *)
Definition many_options : list (list Z) := map (fun i => [97 + i]) (zseq 17).
Theorem C70_combinations_refuted : exists id date ops b f key ks os vs ws, built_from id date ops b f /\
  zget (b_switches b) key = Ok ks /\ radices b ks os /\ combination vs os /\ combination ws os /\ vs <> ws /\
  mapping_EvaluateSwitch f key vs = mapping_EvaluateSwitch f key ws /\ is_ok (mapping_EvaluateSwitch f key vs) = true.
Proof.
  set (ops := sample_glyphs ++ [OAddSetting (str_bytes "one") many_options; OAddSetting (str_bytes "two") many_options; OAddSwitch [0; 1]]).
  exists 7777, sample_date, ops. eexists. let B := eval vm_compute in (font_from ops) in match B with Ok ?f => exists f end.
  exists 0, [0; 1], [17; 17], [0; 0], [15; 1]. split; [built|]. split; [vm_compute; reflexivity|].
  split; [repeat (apply Forall2_cons; [eexists; split; vm_compute; reflexivity|]); apply Forall2_nil|].
  split; [repeat constructor; lia|]. split; [repeat constructor; lia|]. split; [discriminate|]. split; vm_compute; reflexivity.
Qed.
Print Assumptions C70_combinations_refuted.

(** Names and numbers of options. What is missing: settings without options. *)
Theorem C70_settings_partial : forall id date ops b f key, built_from id date ops b f -> 0 <= key ->
  settings_Count f = Ok (zlen (b_settings b)) /\ settings_Each f = Ok (numbered 0 (map fst (b_settings b))) /\
  settings_GetNumOptions f key = match zget (b_settings b) key with Ok s => if zlen (snd s) =? 0 then Panic else Ok (zlen (snd s)) | _ => Ok 0 end.
Proof. from_builder. eapply kept_settings; eassumption. Qed.
Print Assumptions C70_settings_partial.
(** The case of a switch under given settings. What is missing: switches with more combinations. *)
Theorem C70_switch_partial : forall id date ops b f settings key ks vs os, built_from id date ops b f ->
  zget (b_switches b) key = Ok ks -> radices b ks os -> Forall2 (fun k v => zget settings k = Ok v) ks vs -> combination vs os ->
  mapping_EvaluateSwitch f key settings = Ok (position vs os mod 256) /\
  (product os <= 256 -> mapping_EvaluateSwitch f key settings = Ok (position vs os)).
Proof.
  intros id date ops b f settings key ks vs os H HK HR HV HC. destruct H as (HI & HD & HT & -> & o & sort & b' & HO & HS & HB).
  assert (P : Forall (fun n => 0 < n) os) by (clear - HC; induction HC; constructor; [lia|assumption]).
  rewrite (kept_switch id date ops o sort b' f HD HT HO HS HB settings key ks vs os HK HR P HV). split; [reflexivity|].
  intros L. pose proof (position_range _ _ HC). rewrite Z.mod_small by lia. reflexivity.
Qed.
Print Assumptions C70_switch_partial.

Example C70_example : exists f, built_from 7777 sample_date sample_ops sample_builder f /\
  settings_Each f = Ok [(0, str_bytes "case"); (1, str_bytes "zero")] /\ settings_GetNumOptions f 1 = Ok 2 /\
  zget (b_switches sample_builder) 1 = Ok [1; 0] /\ radices sample_builder [1; 0] [2; 2] /\
  Forall2 (fun k v => zget [1; 0] k = Ok v) [1; 0] [0; 1] /\ combination [0; 1] [2; 2] /\ mapping_EvaluateSwitch f 1 [1; 0] = Ok 1.
Proof.
  let B := eval vm_compute in (font_from sample_ops) in match B with Ok ?f => exists f end.
  split; [unfold sample_builder; built|]. split; [vm_compute; reflexivity|]. split; [vm_compute; reflexivity|]. split; [vm_compute; reflexivity|].
  split; [repeat (apply Forall2_cons; [eexists; split; vm_compute; reflexivity|]); apply Forall2_nil|].
  split; [repeat constructor|]. split; [repeat constructor; lia|vm_compute; reflexivity].
Qed.

(** ** C71 *)

(** The sets of the font are the sets of the builder in the order in which they were created;
    iterating over a set gives the indices of its glyphs, in order, and other indices panic. *)
Theorem C71_sets : forall id date ops b f i, built_from id date ops b f -> 0 <= i ->
  rewrites_NumGlyphSets f = Ok (zlen (b_setsOrder b)) /\
  match zget (b_setsOrder b) i with
  | Ok uid => exists d s rs xs, rewrites_GetGlyphSet f i = Ok d /\ In (uid, s) (b_glyphSets b) /\ kept_ranges b s rs /\ kept_singles b s xs /\
      (forall T E (each : T -> Z * Z -> T * option E) t, glyph_set_EachRange each d t = Ok (each_of each t rs)) /\
      (forall T E (each : T -> Z -> T * option E) t, glyph_set_EachListGlyph each d t = Ok (each_of each t xs))
  | _ => rewrites_GetGlyphSet f i = Panic
  end.
Proof. from_builder. eapply kept_sets; eassumption. Qed.
Print Assumptions C71_sets.

Example C71_example : exists f, built_from 7777 sample_date sample_ops sample_builder f /\
  b_setsOrder sample_builder = [2001] /\ rewrites_NumGlyphSets f = Ok 1 /\ rewrites_GetGlyphSet f 1 = Panic /\
  match rewrites_GetGlyphSet f 0 with
  | Ok d => glyph_set_EachRange (fun s r => (s ++ [r], @None unit)) d [] = Ok ([(0, 2)], None) /\
            glyph_set_EachListGlyph (fun s x => (s ++ [x], @None unit)) d [] = Ok ([4], None)
  | _ => False end.
Proof.
  let B := eval vm_compute in (font_from sample_ops) in match B with Ok ?f => exists f end.
  split; [unfold sample_builder; built|]. vm_compute. auto.
Qed.
