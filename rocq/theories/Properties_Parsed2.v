(** C81, continued: switches and mapped code points of fonts returned by Parse. *)
From Verif Require Import Base BaseFacts Spec_Helpers Spec_Format Spec_Layout Spec_LayoutFont Model_Words Model_Font Model_Rewrites Model_Parse Spec_Parse Spec_Parsed.
From Verif Require Import Sample Proofs_Typed Proofs_Parsed Proofs_Parsed2 Proofs_Parsed3 Proofs_Parsed4 Properties_Parsed.

Definition switch_count (f : Font) : Z := num 1 (Data f) (OffsetToMappingSwitches f).
Definition switch_table (f : Font) : Z := OffsetToMappingSwitches f + 1.
Definition entry_table (f : Font) : Z := OffsetToMapping f + 2 + 4 * entry_count f.
(** where the first byte of entry [k], its switch type, lies *)
Definition entry_place (f : Font) (k : Z) : Z := entry_table f + 3 * entry_count f + start_of 3 (Data f) (entry_table f) k.
Definition entry_end (f : Font) (k : Z) : Z := entry_table f + 3 * entry_count f + end_of 3 (Data f) (entry_table f) k.

(** A switch whose block is in order is evaluated when every setting it names has a value in the
    slice given and, if the font has the setting, between 1 and 255 options *)
Theorem C81_switch_partial : forall f k settings, parsed f -> let d := Data f in
  in_order 2 d (switch_table f) (switch_count f) k ->
  (forall x, In x (block 2 d (switch_table f) (switch_count f) k) -> x < zlen settings /\
    (x < setting_count f -> 0 < end_of 2 d (setting_table f) x - start_of 2 d (setting_table f) x <= 255)) ->
  exists v, mapping_EvaluateSwitch f k settings = Ok v /\ 0 <= v < 256.
Proof. intros f k s H d. exact (switch f H k s). Qed.
Print Assumptions C81_switch_partial.

(** Whatever code point, settings and accepted file: a group that Utf8 returns lies in an entry
    of that code point, directly behind its switch type or further, and not behind its end *)
Theorem C81_found : forall f cp settings g, parsed f -> mapping_Utf8 f cp settings = Ok (Some g) ->
  exists k, 0 <= k < entry_count f /\ num 4 (Data f) (OffsetToMapping f + 2 + 4 * k) = u32 cp /\
    entry_place f k < gg_offset g <= entry_end f k /\
    gg_switchType g = num 1 (Data f) (entry_place f k) /\
    gg_directMapping g = (gg_switchType g =? 255) /\ 0 <= gg_caseBranch g < 256.
Proof.
  intros f cp s g H E. destruct (found f H cp s g E) as (k & K1 & K2 & _ & K3 & K4 & K5 & K6). exists k. auto 10.
Qed.
Print Assumptions C81_found.

(** A mapping of entries in order that do not depend on settings (switch types 254 and 255)
    answers for every code point, and a single glyph is what its two bytes say *)
Theorem C81_mapping_partial : forall f cp settings, parsed f -> let d := Data f in
  (forall k, 0 <= k < entry_count f -> in_order 3 d (entry_table f) (entry_count f) k /\ 254 <= num 1 d (entry_place f k)) ->
  mapping_Utf8 f cp settings = Ok None \/
  exists k, 0 <= k < entry_count f /\ num 4 d (OffsetToMapping f + 2 + 4 * k) = u32 cp /\
    mapping_Utf8 f cp settings = Ok (Some (mkGroup (entry_place f k + 1) (num 1 d (entry_place f k)) 0 (num 1 d (entry_place f k) =? 255))).
Proof. intros f cp s H d. exact (plain_mapping f H cp s). Qed.
Print Assumptions C81_mapping_partial.

Theorem C81_direct : forall f g, parsed f -> gg_directMapping g = true -> 0 <= gg_offset g -> gg_offset g + 2 <= zlen (Data f) ->
  group_Size f g = Ok 1 /\ group_Select f g 0 = Ok (num 2 (Data f) (gg_offset g)).
Proof. intros f g H. exact (direct f H g). Qed.
Print Assumptions C81_direct.

(** the font of Sample.v with the switched entries left out *)
Definition plain_sample : layout := {| l_header := l_header sample; l_metrics := l_metrics sample; l_dyes := l_dyes sample; l_palettes := l_palettes sample;
  l_names := l_names sample; l_glyphs := l_glyphs sample; l_words := l_words sample; l_settings := l_settings sample; l_switches := l_switches sample;
  l_mapping := firstn 2 (l_mapping sample); l_conditions := l_conditions sample; l_utf8_sets := l_utf8_sets sample; l_glyph_sets := l_glyph_sets sample;
  l_utf8_rules := l_utf8_rules sample; l_glyph_rules := l_glyph_rules sample; l_horz := l_horz sample; l_vert := l_vert sample |}.
Example C81_mapping_example : let f := font_of plain_sample in let d := Data f in
  parse_payload [(font_bytes plain_sample, EOF)] = Ok f /\ entry_count f = 2 /\ rises 3 d (entry_table f) 2 = true /\
  map (fun k => num 1 d (entry_place f k)) [0; 1] = [255; 254] /\
  (do g <- mapping_Utf8 f 65 [0; 0]; match g with Some g => group_Select f g 0 | None => Ok (-1) end) = Ok 2 /\
  (do g <- mapping_Utf8 f 66 [0; 0]; match g with Some g => group_Size f g | None => Ok (-1) end) = Ok 2 /\
  mapping_Utf8 f 67 [0; 0] = Ok None /\
  rises 2 d (switch_table f) (switch_count f) = true /\ block 2 d (switch_table f) (switch_count f) 0 = [0; 1] /\
  map (fun x => end_of 2 d (setting_table f) x - start_of 2 d (setting_table f) x) [0; 1] = [3; 2] /\
  mapping_EvaluateSwitch f 0 [2; 1] = Ok 5 /\
  (let s := font_of sample in exists g, mapping_Utf8 s 120 [1; 1] = Ok (Some g) /\ gg_offset g = entry_place s 3 + 13 /\ gg_caseBranch g = 3).
Proof. cbv zeta. repeat match goal with |- _ /\ _ => split end; try (vm_compute; reflexivity). eexists. split; [vm_compute; reflexivity|]. split; vm_compute; reflexivity. Qed.
