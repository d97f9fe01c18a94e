(** Theorems C29 and C37: what is found and passed on where the full statements are false. *)
From Verif Require Import Base Spec_Helpers Model_Helpers Model_Font Model_Rewrites Spec_Format Spec_Layout Spec_LayoutFont Sample
  Spec_Parse Properties_Parse Proofs_Layout Proofs_Format Proofs_Font4 Proofs_Rewrites Spec_Outputs Proofs_Outputs.

(** ** C29 *)

(** Full statement: the group of the selected case is found. When the case just before the
    selected one is a range of 2 to 127 glyphs or a list of 128, and all earlier ones are skipped
    rightly, then what is found lies [stride] bytes after the start of that case: ranges lead
    [2 * n - 2] bytes too far and possibly out of the entry, which panics, lists of 128 to the
    bytes of their own second glyph. For several such cases see [C29_walk_partial]. *)
Theorem C29_behind_partial : forall f l cp k before g rest settings,
  stored (Data f) (OffsetToMapping f) (mapping_bytes l) -> ordered Z.lt (map fst l) ->
  Forall (fun x => 0 <= fst x < 2147483648) l -> zlen l < 65536 ->
  zlen (concat (map (fun x => entry_bytes (snd x)) l)) < 16777216 ->
  In (cp, ESwitch k (before ++ g :: rest)) l -> 0 <= k < 254 -> rest <> [] ->
  mapping_EvaluateSwitch f k settings = Ok (zlen before + 1) -> Forall group_in_range (before ++ g :: rest) ->
  Forall skippable before -> misjudged g ->
  let here := concat (map group_bytes (g :: rest)) in
  if stride g <? zlen here then
    exists gg, mapping_Utf8 f cp settings = Ok (Some gg) /\ gg_directMapping gg = false /\ gg_switchType gg = k /\
      gg_caseBranch gg = zlen before + 1 /\ stored (Data f) (gg_offset gg) (skipn (Z.to_nat (stride g)) here)
  else mapping_Utf8 f cp settings = Panic.
Proof. intros f l cp k before g rest settings H1 H2 H3 H4 H5. exact (lookup_behind f l H1 H2 H3 H4 H5 cp k before g rest settings). Qed.
Print Assumptions C29_behind_partial.

Definition with_switch (cases : list group) : layout :=
  {| l_header := l_header sample; l_metrics := l_metrics sample; l_dyes := l_dyes sample; l_palettes := l_palettes sample;
     l_names := []; l_glyphs := l_glyphs sample; l_words := []; l_settings := [([115], [0; 1; 2])]; l_switches := [[0]];
     l_mapping := [(120, ESwitch 0 cases)];
     l_conditions := []; l_utf8_sets := []; l_glyph_sets := []; l_utf8_rules := []; l_glyph_rules := []; l_horz := []; l_vert := [] |}.
Example C29_behind_example :
  (* a range of two glyphs: two bytes too far, into the glyph of the next case *)
  (let cases := [GRange 0 1 2; GList 0 [3]; GList 0 [255]] in let f := font_of (with_switch cases) in
   stored (Data f) (OffsetToMapping f) (mapping_bytes [(120, ESwitch 0 cases)]) /\ mapping_EvaluateSwitch f 0 [1] = Ok 1 /\
   skipn (Z.to_nat (stride (GRange 0 1 2))) (concat (map group_bytes cases)) = [0; 0; 255; 0] /\
   exists gg, mapping_Utf8 f 120 [1] = Ok (Some gg) /\ group_Select f gg 0 = Ok 65280) /\
  (* a range of five: out of the entry *)
  (let cases := [GRange 0 1 5; GList 0 [3]; GList 0 [4]] in let f := font_of (with_switch cases) in
   zlen (concat (map group_bytes cases)) = 10 /\ mapping_Utf8 f 120 [1] = Panic) /\
  (* a list of 128: its own second glyph *)
  (let cases := [GList 0 (map (fun i => 256 + i) (zseq 128)); GList 0 [3]; GList 0 [4]] in let f := font_of (with_switch cases) in
   exists gg, mapping_Utf8 f 120 [1] = Ok (Some gg) /\ gg_offset gg = OffsetToMapping f + 10 + 4 /\ group_Select f gg 0 = Ok 258).
Proof.
  split; [|split].
  - cbv zeta. split; [exact (st_mapping (with_switch _))|]. split; [vm_compute; reflexivity|]. split; [vm_compute; reflexivity|].
    eexists. split; [vm_compute; reflexivity|]. vm_compute. reflexivity.
  - cbv zeta. split; vm_compute; reflexivity.
  - cbv zeta. eexists. split; [vm_compute; reflexivity|]. split; vm_compute; reflexivity.
Qed.

(** ** C37 *)

(** Full statement: [EachOut] of the bytes of a rule yields its outputs. For code point rules it
    steps by two bytes instead of four and half as often as needed: between two outputs a number
    made of the halves of both is passed on, and the second half of the outputs is lost. *)
Theorem C37_utf8_exact_partial : forall r, Forall (fun g => 0 <= g < 2147483648) (rule_out r) ->
  utf8_rule_EachOut (rule_bytes 4 r) = Ok (firstn (Z.to_nat ((zlen (rule_out r) + 1) / 2)) (woven (rule_out r))).
Proof. exact utf8_outs. Qed.
Print Assumptions C37_utf8_exact_partial.

Example C37_utf8_exact_example : let r := mkRule 255 [([], [])] [([], [45; 62])] [([], [])] [8594; 128512; 97; 98; 99; 100] in
  woven (rule_out r) = [8594; -167772160; 128512; 6356993; 97; 6422528; 98; 6488064; 99; 6553600; 100] /\
  utf8_rule_EachOut (rule_bytes 4 r) = Ok [8594; -167772160; 128512].
Proof. split; vm_compute; reflexivity. Qed.
