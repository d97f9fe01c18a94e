(** A font with something in every section, used by the examples beside the theorems. *)
From Verif Require Import Base BaseFacts Spec_Helpers Spec_Format Spec_Layout Spec_LayoutFont Model_Font Model_Parse Spec_Parse.

Definition sample : layout := {|
  l_header := mkHeader 2 4918293847561029384 1 3 (2023, 11, 5) (2023, 11, 5) (2024, 2, 29)
    [100; 101; 109; 111] [102; 97; 109] [109; 101] [97; 98; 111; 117; 116];
  l_metrics := mkMetrics 4 false 0 7 1 3 1 6 4 1 0 1 0 0;
  l_dyes := [([109; 97; 105; 110], [255; 128]); ([116], [64])];
  l_palettes := [([112], [(1, 2, 3, 255); (9, 8, 7, 200)])];
  l_names := [([97], 1); ([98; 98], 3)];
  l_glyphs := [(mkPl 3 0 0 0, []); (mkPl 4 0 0 0, [1; 1; 3; 3]); (mkPl 5 0 0 0, []); (mkPl 6 0 0 0, [])];
  l_words := [[102; 111; 111]; [98; 97; 114]];
  l_settings := [([115; 116], [0; 1; 200]); ([122], [1; 7])];
  l_switches := [[0; 1]; [1]];
  l_mapping := [(65, EGlyph 2); (66, EGroup (GList 3 [1; 2]));
    (67, ESwitch 1 [GList 0 [3]; GRange 1 0 3]); (120, ESwitch 0 [GList 0 [0]; GList 0 [1]; GList 2 [2; 3]; GRange 0 3 1; GList 0 [0]; GList 0 [1]])];
  l_conditions := [CQuick Equal 0 2; COr [CConst AtMost 1 0; CSettings Less 0 1]];
  l_utf8_sets := [mkSet [(48, 9)] [65; 97]];
  l_glyph_sets := [mkSet [(0, 1)] [3]; mkSet [] [2; 3]];
  l_utf8_rules := [mkRule 255 [([], [])] [([], [45; 62])] [([], [])] [8594]];
  l_glyph_rules := [mkRule 0 [([0], [])] [([1], [2])] [([], [])] [3; 0]; mkRule 255 [([], [])] [([], [0; 1])] [([], [2])] [3]];
  l_horz := [(0, 1, -3); (2, 0, 5)];
  l_vert := [] |}.

(** the parser accepts it and finds every section *)
Example sample_parses : parse_payload [(font_bytes sample, NoErr)] = Ok (font_of sample).
Proof. vm_compute. reflexivity. Qed.
Lemma sample_bytes : bytes (Data (font_of sample)).
Proof.
  apply Forall_forall. intros b Hb. assert (H : forallb (fun b => (0 <=? b) && (b <? 256)) (Data (font_of sample)) = true) by (vm_compute; reflexivity).
  rewrite forallb_forall in H. specialize (H b Hb). unfold byte. lia.
Qed.
