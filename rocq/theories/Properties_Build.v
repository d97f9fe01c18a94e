(** Properties of built fonts: C40, and C56 on what the parser accepts. *)
From Coq Require Import Permutation.
From Verif Require Import Base BaseFacts Spec_Helpers Model_Helpers Model_Names Model_Date Model_Mask Spec_Mask Model_Words Model_Font Model_Parse Spec_Parse
  Spec_Format Spec_Layout Spec_LayoutFont Spec_Accept Proofs_Accept Sample
  Model_Builder Spec_Builder Proofs_Builder Sample_Builder Spec_Build Proofs_Build Proofs_Build9 Proofs_Typed Proofs_Accept2 Proofs_Build10.

(** a random font id *)
Definition sample_id : Z := 1311768467463790320.

(** ** C56 *)

(** Every font laid out as the specification says and within the limits of the format is parsed,
    however the reader delivers it, and gives the section offsets of the layout. *)
Theorem C56_accepted : forall l i, accepted (fun id => entropy_too_low id = false) l ->
  delivers i (font_bytes l) -> parse_payload i = Ok (font_of l).
Proof. exact accepted_parses. Qed.
Print Assumptions C56_accepted.
(** Exactly: Parse takes a font laid out so if and only if it respects limits that are mostly on
    averages, and gives an error otherwise. *)
Theorem C56_exact : forall l i, encodable l -> delivers i (font_bytes l) ->
  parse_payload i = Ok (font_of l) /\ parser_accepts (fun id => entropy_too_low id = false) l \/
  (exists m, parse_payload i = Err m) /\ ~ parser_accepts (fun id => entropy_too_low id = false) l.
Proof. exact parser_exact. Qed.
Print Assumptions C56_exact.

(** ** C40 *)

(** Full statement: whenever Build succeeds the font is parsed back. False; each of the following
    histories gives a font that Parse rejects. *)
Definition rejected (ops : list bop) : Prop :=
  Forall op_typed ops /\ exists b' f msg,
    Build no_order no_sort (history sample_id sample_date ops) = (b', Ok f) /\
    delivers [(Data f, EOF)] (Data f) /\ parse_payload [(Data f, EOF)] = Err msg.
Definition noisy_glyph : bop :=
  OAddGlyph (mkAlpha (concat (map (fun i => [255; i + 1]) (zseq 80))) 160 (mkRect 0 (-1) 160 0)) [1001].
Definition unparsed : list (list bop) :=
  [ (* an empty name *)
    sample_glyphs ++ [OSetName []];
    (* vertical interspacing without vertical layout *)
    sample_glyphs ++ [OSetMetric VertInterspacing 1];
    (* a dye or palette without colors or without name *)
    sample_glyphs ++ [OAddDye (str_bytes "empty") []];
    sample_glyphs ++ [OAddDye [] [7]];
    sample_glyphs ++ [OAddPalette (str_bytes "empty") []];
    (* a mask of more than 255 bytes *)
    [noisy_glyph];
    (* a setting without options *)
    sample_glyphs ++ [OAddSetting (str_bytes "none") []];
    (* 254 switches *)
    sample_glyphs ++ OAddSetting (str_bytes "one") [str_bytes "fall"] :: repeat (OAddSwitch [0]) 254;
    (* an empty set *)
    sample_glyphs ++ [OCreateGlyphSet [2001]];
    (* a rule of more than 1026 bytes, one of more than 514 bytes *)
    sample_glyphs ++ [OAddSimpleUtf8RewriteRule 97 (repeat 98 255)];
    sample_glyphs ++ [OAddGlyphRewriteRule 0 255 0 (repeat 1001 255) []] ].

Theorem C40_refuted : Forall rejected unparsed.
Proof.
  unfold unparsed. repeat apply Forall_cons; try apply Forall_nil;
    (split; [apply all_typed; vm_compute; reflexivity|]);
    match goal with |- exists b' f msg, Build no_order no_sort ?b = (b', Ok f) /\ _ =>
      let B := eval vm_compute in (Build no_order no_sort b) in
      match B with (?b', Ok ?f) => exists b', f end
    end;
    (eexists; split; [vm_compute; reflexivity|]; split; [split; [exact I|reflexivity]|]; vm_compute; reflexivity).
Qed.
Print Assumptions C40_refuted.

(** Proved: the font is parsed back, however the reader delivers it, when it respects the limits of
    the parser that the builder does not check. The id is one with enough entropy (New takes no
    other); the file is the signature and the compressed data, see DESIGN.md. *)
Theorem C40_partial : forall id date ops o sort b' f i,
  date_typed date -> 0 <= id < 2 ^ 64 -> entropy_too_low id = false -> Forall op_typed ops ->
  perm_order o -> (forall l, Permutation l (sort l)) ->
  Build o sort (history id date ops) = (b', Ok f) -> parser_limits b' f ->
  delivers i (Data f) -> parse_payload i = Ok f.
Proof. exact built_parses. Qed.
Print Assumptions C40_partial.
Definition sample_font : option Font := match Build rev_order no_sort (history sample_id sample_date sample_ops) with (_, Ok f) => Some f | _ => None end.
Example C40_sample : entropy_too_low sample_id = false /\ Forall op_typed sample_ops /\ perm_order rev_order /\
  exists b' f, Build rev_order no_sort (history sample_id sample_date sample_ops) = (b', Ok f) /\ parser_limits b' f /\ zlen (Data f) = 368 /\
  delivers [(firstn 100 (Data f), NoErr); ([], NoErr); (skipn 100 (Data f), EOF)] (Data f).
Proof.
  split; [reflexivity|]. split; [apply all_typed; vm_compute; reflexivity|]. split; [intros n A l; apply Permutation_sym, Permutation_rev|].
  let B := eval vm_compute in (Build rev_order no_sort (history sample_id sample_date sample_ops)) in
  match B with (?b', Ok ?f) => exists b', f end.
  split; [vm_compute; reflexivity|]. split; [|split; [reflexivity|split; [vm_compute; exact I|reflexivity]]].
  constructor; try (vm_compute; first [discriminate | reflexivity | (intros; reflexivity) | (repeat split; discriminate)]).
  apply Forall_cons; [left; discriminate|apply Forall_nil].
Qed.

(** Exactly: a font whose offsets hold its sizes is parsed back if and only if it respects the limits,
    and gives an error otherwise. Missing: fonts with offsets that wrapped. *)
Theorem C40_exact_partial : forall id date ops o sort b' f i,
  date_typed date -> 0 <= id < 2 ^ 64 -> entropy_too_low id = false -> Forall op_typed ops ->
  perm_order o -> (forall l, Permutation l (sort l)) ->
  Build o sort (history id date ops) = (b', Ok f) -> offsets_fit b' f -> delivers i (Data f) ->
  parse_payload i = Ok f /\ exact_limits b' f \/ (exists m, parse_payload i = Err m) /\ ~ exact_limits b' f.
Proof. exact built_parses_exact. Qed.
Print Assumptions C40_exact_partial.
(** an empty set beside a full one is within these limits, alone it is not *)
Definition empty_set : list bop := sample_glyphs ++ [OCreateGlyphSet [2001]].
Definition empty_and_full : list bop := empty_set ++ [OCreateGlyphSet [2002]; OAddGlyphSetRange 2002 1001 1003; OAddGlyphSetListGlyph 2002 1005].
Example C40_exact_ex : Forall op_typed empty_and_full /\
  (exists b' f, Build no_order no_sort (history sample_id sample_date empty_and_full) = (b', Ok f) /\ offsets_fit b' f /\ exact_limits b' f /\ ~ parser_limits b' f) /\
  Forall op_typed empty_set /\
  (exists b' f, Build no_order no_sort (history sample_id sample_date empty_set) = (b', Ok f) /\ offsets_fit b' f /\ ~ exact_limits b' f).
Proof.
  split; [apply all_typed; vm_compute; reflexivity|]. split; [|split; [apply all_typed; vm_compute; reflexivity|]].
  - let B := eval vm_compute in (Build no_order no_sort (history sample_id sample_date empty_and_full)) in
    match B with (?b', Ok ?f) => exists b', f end.
    split; [vm_compute; reflexivity|]. split; [constructor; vm_compute; auto|]. split.
    + constructor; try (vm_compute; first [discriminate | reflexivity | (intros; reflexivity) | (split; discriminate) | (right; discriminate)]).
    + intros [_ _ _ _ _ _ _ H _ _]. apply Forall_inv in H. destruct H as [H|H]; apply H; reflexivity.
  - let B := eval vm_compute in (Build no_order no_sort (history sample_id sample_date empty_set)) in
    match B with (?b', Ok ?f) => exists b', f end.
    split; [vm_compute; reflexivity|]. split; [constructor; vm_compute; auto|].
    intros [_ _ _ _ _ _ _ [H|H] _ _]; [discriminate|]. revert H. vm_compute. intros H. apply H. reflexivity.
Qed.

(** ** Examples for C56 *)
(** a word may be empty beside a longer one; the header may not be without name *)
Definition renamed (name : list Z) (words : list (list Z)) : layout :=
  mkLayout (mkHeader 2 4918293847561029384 1 3 (2023, 11, 5) (2023, 11, 5) (2024, 2, 29) name [] [] []) (l_metrics sample) (l_dyes sample)
    (l_palettes sample) (l_names sample) (l_glyphs sample) words (l_settings sample) (l_switches sample) (l_mapping sample) (l_conditions sample)
    (l_utf8_sets sample) (l_glyph_sets sample) (l_utf8_rules sample) (l_glyph_rules sample) (l_horz sample) (l_vert sample).
Example C56_exact_ex :
  encodable (renamed [97] [[98; 97]; []]) /\ parser_accepts (fun id => entropy_too_low id = false) (renamed [97] [[98; 97]; []]) /\
  encodable (renamed [] []) /\ ~ parser_accepts (fun id => entropy_too_low id = false) (renamed [] []).
Proof.
  split; [constructor; [apply bytesb_true; vm_compute; reflexivity|..]; vm_compute; repeat split; try reflexivity; discriminate|].
  split; [constructor; vm_compute; repeat split; try reflexivity; try discriminate; right; discriminate|].
  split; [constructor; [apply bytesb_true; vm_compute; reflexivity|..]; vm_compute; repeat split; try reflexivity; discriminate|].
  intros [(_ & _ & H) _ _ _ _ _ _ _ _ _ _ _ _ _ _ _]. apply H. reflexivity.
Qed.
Example C56_sample : accepted (fun id => entropy_too_low id = false) sample /\
  delivers [(firstn 50 (font_bytes sample), NoErr); ([], NoErr); (skipn 50 (font_bytes sample), EOF)] (font_bytes sample).
Proof.
  split; [|vm_compute; auto].
  constructor; try (vm_compute; repeat split; try reflexivity; discriminate).
  apply bytesb_true. vm_compute. reflexivity.
Qed.
