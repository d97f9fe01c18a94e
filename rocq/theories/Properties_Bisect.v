(** Theorems C25 (continued): exactly which stored names are found. *)
From Verif Require Import Base BaseFacts Spec_Helpers Model_Helpers Model_Font Spec_Format Proofs_Format Spec_Bisect Proofs_Bisect.

(** Full statement: every stored name is found. Exactly: with different names, the name at
    position [k] is found if and only if at each position where a bisection towards [k]
    looks, the stored name passes as smaller just when it is placed before [k]. In all other
    cases the glyph counts as missing. *)
Theorem C25_exact_partial : forall f l q k i,
  stored (Data f) (OffsetToGlyphNames f) (glyph_names_bytes l) ->
  zlen (concat (map fst l)) < 16777216 -> zlen l < 65536 -> Forall (fun x => 0 <= snd x < 65536) l ->
  NoDup (map fst l) -> zget l k = Ok (q, i) ->
  ((forall m n, probed k 0 (zlen l - 1) m -> zget (map fst l) m = Ok n -> (passes n q <-> m < k)) ->
     glyphs_FindIndexByName f q = Ok i) /\
  ((exists m n, probed k 0 (zlen l - 1) m /\ zget (map fst l) m = Ok n /\ ~ (passes n q <-> m < k)) ->
     glyphs_FindIndexByName f q = Ok GlyphMissing).
Proof. exact find_exact. Qed.
Print Assumptions C25_exact_partial.

(** In every font whose names are all of one length, no name but the first is ever found. *)
Theorem C25_one_length_partial : forall f l,
  stored (Data f) (OffsetToGlyphNames f) (glyph_names_bytes l) ->
  zlen (concat (map fst l)) < 16777216 -> zlen l < 65536 -> Forall (fun x => 0 <= snd x < 65536) l ->
  NoDup (map fst l) -> forall len, Forall (fun x => zlen (fst x) = len) l ->
  forall k q i, zget l k = Ok (q, i) -> glyphs_FindIndexByName f q = Ok (if k =? 0 then i else GlyphMissing).
Proof. exact only_first. Qed.
Print Assumptions C25_one_length_partial.

(** Four names in alphabetical order, "a", "bb", "c" and "dd". The first three are found. The
    bisection towards "dd" looks at "bb", which is of the same length and so does not pass
    as smaller: "dd" counts as missing. *)
Definition four_names : list (list Z * Z) := [([97], 5); ([98; 98], 6); ([99], 7); ([100; 100], 8)].
Definition four_font : Font := mkFont (glyph_names_bytes four_names) 0 0 0 0 0 0 0 0 0 0 0 0 0 0 0 0 0.
Example C25_exact_ex :
  stored (Data four_font) (OffsetToGlyphNames four_font) (glyph_names_bytes four_names) /\ NoDup (map fst four_names) /\
  map (glyphs_FindIndexByName four_font) (map fst four_names) = [Ok 5; Ok 6; Ok 7; Ok GlyphMissing] /\
  probed 3 0 3 1 /\ ~ (passes [98; 98] [100; 100] <-> 1 < 3).
Proof.
  split; [exists [], []; split; vm_compute; reflexivity|]. split; [cbn; repeat constructor; cbn; intuition discriminate|].
  split; [vm_compute; reflexivity|]. split; [apply (Pr_middle 3 0 3); lia|]. intros H. destruct (proj2 H ltac:(lia)) as [X _]. apply X. reflexivity.
Qed.
Example C25_one_length_ex : let l := [([97], 5); ([98], 6); ([99], 7)] in
  let f := mkFont (glyph_names_bytes l) 0 0 0 0 0 0 0 0 0 0 0 0 0 0 0 0 0 in
  stored (Data f) (OffsetToGlyphNames f) (glyph_names_bytes l) /\ NoDup (map fst l) /\ Forall (fun x => zlen (fst x) = 1) l /\
  map (glyphs_FindIndexByName f) (map fst l) = [Ok 5; Ok GlyphMissing; Ok GlyphMissing].
Proof.
  cbv zeta. split; [exists [], []; split; vm_compute; reflexivity|]. split; [cbn; repeat constructor; cbn; intuition discriminate|].
  split; [repeat constructor|vm_compute; reflexivity].
Qed.
