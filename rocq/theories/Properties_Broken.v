(** Theorems about the outcomes of ParseEditionData (C61): exactly which files are read, which are
    refused with an error and which make it panic. *)
From Verif Require Import Base Spec_Helpers Model_Helpers Spec_Names Model_Words Spec_Format Model_Font Model_Parse Spec_Parse Model_Builder Sample_Builder
  Model_Edition Spec_Edition Spec_EditionBuilder Properties_Edition.
From Verif Require Import Spec_Reader Spec_Broken Proofs_Broken.
From Coq Require Import Lia.

(** Full statement: see C61 in Properties_Edition; false, files can make ParseEditionData panic.

    What holds, for every builder with at most 254 conditions and every reader that delivers [P]:
    a file that begins with edition data is read if the reader reports the end together with the
    last byte of the data or with the first result after it, and is a panic otherwise; a file with
    a pair that has a class but not two glyphs of the font, with no mistake before it, is a panic;
    every other file is an error. *)
Theorem C61_exact_partial : forall w i P, within_bounds P -> delivers i P -> stream_bytes i -> zlen (wk_conditionNames w) <= 254 ->
  let id := bh_ID (b_header (wk_b w)) in let glyphs := zlen (b_order (wk_b w)) in let conditions := zlen (wk_conditionNames w) in
  let r := snd (ParseEditionData w (str_bytes "wkgfnt", NoErr) None i) in
  (forall e trailing, P = edition_bytes 4 e ++ trailing -> edition_typed e -> edition_taken id glyphs conditions e ->
    r = if ends_after (zlen (edition_bytes 4 e)) i then Ok tt else Panic) /\
  (broken id glyphs P -> r = Panic) /\
  (~ broken id glyphs P -> ~ (exists e trailing, P = edition_bytes 4 e ++ trailing /\ edition_typed e /\ edition_taken id glyphs conditions e) ->
    exists m, r = Err m).
Proof. exact edition_exact. Qed.
Print Assumptions C61_exact_partial.
(** Files with another signature, or whose rest is not compressed, are errors. *)
Theorem C61_signature_partial : forall w first g i, first <> (str_bytes "wkgfnt", NoErr) \/ g <> None ->
  exists m, snd (ParseEditionData w first g i) = Err m.
Proof. exact signature_error. Qed.
Print Assumptions C61_signature_partial.

(** a pair with the sixth of five glyphs behind a good pair, in the vertical list *)
Definition broken_edition : edition := mkEdition 7777 [(str_bytes "Latin", 5)] [(str_bytes "tight", -2)] [(0, 1, 1)] [(2, 2, 1); (0, 5, 1); (9, 9, 0)] [].
Example C61_broken_ex : broken 7777 5 (edition_bytes 4 broken_edition) /\
  snd (ParseEditionData sample_wk (str_bytes "wkgfnt", NoErr) None [(edition_bytes 4 broken_edition, EOF)]) = Panic.
Proof.
  split; [|vm_compute; reflexivity].
  exists broken_edition, (le_digits 4 3 ++ concat (map pair_bytes [(2, 2, 1)]) ++ pair_bytes (0, 5, 1)), [9; 0; 9; 0; 0; 0; 0].
  split.
  - unfold front_taken. cbn [broken_edition e_id e_categories e_classes].
    repeat match goal with |- _ /\ _ => split end; try (vm_compute; reflexivity); try lia.
    1, 2: constructor; [|constructor]; split; [apply bytesb_ok; vm_compute; reflexivity|]; split; [vm_compute; reflexivity|cbn; lia].
    1, 2: apply (plain_all fst 32); vm_compute; reflexivity.
  - split.
    + exists 3, [(2, 2, 1)], (0, 5, 1). split; [reflexivity|]. split; [change (zlen [(2, 2, 1)]) with 1; lia|].
      split; [repeat constructor; cbn; lia|]. split; [repeat constructor; cbn; lia|]. cbn. lia.
    + right. split; [vm_compute; reflexivity|]. split; repeat constructor; cbn; lia.
Qed.
(** the outcomes of the three parts, with a reader that delivers a byte more with the data, later,
    or never *)
Example C61_outcomes_ex : let b := edition_bytes 4 sample_edition in let result i := snd (ParseEditionData sample_wk (str_bytes "wkgfnt", NoErr) None i) in
  ends_after (zlen b) [(b ++ [0], NoErr)] = true /\ result [(b ++ [0], NoErr)] = Ok tt /\
  ends_after (zlen b) [(b, NoErr); ([0], EOF)] = true /\ result [(b, NoErr); ([0], EOF)] = Ok tt /\
  ends_after (zlen b) [(b, NoErr); ([0], NoErr)] = false /\ result [(b, NoErr); ([0], NoErr)] = Panic /\
  is_ok (result [(removelast b, EOF)]) = false /\ result [(removelast b, EOF)] <> Panic.
Proof. cbv zeta. repeat split; try (vm_compute; reflexivity). vm_compute. discriminate. Qed.
