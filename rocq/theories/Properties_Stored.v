(** Properties of the words of fonts built from the same builder in different orders: C41. *)
From Coq Require Import Permutation.
From Verif Require Import Base BaseFacts Spec_Helpers Model_Helpers Model_Names Model_Date Model_Mask Spec_Mask Model_Words Model_Font
  Model_Builder Spec_Builder Spec_Survive Proofs_Builder Sample_Builder Proofs_Typed Proofs_Survive Proofs_Stored.

(** ** C41 *)
(** Whatever the orders, the number of stored words and the size of their section are the same. What is missing: the
    bytes of the section, which differ in [C41_refuted]. *)
Theorem C41_words_partial : forall id date ops o1 o2 s1 s2 b1 b2 f g,
  date_typed date -> Forall op_typed ops -> perm_order o1 -> perm_order o2 ->
  (forall l, Permutation l (s1 l)) -> (forall l, Permutation l (s2 l)) ->
  Build o1 s1 (history id date ops) = (b1, Ok f) -> Build o2 s2 (history id date ops) = (b2, Ok g) ->
  settings_NumWords f = settings_NumWords g /\ is_ok (settings_NumWords f) = true /\
  OffsetToSettingNames f - OffsetToWords f = OffsetToSettingNames g - OffsetToWords g.
Proof. exact same_section. Qed.
Print Assumptions C41_words_partial.
(** The predefined word 10 is "fall": eleven own words need its index, so that it is stored in every order, unlike "on". *)
Example C41_words_example :
  let own := [str_bytes "a1"; str_bytes "b22"; str_bytes "c3"; str_bytes "d4"; str_bytes "e5"; str_bytes "f6"; str_bytes "g7"; str_bytes "h8";
              str_bytes "i9"; str_bytes "j10"; str_bytes "k11"] in
  match GetPredefinedWord 10 with
  | Ok ten =>
    let b := history 7777 sample_date (sample_glyphs ++ [OAddSetting (str_bytes "all") (own ++ [ten; str_bytes "on"])]) in
    match snd (Build no_order no_sort b), snd (Build rev_order no_sort b) with
    | Ok f, Ok g => settings_NumWords f = Ok 12 /\ settings_NumWords g = Ok 12 /\ Data f <> Data g
    | _, _ => False end
  | _ => False end.
Proof. vm_compute. repeat split; try reflexivity. discriminate. Qed.
