(** Which bytes the second half of the choices of a list is read from: C31. *)
From Verif Require Import Base BaseFacts Spec_Helpers Model_Helpers Model_Font Spec_Format Spec_Layout Spec_LayoutFont Sample Proofs_Layout Proofs_Font4
  Properties_Outputs Proofs_Beyond.

(** ** C31 *)
(** Full statement: choice i is the i-th glyph of the group. Choices from the middle of a list on are read from the bytes
    behind the list, at twice the distance of the choice from the middle, counted in glyphs; they panic exactly if the data of
    the font end before. With C31_list_steps_partial, C31_select_partial and C31_other_choices_panic this is every choice of
    every group. *)
Theorem C31_beyond_partial : forall f gg fl l choice, bytes (Data f) -> group_found f gg (GList fl l) -> group_in_range (GList fl l) ->
  1 < zlen l -> zlen l <= 2 * choice < 2 * zlen l ->
  group_Select f gg choice = match skipn (Z.to_nat (4 * choice - 2 * zlen l)) (skipn (Z.to_nat (gg_offset gg + (2 + 2 * zlen l))) (Data f)) with
                             | a :: b :: _ => Ok (a + 256 * b) | _ => Panic end.
Proof. exact select_beyond. Qed.
Print Assumptions C31_beyond_partial.
(** Two lists of three glyphs, one behind the other: choice 2 of the first is the first glyph of the second.
    Choice 2 of the second, at the end of the data, panics. *)
Example C31_beyond_example :
  let one := GList 7 [1; 2; 3] in let two := GList 9 [4; 5; 6] in
  let f := mkFont (group_bytes one ++ group_bytes two) 0 0 0 0 0 0 0 0 0 0 0 0 0 0 0 0 0 in
  let at_ o := {| gg_offset := o; gg_switchType := 254; gg_caseBranch := 0; gg_directMapping := false |} in
  group_found f (at_ 0) one /\ group_found f (at_ 8) two /\ group_in_range one /\
  map (group_Select f (at_ 0)) [0; 1; 2; 3] = [Ok 1; Ok 3; Ok 4; Panic] /\ map (group_Select f (at_ 8)) [0; 1; 2] = [Ok 4; Ok 6; Panic].
Proof.
  cbv zeta. split; [split; [reflexivity|exists [], (group_bytes (GList 9 [4; 5; 6])); split; reflexivity]|].
  split; [split; [reflexivity|exists (group_bytes (GList 7 [1; 2; 3])), []; split; reflexivity]|].
  split; [split; [vm_compute; split; discriminate|]; split; [vm_compute; split; [discriminate|reflexivity]|]; repeat (apply Forall_cons; [lia|]); apply Forall_nil|].
  split; vm_compute; reflexivity.
Qed.
