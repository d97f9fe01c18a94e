(** Which bytes the second half of the choices of mapped groups that are not consecutive is read from: C43. *)
From Coq Require Import Permutation.
From Verif Require Import Base BaseFacts Spec_Helpers Model_Helpers Model_Names Model_Date Model_Mask Spec_Mask Model_Words Model_Font
  Model_Builder Spec_Builder Spec_Survive Proofs_Builder Sample_Builder Proofs_Typed Proofs_Order Proofs_Font3 Proofs_Font4 Proofs_Survive.
From Verif Require Import Spec_Format Spec_Choices Proofs_Choices Properties_Choices Proofs_Tail43.

(** ** C43 *)
(** Full statement: choice i of a mapped group is its i-th glyph. For groups of two or more glyphs that are not consecutive the
    first half of the choices is given by C43_sorted_partial; the second half is read from the bytes behind the group, and
    panics exactly if the font ends before. *)
Theorem C43_behind_partial : forall id date ops o sort b' f cp settings k groups case uids,
  date_typed date -> Forall op_typed ops -> perm_order o -> (forall l, Permutation l (sort l)) ->
  Build o sort (history id date ops) = (b', Ok f) -> mapping_fits b' f -> bytes (Data f) ->
  last_mapping id date ops cp = Some (k, groups) ->
  (k < 254 -> mapping_EvaluateSwitch f k settings = Ok case /\ Forall (stepped_over b') (firstn (Z.to_nat case) groups)) ->
  (254 <= k -> case = 0) -> zget groups case = Ok uids -> 1 < zlen uids -> ~ together b' uids ->
  exists gg, mapping_Utf8 f cp settings = Ok (Some gg) /\ forall i, zlen uids <= 2 * i < 2 * zlen uids ->
    group_Select f gg i = match skipn (Z.to_nat (4 * i - 2 * zlen uids)) (skipn (Z.to_nat (gg_offset gg + (2 + 2 * zlen uids))) (Data f)) with
                          | a :: b :: _ => Ok (a + 256 * b) | _ => Panic end.
Proof. exact behind_survive. Qed.
Print Assumptions C43_behind_partial.

(** Of 1001, 1003, 1004, 1005, mapped to 104, the choices 2 and 3 are read from the entry of 105: the first byte of it is the
    switch 0, the second one less than the number of glyphs of its first case. *)
Example C43_behind_example : Forall op_typed turned_ops /\
  match Build no_order no_sort (history 7777 sample_date turned_ops) with
  | (b', Ok f) => mapping_fits b' f /\ forallb (fun x => (0 <=? x) && (x <? 256)) (Data f) = true /\ b_order b' = [1001; 1002; 1003; 1004; 1005] /\
      map (chosen f 104 [0; 0]) [0; 1; 2; 3] = [Ok 0; Ok 3; Ok (0 + 256 * 1); Ok (0 + 256 * 2)] /\
      match mapping_Utf8 f 104 [0; 0] with
      | Ok (Some gg) => firstn 6 (skipn (Z.to_nat (gg_offset gg + 10)) (Data f)) = [0; 1; 1; 0; 0; 2]
      | _ => False end
  | _ => False end.
Proof. split; [apply all_typed; vm_compute; reflexivity|]. vm_compute. repeat split; reflexivity || discriminate. Qed.
