(** C43: the choices of mapped groups whose glyphs are in any order, or not consecutive. *)
From Coq Require Import Permutation.
From Verif Require Import Base BaseFacts Spec_Helpers Model_Helpers Model_Names Model_Date Model_Mask Spec_Mask Model_Words Model_Font
  Model_Builder Spec_Builder Spec_Survive Proofs_Builder Sample_Builder Proofs_Typed Proofs_Order Proofs_Font3 Proofs_Font4 Proofs_Survive.
From Verif Require Import Spec_Format Spec_Choices Proofs_Choices.

(** The choices of a mapped group are its glyphs in the order of their indices if these are
    consecutive, else every second of them; the animation flags are the low byte of the first
    index (0 for single glyphs). What is missing: the second half of the choices of groups that
    are not consecutive (read from behind the group), switch cases after groups that the lookup
    steps over wrongly (2 to 127 consecutive glyphs, 128 others), mappings of 16 MiB. *)
Theorem C43_sorted_partial : forall id date ops o sort b' f cp settings k groups case uids,
  date_typed date -> Forall op_typed ops -> perm_order o -> (forall l, Permutation l (sort l)) ->
  Build o sort (history id date ops) = (b', Ok f) -> mapping_fits b' f -> in_int32 cp ->
  last_mapping id date ops cp = Some (k, groups) ->
  (k < 254 -> mapping_EvaluateSwitch f k settings = Ok case /\ Forall (stepped_over b') (firstn (Z.to_nat case) groups)) ->
  (254 <= k -> case = 0) -> zget groups case = Ok uids ->
  exists gg, mapping_Utf8 f cp settings = Ok (Some gg) /\ sorted_choices b' f gg uids.
Proof.
  intros id date ops o sort b' f cp settings k groups case uids H1 H2 H3 H4 H5 H6 H7 H8.
  pose proof (choices_survive id date ops o sort b' f cp settings H1 H2 H3 H4 H5 H6 H7) as M. rewrite H8 in M. exact (M case uids).
Qed.
Print Assumptions C43_sorted_partial.

(** Mapped as 1003, 1001, 1002 the choices are the glyphs 0, 1, 2; of 1001, 1003, 1004, 1005 the
    choices 0 and 1 are the glyphs 0 and 3. The second case of 105 comes after a list of two. *)
Definition turned_ops : list bop := sample_ops ++
  [OMapGroup 103 0 [1003; 1001; 1002]; OMapGroup 104 0 [1001; 1003; 1004; 1005]; OMapWithSwitch 105 0 [[1003; 1001]; [1005; 1004; 1002]] [1; 2]].
Definition chosen (f : Font) (cp : Z) (settings : list Z) (i : Z) : outcome Z :=
  do g <- mapping_Utf8 f cp settings; match g with Some gg => group_Select f gg i | None => Panic end.
Example C43_sorted_example : Forall op_typed turned_ops /\
  last_mapping 7777 sample_date turned_ops 103 = Some (254, [[1003; 1001; 1002]]) /\
  last_mapping 7777 sample_date turned_ops 104 = Some (254, [[1001; 1003; 1004; 1005]]) /\
  last_mapping 7777 sample_date turned_ops 105 = Some (0, [[1003; 1001]; [1005; 1004; 1002]]) /\
  match Build no_order no_sort (history 7777 sample_date turned_ops) with
  | (b', Ok f) => mapping_fits b' f /\ mapping_EvaluateSwitch f 0 [1; 0] = Ok 1 /\
      map (chosen f 103 [0; 0]) [0; 1; 2] = [Ok 0; Ok 1; Ok 2] /\ map (chosen f 104 [0; 0]) [0; 1] = [Ok 0; Ok 3] /\
      map (chosen f 105 [1; 0]) [0; 1] = [Ok 1; Ok 4]
  | _ => False end.
Proof. split; [apply all_typed; vm_compute; reflexivity|]. vm_compute. auto 10. Qed.
Example C43_stepped_example : forall b, b_order b = [1001; 1002; 1003; 1004; 1005] -> stepped_over b [1003; 1001] /\ ~ stepped_over b [1003; 1004].
Proof.
  intros b E. assert (ND : NoDup (b_order b)) by (rewrite E; repeat constructor; cbn; intuition lia). split.
  - right. left. split; [vm_compute; reflexivity|]. intros (first & idxs & A & P).
    assert (F : Forall2 (fun uid i => zget (b_order b) i = Ok uid) [1003; 1001] [2; 0]) by (rewrite E; repeat constructor).
    rewrite (indices_unique _ ND _ _ _ A F) in P. change (map (fun i => first + i) (zseq (zlen [1003; 1001]))) with [first + 0; first + 1] in P.
    pose proof (Permutation_in 2 P ltac:(cbn; lia)) as I1. pose proof (Permutation_in 0 P ltac:(cbn; lia)) as I2. cbn [In] in I1, I2. lia.
  - intros [H|[[_ H]|[H _]]]; [discriminate| |discriminate]. apply H. exists 2, [2; 3]. split; [rewrite E; repeat constructor|reflexivity].
Qed.
