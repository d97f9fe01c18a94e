(** Which bytes the lookup of mapped code points with a switch leads to in built fonts, for any groups: C43. *)
From Coq Require Import Permutation.
From Verif Require Import Base BaseFacts Spec_Helpers Model_Helpers Model_Names Model_Date Model_Mask Spec_Mask Model_Words Model_Font
  Model_Builder Spec_Builder Spec_Survive Proofs_Builder Sample_Builder Proofs_Typed Proofs_Order Proofs_Font3 Proofs_Font4 Proofs_Survive.
From Verif Require Import Spec_Format Spec_Layout Spec_Choices Proofs_Choices Properties_Choices Spec_Walk Spec_Steps Proofs_Steps.

(** ** C43 *)
(** Full statement: a mapped code point gives the glyphs it was mapped to. With a switch, for any groups: the groups are stored
    one after the other as [stored_as] says, the lookup walks over their bytes by [pace] and leads to the bytes left after as
    many steps as the number of the case, and it panics exactly if the walk would leave them. *)
Theorem C43_walk_partial : forall id date ops o sort b' f cp settings k groups case,
  date_typed date -> Forall op_typed ops -> perm_order o -> (forall l, Permutation l (sort l)) ->
  Build o sort (history id date ops) = (b', Ok f) -> mapping_fits b' f ->
  last_mapping id date ops cp = Some (k, groups) -> k < 254 -> groups <> [] -> mapping_EvaluateSwitch f k settings = Ok case ->
  exists gs, Forall2 (stored_as b') groups gs /\
    match walk (Z.to_nat case) (concat (map group_bytes gs)) with
    | Some r => exists gg, mapping_Utf8 f cp settings = Ok (Some gg) /\ gg_directMapping gg = false /\ gg_switchType gg = k /\ gg_caseBranch gg = case /\
        r <> [] /\ stored (Data f) (gg_offset gg) r
    | None => mapping_Utf8 f cp settings = Panic
    end.
Proof. exact walk_survives. Qed.
Print Assumptions C43_walk_partial.

(** A range of two glyphs and a list of two: the second case is read two bytes too late. Ranges of four glyphs and of two: a panic. *)
Definition stepping_ops : list bop := sample_ops ++
  [OMapWithSwitch 106 0 [[1001; 1002]; [1003; 1005]] [1; 2]; OMapWithSwitch 107 0 [[1001; 1002; 1003; 1004]; [1001; 1002]] [1; 2]].
Example C43_walk_example : Forall op_typed stepping_ops /\
  last_mapping 7777 sample_date stepping_ops 106 = Some (0, [[1001; 1002]; [1003; 1005]]) /\
  last_mapping 7777 sample_date stepping_ops 107 = Some (0, [[1001; 1002; 1003; 1004]; [1001; 1002]]) /\
  match Build no_order no_sort (history 7777 sample_date stepping_ops) with
  | (b', Ok f) => mapping_fits b' f /\ mapping_EvaluateSwitch f 0 [1; 0] = Ok 1 /\
      walk 1 (concat (map group_bytes [GRange 1 0 2; GList 2 [2; 4]])) = Some [2; 0; 4; 0] /\
      match mapping_Utf8 f 106 [1; 0] with Ok (Some gg) => firstn 4 (skipn (Z.to_nat (gg_offset gg)) (Data f)) = [2; 0; 4; 0] | _ => False end /\
      walk 1 (concat (map group_bytes [GRange 1 0 4; GRange 2 0 2])) = None /\ mapping_Utf8 f 107 [1; 0] = Panic
  | _ => False end.
Proof. split; [apply all_typed; vm_compute; reflexivity|]. vm_compute. auto 12. Qed.
