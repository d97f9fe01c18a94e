(** Which bytes the lookup of a code point with a switch leads to, for any cases: C29. *)
From Verif Require Import Base Spec_Helpers Model_Helpers Model_Font Model_Rewrites Spec_Format Spec_Layout Spec_LayoutFont Sample
  Proofs_Layout Proofs_Format Spec_Walk Proofs_Walk Properties_Outputs.

(** ** C29 *)
(** Full statement: the group of the selected case is found. What is found for any cases, any number of which may be skipped
    wrongly: the lookup walks over the bytes of the cases by [pace], leads to the bytes left after as many steps as the number
    of the selected case, and panics exactly if it would leave the entry. *)
Theorem C29_walk_partial : forall f l cp k cases settings case,
  stored (Data f) (OffsetToMapping f) (mapping_bytes l) -> ordered Z.lt (map fst l) ->
  Forall (fun x => 0 <= fst x < 2147483648) l -> zlen l < 65536 ->
  zlen (concat (map (fun x => entry_bytes (snd x)) l)) < 16777216 -> bytes (concat (map group_bytes cases)) ->
  In (cp, ESwitch k cases) l -> 0 <= k < 254 -> cases <> [] -> mapping_EvaluateSwitch f k settings = Ok case ->
  match walk (Z.to_nat case) (concat (map group_bytes cases)) with
  | Some r => exists gg, mapping_Utf8 f cp settings = Ok (Some gg) /\ gg_directMapping gg = false /\ gg_switchType gg = k /\ gg_caseBranch gg = case /\
      r <> [] /\ stored (Data f) (gg_offset gg) r
  | None => mapping_Utf8 f cp settings = Panic
  end.
Proof. intros f l cp k cases settings case H1 H2 H3 H4 H5 H6 H7 H8 H9. exact (lookup_walk f l H1 H2 H3 H4 H5 cp k cases settings case H7 H8 H9 H6). Qed.
Print Assumptions C29_walk_partial.
(** A list of three glyphs, a range of two and one glyph: after the range the walk is two bytes too far, inside the last case.
    With three ranges of two it leaves the entry at the second step. *)
Example C29_walk_example :
  (let cases := [GList 5 [1; 2; 3]; GRange 0 7 2; GList 0 [258]] in let f := font_of (with_switch cases) in
   mapping_EvaluateSwitch f 0 [2] = Ok 2 /\ walk 2 (concat (map group_bytes cases)) = Some [1] /\
   exists gg, mapping_Utf8 f 120 [2] = Ok (Some gg) /\ stored (Data f) (gg_offset gg) [1]) /\
  (let cases := [GRange 0 7 2; GRange 0 7 2; GRange 0 7 2] in let f := font_of (with_switch cases) in
   mapping_EvaluateSwitch f 0 [1] = Ok 1 /\ walk 1 (concat (map group_bytes cases)) <> None /\
   walk 2 (concat (map group_bytes cases)) = None /\ mapping_Utf8 f 120 [2] = Panic).
Proof.
  split; cbv zeta.
  - split; [vm_compute; reflexivity|]. split; [vm_compute; reflexivity|]. eexists. split; [vm_compute; reflexivity|].
    match goal with |- stored ?d (gg_offset ?g) ?r => let n := eval vm_compute in (gg_offset g) in
      let dd := eval vm_compute in d in change (stored dd n r); exists (firstn (Z.to_nat n) dd), (skipn (Z.to_nat (n + 1)) dd) end.
    split; vm_compute; reflexivity.
  - split; [vm_compute; reflexivity|]. split; [vm_compute; discriminate|]. split; vm_compute; reflexivity.
Qed.
