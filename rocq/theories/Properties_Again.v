(** Building again, calls that are refused, and calls that can be exchanged: C78 to C80. *)
From Verif Require Import Base BaseFacts Model_Helpers Model_Names Model_Date Model_Mask Model_Font Model_Words Model_Parse Model_Builder
  Proofs_Builder Sample_Builder Properties_Kept Spec_Again Proofs_Again.

(** ** C78 *)

(** Full statement: calls of Build leave no trace, the fonts built later are those built without
    the earlier calls of Build. False: Build adds a dye to a builder without colors, which takes
    the name main and one color from later calls. *)
Definition late_dye : list bop := sample_glyphs ++ [OBuild no_order no_sort; OAddDye (str_bytes "main") [255; 128]].
Theorem C78_color_refuted : exists ops f f', font_from ops = Ok f /\ font_from (without_builds ops) = Ok f' /\ f <> f' /\
  color_NumDyes f = Ok 1 /\ color_NumDyes f' = Ok 1 /\ color_Count f = Ok 1 /\ color_Count f' = Ok 2.
Proof.
  exists late_dye.
  let B := eval vm_compute in (font_from late_dye) in match B with Ok ?f => exists f end.
  let B := eval vm_compute in (font_from (without_builds late_dye)) in match B with Ok ?f => exists f end.
  split; [vm_compute; reflexivity|]. split; [vm_compute; reflexivity|]. split; [intros E; discriminate E|].
  split; [vm_compute; reflexivity|]. split; [vm_compute; reflexivity|]. split; vm_compute; reflexivity.
Qed.
Print Assumptions C78_color_refuted.

(** A second call directly behind the first one gives the same font or error and changes nothing,
    whatever the builder. *)
Theorem C78_again : forall o sort b, Build o sort (fst (Build o sort b)) = Build o sort b.
Proof. exact build_again. Qed.
Print Assumptions C78_again.

(** A builder with a dye or a palette is not changed, one without gains at most the dye main. *)
Theorem C78_builder : forall o sort b, fst (Build o sort b) = b \/
  (~ colored b /\ agree PGlyphs (fst (Build o sort b)) b /\ (forall p, p <> PColors -> agree p (fst (Build o sort b)) b) /\
   b_dyes (fst (Build o sort b)) = [([109; 97; 105; 110], [255])] /\ b_palettes (fst (Build o sort b)) = []).
Proof.
  intros o sort b. destruct (build_builder o sort b) as [H|(H1 & H2 & H3)]; [left; exact H|right].
  split; [intros [H|H]; congruence|]. rewrite H3. split; [cbn; auto|]. split; [intros p Hp; destruct p; cbn; auto; congruence|].
  split; reflexivity.
Qed.
Print Assumptions C78_builder.

(** If at every call of Build there is a color or none is added later, the font built at the end
    is the one built without the earlier calls. Missing: a builder built without colors and given
    some later, the case of the refutation. *)
Theorem C78_fonts_partial : forall id date ops o sort,
  (forall pre o sort post, ops = pre ++ OBuild o sort :: post -> colored (history id date pre) \/ existsb adds_color post = false) ->
  snd (Build o sort (history id date ops)) = snd (Build o sort (history id date (without_builds ops))).
Proof. exact fonts_same. Qed.
Print Assumptions C78_fonts_partial.
Example C78_example :
  let ops := sample_glyphs ++ [OBuild no_order no_sort; OMap 65 1001; OBuild no_order no_sort; OMap 66 1002] in
  is_ok (font_from ops) = true /\ font_from ops = font_from (without_builds ops) /\ zlen (without_builds ops) = zlen ops - 2 /\
  b_dyes (history 7777 sample_date ops) <> b_dyes (history 7777 sample_date (without_builds ops)).
Proof. split; [vm_compute; reflexivity|]. split; [vm_compute; reflexivity|]. split; [vm_compute; reflexivity|vm_compute; discriminate]. Qed.

(** ** C79 *)

(** Full statement: a call that gives an error, panics or finds nothing to remove changes nothing.
    False for Build, which can fail after it has added a dye. *)
Theorem C79_build_refuted : exists id date ops o sort, let b := history id date ops in
  refused b (OBuild o sort) = true /\ bstep b (OBuild o sort) <> b.
Proof.
  exists 7777, sample_date, (sample_glyphs ++ [OSetKerningPair 1001 99 5]), no_order, no_sort.
  split; [vm_compute; reflexivity|]. intros E. apply (f_equal b_dyes) in E. revert E. vm_compute. discriminate.
Qed.
Print Assumptions C79_build_refuted.

(** All other calls, and Build if there is a color. *)
Theorem C79_partial : forall b op, refused b op = true -> (is_build op = true -> colored b) -> bstep b op = b.
Proof.
  intros b op HR HC. destruct (is_build op) eqn:E; [|apply refused_same; assumption].
  destruct op; try discriminate E. cbn [bstep]. apply build_colored. auto.
Qed.
Print Assumptions C79_partial.
Example C79_example : let b := history 7777 sample_date sample_glyphs in
  refused b (OMap 10 1001) = true /\ refused b (OAddGlyphRewriteRule 200 100 0 [] []) = true /\ refused b (ORemoveGlyphSet 5) = true /\
  refused b (OCreateRuneSet [5]) = true /\ refused b (OMap 65 1001) = false /\ bstep b (OMap 65 1001) <> b.
Proof.
  split; [vm_compute; reflexivity|]. split; [vm_compute; reflexivity|]. split; [vm_compute; reflexivity|]. split; [vm_compute; reflexivity|].
  split; [vm_compute; reflexivity|]. intros E. apply (f_equal b_mapping) in E. revert E. vm_compute. discriminate.
Qed.

(** ** C80 *)

(** A call changes nothing but the part it is about. *)
Theorem C80_part : forall b op p, p <> part_of op -> agree p (bstep b op) b.
Proof. exact frame'. Qed.
Print Assumptions C80_part.

(** What it makes of this part and whether it is refused depend on this part and on those it
    looks at. *)
Theorem C80_local : forall b b' op, is_build op = false ->
  (forall p, p = part_of op \/ looks_at op p = true -> agree p b b') ->
  agree (part_of op) (bstep b op) (bstep b' op) /\ refused b op = refused b' op.
Proof. exact local. Qed.
Print Assumptions C80_local.

(** Neighbouring calls about different parts can be exchanged, unless one looks at the part of the
    other; they are refused in the one order exactly if they are in the other. *)
Theorem C80_exchange : forall id date pre x y post, apart x y = true ->
  history id date (pre ++ x :: y :: post) = history id date (pre ++ y :: x :: post) /\
  refused (history id date (pre ++ [x])) y = refused (history id date pre) y.
Proof.
  intros id date pre x y post H. split; [apply exchange_history; exact H|].
  unfold history. rewrite fold_left_app. cbn [fold_left]. apply local_behind. exact H.
Qed.
Print Assumptions C80_exchange.
Example C80_example :
  apart (OSetName (str_bytes "x")) (OSetKerningPair 1 2 3) = true /\ apart (OMap 65 1001) (OAddDye [] [1]) = true /\
  apart (OMap 65 1001) (OAddGlyph (mkAlpha [] 0 (mkRect 0 0 0 0)) [7]) = false /\
  history 7777 sample_date (sample_glyphs ++ [OMap 65 1001; OAddDye [] [1]]) = history 7777 sample_date (sample_glyphs ++ [OAddDye [] [1]; OMap 65 1001]).
Proof. split; [reflexivity|]. split; [reflexivity|]. split; [reflexivity|]. vm_compute. reflexivity. Qed.
