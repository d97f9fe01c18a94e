(** Theorems C36 (continued): exactly what comes out of the evaluation of rewrite conditions. *)
From Verif Require Import Base BaseFacts Spec_Helpers Model_Helpers Model_Font Model_Rewrites
  Spec_Format Spec_Layout Spec_LayoutFont Sample Spec_Evaluate Proofs_Format Proofs_Layout Proofs_Rewrites Proofs_Evaluate.

(** For every sequence of well-formed conditions in the data, with room behind it, the evaluator
    at its start returns [v] and a position inside the sequence if and only if [evaluated] says so.
    [evaluated] (Spec_Evaluate.v) differs from [truth] in that the longer comparisons take the
    number of a setting for its value, and that a group decided by one of its terms swallows the
    condition that follows the group. Missing to the full statement: exactly these. *)
Theorem C36_exact_partial : forall d settings maxIndex l fuel i v j,
  zlen settings <= 255 -> Forall (condition_ok (zlen settings)) l -> stored d i (all_bytes l) ->
  i + zlen (all_bytes l) <= maxIndex -> maxIndex - i + 1 < Z.of_nat fuel ->
  evalConditionSubexpr fuel d settings maxIndex i = Ok (j, v) /\ j <= i + zlen (all_bytes l) <->
  exists rest, evaluated settings l v rest /\ j = i + zlen (all_bytes l) - zlen (all_bytes rest).
Proof. intros. now apply eval_exact. Qed.
Print Assumptions C36_exact_partial.

(** The conditions of a table are not evaluated by the entry point at all: if they take less than
    256 bytes, those with even numbers make it panic, and so do those with odd numbers 2m + 1
    unless the evaluation of number m + 1 (sic) leaves the table. *)
Theorem C36_small_tables_refuted : forall f settings cs key,
  stored (Data f) (OffsetToRewriteConditions f) (conditions_bytes cs) -> zlen (all_bytes cs) < 256 ->
  Forall (condition_ok (zlen settings)) cs -> zlen settings <= 255 -> 0 <= key ->
  (Z.odd key = true -> exists v rest, evaluated settings (skipn (Z.to_nat ((key + 1) / 2)) cs) v rest) ->
  rewrites_EvaluateCondition f key settings = Panic.
Proof. exact small_panics. Qed.
Print Assumptions C36_small_tables_refuted.

(** An AND of an OR decided by its first term and two more terms: the OR swallows the second term
    of the AND, whose number of terms then reaches beyond its end, evaluates the condition behind
    it, and skips one more. The AND is true, the code says false. *)
Example C36_exact_ex :
  let s := [2; 5] in
  let c := CAnd [COr [CQuick Less 0 3; CQuick Equal 1 6]; CQuick Equal 0 2; CQuick Equal 1 5] in
  let l := [c; CQuick Equal 0 7; CSettings Greater 1 0] in
  Forall (condition_ok (zlen s)) l /\ truth (value_of s) c = true /\
  evalConditionSubexpr 40 (9 :: all_bytes l ++ [1]) s 16 1 = Ok (16, false) /\ zlen (all_bytes l) = 15 /\
  (exists rest, evaluated s (skipn 1 l) false rest) /\ evaluated s (skipn 2 l) false [].
Proof.
  cbv zeta. split; [repeat (apply Forall_cons; [cbn; unfold zlen, byte; cbn; lia|]); apply Forall_nil|].
  split; [reflexivity|]. split; [vm_compute; reflexivity|]. split; [reflexivity|].
  split; [exists [CSettings Greater 1 0]; exact (Ev_quick [2; 5] Equal 0 7 [CSettings Greater 1 0])|exact (Ev_settings [2; 5] Greater 1 0 [])].
Qed.
(** and a font whose conditions are found by none of their numbers *)
Example C36_small_tables_ex :
  let f := font_of sample in let s := [2; 1] in
  zlen (all_bytes (l_conditions sample)) < 256 /\ Forall (condition_ok (zlen s)) (l_conditions sample) /\ 1 < zlen (l_conditions sample) /\
  map (fun k => rewrites_EvaluateCondition f k s) (zseq (zlen (l_conditions sample))) = map (fun _ => Panic) (zseq (zlen (l_conditions sample))).
Proof.
  cbv zeta. split; [vm_compute; reflexivity|]. split; [repeat (apply Forall_cons; [cbn; unfold zlen, byte; cbn; lia|]); apply Forall_nil|].
  split; vm_compute; reflexivity.
Qed.
