(** Theorems C58 and C59 (rewrite conditions as texts in the builder). [defines t e]: the text [t]
    is the expression [e] by the grammar in the comments of the code. The first argument of
    [compileRewriteCondition] bounds the depth of the recursion; [Hang] for every bound means
    that the recursion never ends. *)
From Verif Require Import Base BaseFacts Spec_Helpers Model_Helpers Model_Words Spec_Layout Proofs_Rewrites Model_Conditions Spec_Conditions
  Proofs_Conditions Proofs_Conditions2.
Ltac splits := repeat match goal with |- _ /\ _ => split end.

(** ** C58

    Full statement: every text of an expression within the limits compiles to the bytes of a
    condition with the same value under all settings, and other texts give an error. False: *)

(** a definition that begins with a parenthesis makes the compiler recurse for ever, *)
Theorem C58_parentheses_refuted : forall fuel s r, spaces s -> zlen (s ++ 40 :: r) <= 1024 ->
  compileRewriteCondition fuel (s ++ 40 :: r) = Hang.
Proof. exact parentheses_hang. Qed.
Print Assumptions C58_parentheses_refuted.
Example C58_parentheses_example : defines (str_bytes "(#1 == 2)") (Term 1 Equal (Constant 2)) /\ expr_ok (Term 1 Equal (Constant 2)) /\
  str_bytes "(#1 == 2)" = [] ++ 40 :: str_bytes "#1 == 2)" /\ spaces [].
Proof.
  split; [|split; [cbn; lia|split; [reflexivity|constructor]]]. exists [], [], (str_bytes "(#1 == 2)"). split; [constructor|]. split; [constructor|]. split; [|reflexivity].
  apply (text_paren false _ (str_bytes "#1 == 2") [] []); [|constructor|constructor]. apply text_term. exists [49], [32], [32], [50].
  split; [split; [discriminate|]; split; [repeat (constructor; [lia|]); constructor|reflexivity]|]. split; [repeat constructor|]. split; [repeat constructor|].
  split; [split; [discriminate|]; split; [repeat (constructor; [lia|]); constructor|reflexivity]|reflexivity].
Qed.
(** no group compiles, *)
Theorem C58_groups_refuted : forall fuel t l data, defines t (Or l) \/ defines t (And l) -> compileRewriteCondition fuel t <> Ok data.
Proof. intros fuel t l data [H|H]; (eapply groups_fail; [exact H|discriminate]). Qed.
Print Assumptions C58_groups_refuted.
Example C58_groups_example : exists t, t = str_bytes "#0 == 1 OR #12 < 7" /\ defines t (Or [Term 0 Equal (Constant 1); Term 12 Less (Constant 7)]) /\
  compileRewriteCondition 100 t = Err "definition expected to end".
Proof.
  eexists. split; [reflexivity|]. split; [|vm_compute; reflexivity]. exists [], [], (str_bytes "#0 == 1 OR #12 < 7"). split; [constructor|]. split; [constructor|]. split; [|reflexivity].
  assert (N : forall d n, d <> [] -> Forall (fun x => 48 <= x <= 57) d -> n = decimal_value d -> numeral d n) by (intros; split; [assumption|split; assumption]).
  apply text_or; [cbn; lia|]. apply (joined_more [79; 82] _ (str_bytes "#0 == 1") _ (str_bytes "#12 < 7") [32] [32]); try discriminate; try (repeat constructor; fail).
  - apply text_term. exists [48], [32], [32], [49]. splits; try reflexivity; try (repeat constructor; fail); apply N; try discriminate; try reflexivity; repeat (constructor; [lia|]); constructor.
  - apply joined_last, text_term. exists [49; 50], [32], [32], [55]. splits; try reflexivity; try (repeat constructor; fail); apply N; try discriminate; try reflexivity; repeat (constructor; [lia|]); constructor.
Qed.
(** every comparison with a setting, with a constant from 32 on, or with [<=] or [>=] compiles to
    bytes that lack the second operand, so that they are not the bytes of any condition, *)
Theorem C58_comparisons_refuted : forall fuel s1 s2 a op b u, spaces s1 -> spaces s2 -> term_text a op b u -> zlen (s1 ++ u ++ s2) <= 1024 ->
  expr_ok (Term a op b) -> ~ quick op b ->
  exists data, compileRewriteCondition (S fuel) (s1 ++ u ++ s2) = Ok data /\ zlen data = 2 /\ forall c, condition_ok 256 c -> data <> condition_bytes c.
Proof.
  intros fuel s1 s2 a op b u H1 H2 Hu Hl Hok Hq. exists (term_code op a b). split; [rewrite (term_compiles fuel s1 s2 a op b u H1 H2 Hu Hl); apply term_outcome_ok; exact Hok|].
  split; [apply code_len|]. intros c Hc. apply others_wrong; assumption.
Qed.
Print Assumptions C58_comparisons_refuted.
Example C58_comparisons_example : term_text 3 AtMost (Constant 7) (str_bytes "#3 <= 7") /\ ~ quick AtMost (Constant 7) /\
  compileRewriteCondition 1 (str_bytes "#3 <= 7") = Ok [84; 3] /\
  compileRewriteCondition 1 (str_bytes " #3==#200 ") = Ok [64; 3] /\ condition_String [64; 3] = Panic.
Proof.
  splits; try (vm_compute; reflexivity); [|intros [H _]; exact H]. exists [51], [32], [32], [55].
  splits; try reflexivity; try (repeat constructor; fail); (split; [discriminate|split; [repeat (constructor; [lia|]); constructor|reflexivity]]).
Qed.
(** and numbers beyond the range of an int make it panic. *)
Theorem C58_numbers_refuted : forall fuel s1 s2 a op b u, spaces s1 -> spaces s2 -> term_text a op b u -> zlen (s1 ++ u ++ s2) <= 1024 ->
  2 ^ 63 <= a \/ (a < 255 /\ exists n, (b = Setting n \/ b = Constant n) /\ 2 ^ 63 <= n) ->
  compileRewriteCondition (S fuel) (s1 ++ u ++ s2) = Panic.
Proof.
  intros fuel s1 s2 a op b u H1 H2 Hu Hl H. rewrite (term_compiles fuel s1 s2 a op b u H1 H2 Hu Hl). unfold term_outcome. destruct H as [H|(H & n & Hb & Hn)].
  - replace (a >? 9223372036854775807) with true by lia. reflexivity.
  - replace (a >? 9223372036854775807) with false by lia. replace (a >? 254) with false by lia.
    assert (E : snd (operand_parts b) = n) by (destruct Hb as [->| ->]; reflexivity). rewrite E. replace (n >? 9223372036854775807) with true by lia. reflexivity.
Qed.
Print Assumptions C58_numbers_refuted.
Example C58_numbers_example : compileRewriteCondition 1 (str_bytes "#9223372036854775808 == 1") = Panic /\
  compileRewriteCondition 1 (str_bytes "#1 == 9223372036854775808") = Panic /\
  compileRewriteCondition 1 (str_bytes "#9223372036854775807 == 1") = Err "setting out of range".
Proof. splits; vm_compute; reflexivity. Qed.

(** True: the other comparisons, those of a setting with a constant below 32 by [==], [!=], [<]
    or [>], compile to the bytes of a condition with the right value, *)
Theorem C58_quick_partial : forall fuel s1 s2 a op k u, spaces s1 -> spaces s2 -> term_text a op (Constant k) u -> zlen (s1 ++ u ++ s2) <= 1024 ->
  a < 255 -> quick_operator op -> k < 32 ->
  exists c, compileRewriteCondition (S fuel) (s1 ++ u ++ s2) = Ok (condition_bytes c) /\ condition_ok 255 c /\
    forall settings, truth settings c = value settings (Term a op (Constant k)).
Proof.
  intros fuel s1 s2 a op k u H1 H2 Hu Hl Ha Hq Hk. destruct (term_nonneg _ _ _ _ Hu) as [Na Nk]. cbn [operand_parts snd] in Nk. exists (CQuick op a k).
  split; [rewrite (term_compiles fuel s1 s2 a op _ u H1 H2 Hu Hl), term_outcome_ok by (cbn; lia); rewrite quick_right by (auto; lia); reflexivity|].
  split; [cbn; auto|]. intros settings. reflexivity.
Qed.
Print Assumptions C58_quick_partial.
Example C58_quick_example : compileRewriteCondition 1 (str_bytes "  #254 != 31 ") = Ok [159; 254] /\ [159; 254] = condition_bytes (CQuick Different 254 31).
Proof. split; vm_compute; reflexivity. Qed.
(** whatever compiles is a single comparison within the limits, *)
Theorem C58_accepted : forall fuel t data, compileRewriteCondition fuel t = Ok data ->
  exists a op b, defines t (Term a op b) /\ expr_ok (Term a op b) /\ zlen data = 2.
Proof.
  intros fuel t data E. destruct (compile_sound _ _ _ E) as (s1 & s2 & a & op & b & u & H1 & H2 & Hu & -> & Hok & ->). exists a, op, b.
  split; [exists s1, s2, u; split; [exact H1|]; split; [exact H2|]; split; [apply text_term; exact Hu|reflexivity]|]. split; [exact Hok|apply code_len].
Qed.
Print Assumptions C58_accepted.
(** and if the result is the bytes of a condition at all, then of one with the value of the text. *)
Theorem C58_meaning_partial : forall fuel t c, condition_ok 256 c -> compileRewriteCondition fuel t = Ok (condition_bytes c) ->
  exists e, defines t e /\ forall settings, truth settings c = value settings e.
Proof.
  intros fuel t c Hc E. destruct (compile_sound _ _ _ E) as (s1 & s2 & a & op & b & u & H1 & H2 & Hu & -> & Hok & Ed). exists (Term a op b).
  split; [exists s1, s2, u; split; [exact H1|]; split; [exact H2|]; split; [apply text_term; exact Hu|reflexivity]|]. intros settings.
  assert (Q : quick op b \/ ~ quick op b).
  { destruct b as [n|n]; [right; intros (_ & k & [=] & _)|]. destruct (Z_lt_le_dec n 32); [|right; intros (_ & k & [= ->] & K); lia]. destruct op; try (right; intros (K & _); exact K); left; (split; [exact I|eauto]). }
  destruct Q as [(Q & k & -> & Hk)|Q]; [|destruct (others_wrong op a b c Hok Q Hc (eq_sym Ed))]. destruct (term_nonneg _ _ _ _ Hu) as [_ Nk]. cbn [operand_parts snd] in Nk.
  rewrite quick_right in Ed by (auto; lia). cbn [condition_bytes] in Ed.
  destruct c as [l|l|op' a' b'|op' a' k'|op' a' k']; cbn [condition_bytes condition_ok] in *.
  - injection Ed as Ed _. destruct op; try contradiction; cbn [quick_code] in Ed; lia.
  - injection Ed as Ed _. destruct op; try contradiction; cbn [quick_code] in Ed; lia.
  - discriminate.
  - discriminate.
  - destruct Hc as (Hq' & _ & Hk'). injection Ed as Ed <-. cbn [truth value operand_value]. assert (op' = op /\ k' = k) as [-> ->]; [|reflexivity].
    destruct op, op'; try contradiction; cbn [quick_code] in Ed; (split; [first [reflexivity|lia]|lia]).
Qed.
Print Assumptions C58_meaning_partial.
(** Texts that begin with neither a parenthesis nor a comparison give an error. *)
Theorem C58_rejected : forall fuel t, (forall s r, spaces s -> t <> s ++ 40 :: r) -> (forall s a op b u r, spaces s -> term_text a op b u -> t <> s ++ u ++ r) ->
  exists msg, compileRewriteCondition (S (S fuel)) t = Err msg.
Proof.
  intros fuel t N1 N2. destruct (Z_lt_le_dec 1024 (zlen t)) as [G|G]; [apply too_long; exact G|].
  destruct (trimmed t) as [K|(s1 & c & s2 & -> & H1 & H2 & Hc)]; [apply spaces_fail; exact K|]. apply compile_nomatch; try assumption.
  - destruct (match_term c) as [m|] eqn:M; [|reflexivity]. destruct (match_term_spec _ _ M) as (a & op & b & u & K1 & K2 & _). exfalso.
    apply (N2 s1 a op b u (mt_rest m ++ s2) H1 K1). rewrite K2, <- app_assoc. reflexivity.
  - intros m ->. apply (N1 s1 (m ++ s2) H1). reflexivity.
Qed.
Print Assumptions C58_rejected.
Example C58_rejected_example : compileRewriteCondition 2 (str_bytes "x == 1") = Err "invalid setting comparison" /\
  compileRewriteCondition 2 (str_bytes "#1 = 1") = Err "invalid setting comparison" /\ compileRewriteCondition 2 (str_bytes "   ") = Err "invalid empty definition".
Proof. splits; vm_compute; reflexivity. Qed.

(** ** C59 *)

(** For every condition (with any number of settings) String gives a text that means it. *)
Theorem C59_string : forall c, condition_ok 256 c ->
  exists t, condition_String (condition_bytes c) = Ok t /\ defines t (expr_of c) /\ forall settings, truth settings c = value settings (expr_of c).
Proof.
  intros c Hc. destruct (string_right c Hc) as (t & E & Ht). exists t. split; [exact E|]. split; [exists [], [], t; splits; [constructor|constructor|exact Ht|rewrite app_nil_r; reflexivity]|].
  intros settings. clear. revert c. apply condition_induction; try reflexivity.
  - intros l H. cbn [truth expr_of value]. induction H as [|x l Hx _ IH]; cbn; [reflexivity|]. rewrite Hx, IH. reflexivity.
  - intros l H. cbn [truth expr_of value]. induction H as [|x l Hx _ IH]; cbn; [reflexivity|]. rewrite Hx, IH. reflexivity.
Qed.
Print Assumptions C59_string.
Example C59_example : let c := COr [CAnd [CQuick Equal 3 1; CSettings AtMost 0 200]; CConst Greater 17 99] in
  condition_ok 256 c /\ condition_String (condition_bytes c) = Ok (str_bytes "(#3 == 1 AND #0 <= #200) OR #17 > 99").
Proof. cbv zeta. split; [cbn; unfold zlen; cbn; unfold byte; splits; try lia; exact I|vm_compute; reflexivity]. Qed.
(** On all other bytes it panics. *)
Theorem C59_others : forall d, bytes d -> (forall c, condition_ok 256 c -> d <> condition_bytes c) -> condition_String d = Panic.
Proof. exact string_panics. Qed.
Print Assumptions C59_others.
Example C59_others_example : condition_String [1; 96; 0] = Panic /\ condition_String [96; 0; 0] = Panic /\ condition_String [] = Panic.
Proof. splits; vm_compute; reflexivity. Qed.
(** Quick comparisons survive printing and compiling. *)
Theorem C59_round_trip : forall fuel op a k, condition_ok 255 (CQuick op a k) ->
  (do t <- condition_String (condition_bytes (CQuick op a k)); compileRewriteCondition (S fuel) t) = Ok (condition_bytes (CQuick op a k)).
Proof. exact quick_round_trip. Qed.
Print Assumptions C59_round_trip.
Example C59_round_trip_example : condition_ok 255 (CQuick Greater 200 31) /\ condition_String (condition_bytes (CQuick Greater 200 31)) = Ok (str_bytes "#200 > 31").
Proof. split; [cbn; lia|vm_compute; reflexivity]. Qed.
