(** Proofs about the rewrite testers with rules that may have sets which are ranges, and tails:
    rules as bytes, and consequences. *)
From Verif Require Import Base BaseFacts Model_Helpers Spec_Helpers Spec_Layout Model_Font Model_Rewrites Proofs_Rewrites Model_Scanner Spec_Scanner Proofs_Scanner2 Proofs_Scanner3
  Model_CircularBuffer Model_Tree Spec_Tree Spec_TreeSets Proofs_Tree Proofs_Tree2 Proofs_Tree3 Proofs_Tree4 Proofs_Tree5 Model_Tester Spec_Tester Spec_Session Spec_TesterRules
  Proofs_Tester Proofs_Tester2 Proofs_Tester3 Proofs_Tester4 Proofs_Tester5 Proofs_Tester6 Spec_TesterSets Proofs_Tester7 Proofs_Tester8 Proofs_Tester9 Proofs_Tester10 Proofs_Tester11.

(** ** Bytes *)
Lemma stood {AB : alphabet} k sets (pat : element -> Z -> Prop) es : (forall e, In e es -> exists a, stands k sets e a /\ agrees a (pat e)) ->
  exists ns, Forall2 (stands k sets) es ns /\ Forall2 agrees ns (map pat es).
Proof.
  induction es as [|e es IH]; intros H; [exists []; split; constructor|]. destruct (H e (or_introl eq_refl)) as (a & H1 & H2). destruct IH as (ns & H3 & H4); [intros e' He; apply H; right; exact He|].
  exists (a :: ns). cbn [map]. split; constructor; assumption.
Qed.
Lemma encoded {AB : alphabet} tk w dec sets pat t q : q_encodes (tk_kind tk) w dec pat t q -> scan (tk_kind tk) (rule_bytes w t) = Ok (rule_elements dec t) ->
  (forall y, rule_out t = [y] -> tk_out tk (rule_bytes w t) = Ok [dec y]) ->
  (forall e, In e (rule_elements dec t) -> exists a, stands (tk_kind tk) sets e a /\ agrees a (pat e)) ->
  exists n, lettered_rule tk sets (rule_bytes w t) n /\ agree n q.
Proof.
  intros (S & Hc & Eh & Eb & Et & y & Hy & Ho) Hs Hout He. unfold rule_elements in He.
  destruct (stood (tk_kind tk) sets pat (block_elements dec (rule_head t))) as (nh & H1 & H2); [intros e Hin; apply He; apply in_or_app; left; exact Hin|].
  destruct (stood (tk_kind tk) sets pat (block_elements dec (rule_body t))) as (nb & H3 & H4); [intros e Hin; apply He; apply in_or_app; right; apply in_or_app; left; exact Hin|].
  destruct (stood (tk_kind tk) sets pat (block_elements dec (rule_tail t))) as (nt & H5 & H6); [intros e Hin; apply He; apply in_or_app; right; apply in_or_app; right; exact Hin|].
  destruct (rule_fields w t) as (R1 & R2 & R3 & R4 & _). exists (mkN (q_cond q) nh nb nt (q_out q)). split.
  - unfold lettered_rule. cbn [n_cond n_head n_body n_tail n_out]. rewrite R1, R2, R3, R4, Hc, Ho. split; [exact (rule_bytes_ok _ _ _ _ S)|]. split; [reflexivity|].
    rewrite <- !(block_elements_len dec), (F2_zlen' _ _ _ H1), (F2_zlen' _ _ _ H3), (F2_zlen' _ _ _ H5). do 3 (split; [reflexivity|]). split; [exact (Hout y Hy)|].
    exists (rule_elements dec t). split; [exact Hs|]. unfold rule_elements, n_pattern. cbn [n_head n_body n_tail]. apply Forall2_app; [exact H1|]. apply Forall2_app; assumption.
  - unfold agree. cbn [n_cond n_head n_body n_tail n_out]. rewrite Eh, Eb, Et. auto 6.
Qed.

Section Ranges.
  Variables (f : Font) (R : list (Z * Z)).
  Hypotheses (Hap : apart R) (Hle : forall r, In r R -> fst r <= snd r).
  Lemma glyph_lettered d q : glyph_rule_in f R d q -> exists n, @lettered_rule (ranges_alphabet R Hap Hle) glyph_tester (glyph_sets f) d n /\ @agree (ranges_alphabet R Hap Hle) n q.
  Proof.
    intros (t & -> & E & He). pose proof E as (S & _). pose proof (rule_bytes_ok _ _ _ _ S) as Hb. pose proof (read_glyph _ S) as Hs.
    apply (@encoded (ranges_alphabet R Hap Hle) glyph_tester 2 (fun x => x) (glyph_sets f) (element_pattern f) t q E Hs).
    - intros y Ho. pose proof (sr_outputs _ _ _ _ S) as Hout. change (256 ^ Z.of_nat 2) with 65536 in Hout. cbn [tk_out glyph_tester]. rewrite (glyph_outs t Hout), Ho. reflexivity.
    - intros e Hin. pose proof (proj1 (Forall_forall _ _) He e Hin) as (r & Hr & Hg). exists (fst r).
      pose proof (glyph_range_covers f e r Hg (fun x Ex => glyph_succ _ _ x Hb Hs (eq_ind e (fun e => In e _) Hin _ Ex))) as (C1 & C2 & C3 & C4). split.
      + unfold stands. cbn [letter hi ranges_alphabet]. rewrite (range_hi_in R Hap Hle r Hr). split; [apply in_map; exact Hr|]. split; [exact C2|].
        destruct e as [s|x]; [|subst r; auto]. destruct C4 as [C4 C5]. split; [exact C4|]. intros each c. rewrite C5. destruct r. reflexivity.
      + intros x. rewrite C3. cbn [name ranges_alphabet]. split; [exact (range_name_in R Hap Hle r x Hr)|]. intros Ex.
        assert (Hx : range_letter R (range_name R x)) by (rewrite Ex; apply in_map; exact Hr). pose proof (ranges_name_out R Hap Hle x Hx) as G. rewrite Ex, (range_hi_in R Hap Hle r Hr) in G. exact G.
  Qed.
End Ranges.
Lemma utf8_lettered f d q : utf8_rule_in f d q -> exists n, @lettered_rule elements utf8_tester (utf8_sets f) d n /\ @agree elements n q.
Proof.
  intros (t & -> & E & He). pose proof E as (S & _). pose proof (read_utf8 _ S) as Hs.
  apply (@encoded elements utf8_tester 4 i32 (utf8_sets f) (rune_pattern f) t q E Hs).
  - intros y Ho. pose proof (sr_outputs _ _ _ _ S) as Hout. change (256 ^ Z.of_nat 4) with (2 ^ 32) in Hout. rewrite Ho in Hout. exact (utf8_outs_one t y Ho (Forall_inv Hout)).
  - intros e Hin. pose proof (proj1 (Forall_forall _ _) He e Hin) as (Hm & y & Hy). exists y.
    assert (Hsucc : forall x, e = Single x -> x < k_succ utf8_kind x) by (intros x ->; apply (utf8_succ _ _ x Hs Hin); intros ->; apply Hm; reflexivity).
    pose proof (rune_covers f e y Hy Hsucc) as (C1 & C2 & C3 & C4). cbn [fst snd] in *. split.
    + unfold stands. cbn [letter hi elements]. split; [exact I|]. split; [exact C2|]. destruct e as [s|x]; [exact C4|]. injection C4 as ->. auto.
    + intros x. rewrite C3. cbn [name elements]. lia.
Qed.

(** ** Rewriting is determined *)
Lemma q_choice_unique rules input m m' : q_by_condition rules input m -> q_by_condition rules input m' -> m = m'.
Proof. intros [(c & H1) H2] [(c' & H1') H2']. specialize (H2 c' m' H1'). specialize (H2' c m H1). lia. Qed.
Lemma app_same_length {A} (a b : list A) : forall c d, length a = length b -> a ++ c = b ++ d -> a = b /\ c = d.
Proof.
  revert b. induction a as [|x a IH]; intros [|y b] c d Hl E; cbn in *; try discriminate; [auto|]. injection E as <- E. injection Hl as Hl. destruct (IH _ _ _ Hl E) as [-> ->]. auto.
Qed.
Lemma q_rewriting_unique rules : zlen rules <= 254 -> Forall (fun r => q_pattern r <> []) rules ->
  forall w o, q_rewriting (q_by_condition rules) rules w o -> forall o', q_rewriting (q_by_condition rules) rules w o' -> o = o'.
Proof.
  intros Hm Hne. assert (Hp : forall m r h b t rest, nth_error rules m = Some r -> elements_of (q_head r) h -> elements_of (q_body r) b -> elements_of (q_tail r) t -> h ++ b ++ t ++ rest <> []).
  { intros m r h b t rest H A1 A2 A3 E. apply (proj1 (Forall_forall _ _) Hne r (nth_error_In _ _ H)). unfold q_pattern. apply app_eq_nil in E. destruct E as [-> E]. apply app_eq_nil in E. destruct E as [-> E].
    apply app_eq_nil in E. destruct E as [-> _]. inversion A1. inversion A2. inversion A3. reflexivity. }
  assert (Hr : forall m (r : srule), nth_error rules m = Some r -> Z.of_nat m <> 255).
  { intros m r H. assert (m < length rules)%nat by (apply nth_error_Some; congruence). unfold zlen in Hm. lia. }
  induction 1 as [|x rest out Hc Hw IH|m r h b t rest out Hn A1 A2 A3 Hc Hw IH]; intros o' H'.
  - inversion H' as [E|x r o Hc' Hr' E|m r h b t rest out Hn A1 A2 A3 Hc Hw E]; [reflexivity|]. exfalso. exact (Hp _ _ _ _ _ _ Hn A1 A2 A3 E).
  - inversion H' as [E|x' r' o Hc' Hr' E|m r h b t rest' o Hn A1 A2 A3 Hc' Hr' E]; subst; [f_equal; apply IH; exact Hr'|]. exfalso. rewrite E in Hc'. apply (Hr _ _ Hn). symmetry. exact (q_choice_unique _ _ _ _ Hc Hc').
  - inversion H' as [E|x' r' o Hc' Hr' E|m' r' h' b' t' rest' o Hn' B1 B2 B3 Hc' Hr' E].
    + exfalso. symmetry in E. exact (Hp _ _ _ _ _ _ Hn A1 A2 A3 E).
    + exfalso. rewrite E in Hc'. apply (Hr _ _ Hn). exact (q_choice_unique _ _ _ _ Hc Hc').
    + rewrite E in Hc'. pose proof (q_choice_unique _ _ _ _ Hc Hc') as U. assert (m' = m) by lia. subst m'. rewrite Hn in Hn'. injection Hn' as <-.
      unfold elements_of in *. apply app_same_length in E; [|rewrite <- (F2_length _ _ _ B1), <- (F2_length _ _ _ A1); reflexivity]. destruct E as [-> E].
      apply app_same_length in E; [|rewrite <- (F2_length _ _ _ B2), <- (F2_length _ _ _ A2); reflexivity]. destruct E as [-> E].
      apply app_same_length in E; [|rewrite <- (F2_length _ _ _ B3), <- (F2_length _ _ _ A3); reflexivity]. destruct E as [-> ->]. do 3 f_equal. apply IH. exact Hr'.
Qed.

(** ** One condition *)
Lemma q_numbered_bound from rules e : In e (q_numbered from rules) -> from <= snd e < from + zlen rules.
Proof.
  revert from. induction rules as [|r rules IH]; intros from; [intros []|]. cbn [q_numbered]. rewrite zlen_cons. pose proof (zlen_nonneg rules). intros [<-|Hin]; [cbn; lia|]. specialize (IH _ Hin). lia.
Qed.
Lemma q_group_range c rules xs i : zlen rules <= 254 -> In (xs, i) (q_group c rules) -> 0 <= i < 255.
Proof.
  intros Hm Hin. unfold q_group, q_patterns in Hin. apply in_map_iff in Hin. destruct Hin as (e & [= _ <-] & Hin). apply filter_In in Hin. pose proof (q_numbered_bound _ _ _ (proj1 Hin)). lia.
Qed.
Lemma q_group_all c rules : Forall (fun r => q_cond r = c) rules -> q_group c rules = q_all rules.
Proof.
  intros H. unfold q_group, q_all. f_equal. generalize 0. induction H as [|r rules Hr _ IH]; intros from; [reflexivity|]. cbn [q_numbered filter fst]. rewrite Hr, Z.eqb_refl, IH. reflexivity.
Qed.
Lemma q_group_none c c' rules : Forall (fun r => q_cond r = c) rules -> c' <> c -> q_group c' rules = [].
Proof.
  intros H Hc. unfold q_group. generalize 0. induction H as [|r rules Hr _ IH]; intros from; [reflexivity|]. cbn [q_numbered filter fst]. replace (q_cond r =? c') with false by lia. apply IH.
Qed.
Lemma best_some {A} (ok : list A -> Prop) P : (forall xs r, In (xs, r) P -> ok xs \/ ~ ok xs) -> exists m, best ok P m.
Proof.
  induction P as [|[xs r] P IH]; intros Hdec; [exists 255; left; split; [reflexivity|intros ? ? []]|]. destruct IH as (m & IH); [intros ys i Hin; apply (Hdec ys i); right; exact Hin|].
  destruct (Hdec xs r (or_introl eq_refl)) as [Hp|Hp].
  - destruct IH as [[-> H]|(a & ys & b & E & H1 & H2 & H3)].
    + exists r. right. exists [], xs, P. split; [reflexivity|]. split; [exact Hp|]. split; [|intros ? ? []]. intros ys r' [[= <- <-]|Hin] Hy; [lia|exfalso; exact (H _ _ Hin Hy)].
    + destruct (Nat.le_gt_cases (length ys) (length xs)) as [Hl|Hl].
      * exists r. right. exists [], xs, P. split; [reflexivity|]. split; [exact Hp|]. split; [|intros ? ? []]. intros zs r' [[= <- <-]|Hin] Hz; [lia|]. specialize (H2 _ _ Hin Hz). lia.
      * exists m. right. exists ((xs, r) :: a), ys, b. split; [rewrite E; reflexivity|]. split; [exact H1|]. split.
        -- intros zs r' [[= <- <-]|Hin] Hz; [lia|exact (H2 _ _ Hin Hz)].
        -- intros zs r' [[= <- <-]|Hin] Hz; [lia|exact (H3 _ _ Hin Hz)].
  - exists m. destruct IH as [[-> H]|(a & ys & b & E & H1 & H2 & H3)].
    + left. split; [reflexivity|]. intros zs r' [[= <- <-]|Hin]; [exact Hp|exact (H _ _ Hin)].
    + right. exists ((xs, r) :: a), ys, b. split; [rewrite E; reflexivity|]. split; [exact H1|]. split.
      * intros zs r' [[= <- <-]|Hin] Hz; [contradiction|exact (H2 _ _ Hin Hz)].
      * intros zs r' [[= <- <-]|Hin] Hz; [contradiction|exact (H3 _ _ Hin Hz)].
Qed.
(** sets of which it can be told what they contain *)
Definition decided (r : srule) : Prop := Forall (fun q => forall x, q x \/ ~ q x) (q_pattern r).
Lemma fits_dec qs : Forall (fun q => forall x, q x \/ ~ q x) qs -> forall w, Spec_Tree.fits qs w \/ ~ Spec_Tree.fits qs w.
Proof.
  induction 1 as [|q qs Hq _ IH]; intros w; [left; exists [], w; split; [reflexivity|constructor]|]. destruct w as [|x w].
  - right. intros (pre & rest & E & HF). symmetry in E. apply app_eq_nil in E. destruct E as [-> _]. inversion HF.
  - destruct (Hq x) as [Hx|Hx], (IH w) as [Hw|Hw]; [left|right|right|right].
    + destruct Hw as (pre & rest & -> & HF). exists (x :: pre), rest. split; [reflexivity|constructor; assumption].
    + intros (pre & rest & E & HF). inversion HF; subst. injection E as -> E. apply Hw. exists l', rest. auto.
    + intros (pre & rest & E & HF). inversion HF; subst. injection E as -> E. contradiction.
    + intros (pre & rest & E & HF). inversion HF; subst. injection E as -> E. contradiction.
Qed.
Lemma q_one_condition c rules input m : Forall (fun r => q_cond r = c) rules -> Forall decided rules -> zlen rules <= 254 -> q_by_condition rules input m -> q_longest rules input m.
Proof.
  intros H Hd Hm [(c' & H1) H2]. unfold q_longest. rewrite <- (q_group_all c rules H). destruct (Z.eq_dec c' c) as [->|N]; [exact H1|].
  rewrite (q_group_none c c' rules H N) in H1. assert (m = 255) by (destruct H1 as [[-> _]|([|? ?] & ? & ? & E & _)]; [reflexivity|discriminate|discriminate]). subst m.
  destruct (best_some (fun q => Spec_Tree.fits q input) (q_group c rules)) as (m & Hb).
  { intros xs i Hin. apply fits_dec. unfold q_group, q_patterns in Hin. apply in_map_iff in Hin. destruct Hin as (e & [= <- _] & Hin). apply filter_In in Hin. destruct Hin as [Hin _].
    assert (In (fst e) rules). { clear - Hin. revert Hin. generalize 0. induction rules as [|r rules IH]; intros from; [intros []|]. cbn [q_numbered]. intros [<-|Hin]; [left; reflexivity|right; exact (IH _ Hin)]. }
    exact (proj1 (Forall_forall _ _) Hd _ H0). }
  specialize (H2 c m Hb). assert (R : m <= 255). { destruct Hb as [[-> _]|(a & xs & b & E & _)]; [lia|]. pose proof (q_group_range c rules xs m Hm ltac:(rewrite E; apply in_elt)). lia. }
  assert (m = 255) by lia. subst m. exact Hb.
Qed.
Lemma q_rewriting_weaken (P Q : list Z -> Z -> Prop) rules w o : (forall i m, P i m -> Q i m) -> q_rewriting P rules w o -> q_rewriting Q rules w o.
Proof. intros H. induction 1; econstructor; eauto. Qed.

(** ** What holds of all rules in force *)
Section Invariant.
  Variables (rule_of : list Z -> srule -> Prop) (X : srule -> Prop).
  Hypothesis HX : forall d r, rule_of d r -> X r.
  Definition q_sound (s : session srule) : Prop := zlen (s_rules s) <= 254 /\ Forall (fun e => X (snd e)) (s_rules s).
  Lemma q_sound_next s j : q_sound s -> legal rule_of s j -> q_sound (next s j).
  Proof.
    intros [H1 H2] L. assert (Hc : q_sound (compiled s)) by (unfold compiled; destruct (s_pending s); split; assumption). destruct j; cbn [next]; try exact Hc; try (split; assumption).
    - destruct (Z.ltb_spec (zlen (s_rules s)) 254); [|split; assumption]. split; cbn [s_rules]; [rewrite zlen_app, zlen_cons, zlen_nil; lia|].
      apply Forall_app. split; [exact H2|]. constructor; [exact (HX d r L)|constructor].
    - destruct (without d (s_rules s)) as [l|] eqn:E; [|split; assumption]. destruct (without_in _ _ _ E) as (e & _ & _ & Hl & Hs). split; cbn [s_rules]; [lia|].
      apply Forall_forall. intros x Hx. exact (proj1 (Forall_forall _ _) H2 x (Hs _ Hx)).
    - split; [cbn [s_rules]; rewrite zlen_nil; lia|constructor].
  Qed.
  Lemma q_expected_sound : forall js s, q_sound s -> all_legal rule_of s js -> Forall (fun e => zlen (fst e) <= 254 /\ Forall X (fst e)) (expected s js).
  Proof.
    induction js as [|j js IH]; intros s Hs L; [constructor|]. destruct L as [L1 L2]. pose proof (IH _ (q_sound_next s j Hs L1) L2) as G.
    destruct j; cbn [expected]; try exact G. constructor; [|exact G]. destruct Hs as [H1 H2]. cbn [fst]. rewrite BaseFacts.zlen_map. split; [exact H1|]. apply Forall_map. exact H2.
  Qed.
  Lemma q_compilations_sound : forall js s, q_sound s -> all_legal rule_of s js -> Forall (Forall X) (compilations s js).
  Proof.
    induction js as [|j js IH]; intros s Hs L; [constructor|]. destruct L as [L1 L2]. pose proof (IH _ (q_sound_next s j Hs L1) L2) as G.
    assert (K : Forall (Forall X) (if s_pending s then [map snd (s_rules s)] else [])).
    { destruct (s_pending s); constructor; [|constructor]. apply Forall_map. exact (proj2 Hs). }
    cbn [compilations]. destruct j; cbn [app]; try exact G; apply Forall_app; split; assumption.
  Qed.
  Lemma q_sound_new : q_sound new_session.
  Proof. split; [discriminate|constructor]. Qed.
End Invariant.
Lemma q_room_ok rules : Forall (fun r => q_pattern r <> []) rules -> within_limits (q_all rules) -> ~ q_crowded rules.
Proof.
  intros Hp [H1 H2] (c & Hc). apply Hc. unfold within_limits, q_group, q_all in *. revert H1 H2. generalize 0%Z. intros from H1 H2.
  assert (K : steps (q_patterns (filter (fun e => q_cond (fst e) =? c) (q_numbered from rules))) <= steps (q_patterns (q_numbered from rules)) /\
              zlen (q_patterns (filter (fun e => q_cond (fst e) =? c) (q_numbered from rules))) <= zlen (q_patterns (q_numbered from rules))); [|lia].
  clear - Hp. revert from. induction Hp as [|r rules Hr _ IH]; intros from; [split; reflexivity|]. cbn [q_numbered filter fst]. specialize (IH (from + 1)).
  assert (G : 0 < zlen (q_pattern r)) by (destruct (q_pattern r) as [|x l]; [contradiction|]; rewrite zlen_cons; pose proof (zlen_nonneg l); lia).
  destruct (_ =? _); unfold q_patterns in *; cbn [map fst snd steps fold_right] in *; rewrite ?zlen_cons; unfold steps in *; lia.
Qed.

Section Kind.
  Context {AB : alphabet}.
  Variables (k : tester_kind) (sets : set_reader) (accepted : Z -> bool) (rule_of : list Z -> srule -> Prop).
  Hypothesis Hfeeds : forall g, tk_feed k g = Ok (accepted g) \/ (accepted g = false /\ exists m, tk_feed k g = Err m).
  Hypothesis Hrule : forall d q, rule_of d q -> exists n, lettered_rule k sets d n /\ agree n q.
  Notation q_usable := (q_usable rule_of sets).
  Lemma of_usable d r : rule_of d r -> q_pattern r <> [] /\ decided r.
  Proof.
    intros H. destruct (Hrule _ _ H) as (n & H1 & H2). pose proof (lettered_ne _ _ _ _ H1) as Hn. apply agree_pattern in H2. unfold decided. split.
    - intros E. rewrite E in H2. inversion H2. congruence.
    - clear Hn. induction H2 as [|a q l l' Ha _ IH]; constructor; [|exact IH].
      intros x. rewrite (Ha x). destruct (Z.eq_dec (name x) a); [left|right]; assumption.
  Qed.
  Lemma q_usable_ok js : q_usable js -> run_jobs k (false, new_tester) js = Err "DecisionTreeCompiler hit a limit" /\ Exists q_crowded (compilations new_session js) \/
    exists w os, run_jobs k (false, new_tester) js = Ok (w, os) /\ Forall2 (fun e o => q_fits accepted (fst e) (snd e) o) (expected new_session js) os.
  Proof. intros (H1 & H2 & H3). exact (q_session_ok k sets accepted rule_of Hfeeds Hrule js H1 H2 H3). Qed.
  Lemma q_usable_run js w os : q_usable js -> run_jobs k (false, new_tester) js = Ok (w, os) -> Forall2 (fun e o => q_fits accepted (fst e) (snd e) o) (expected new_session js) os.
  Proof. intros H E. destruct (q_usable_ok js H) as [[X _]|(w1 & os1 & X & F)]; [congruence|]. rewrite E in X. injection X as <- <-. exact F. Qed.
  Lemma q_usable_rules js i rules pieces : q_usable js -> nth_error (expected new_session js) i = Some (rules, pieces) ->
    zlen rules <= 254 /\ Forall (fun r => q_pattern r <> [] /\ decided r) rules.
  Proof.
    intros (L & _) N. pose proof (q_expected_sound rule_of (fun r => q_pattern r <> [] /\ decided r) of_usable js _ (q_sound_new _) L) as S.
    exact (proj1 (Forall_forall _ _) S _ (nth_error_In _ _ N)).
  Qed.
  Lemma q_room js : q_usable js -> Forall (fun rules => within_limits (q_all rules)) (compilations new_session js) ->
    exists w os, run_jobs k (false, new_tester) js = Ok (w, os).
  Proof.
    intros H Hl. destruct (q_usable_ok js H) as [[_ X]|(w & os & X & _)]; [|eauto]. exfalso. destruct H as (L & _).
    pose proof (q_compilations_sound rule_of (fun r => q_pattern r <> [] /\ decided r) of_usable js _ (q_sound_new _) L) as S.
    apply Exists_exists in X. destruct X as (rules & Hin & X). rewrite Forall_forall in S, Hl. apply (q_room_ok rules); [|exact (Hl _ Hin)|exact X].
    apply (Forall_impl _ (fun r (G : q_pattern r <> [] /\ decided r) => proj1 G) (S _ Hin)).
  Qed.
  Lemma q_session_longest js w os i rules pieces c : q_usable js -> run_jobs k (false, new_tester) js = Ok (w, os) ->
    nth_error (expected new_session js) i = Some (rules, pieces) -> Forall (fun r => q_cond r = c) rules ->
    exists o, nth_error os i = Some o /\ Forall2 (fun piece out => q_rewriting (q_longest rules) rules (filter accepted piece) out) pieces o.
  Proof.
    intros U E N Hc. destruct (Forall2_nth _ _ _ (q_usable_run js w os U E) _ _ N) as (o & O1 & O2). exists o. split; [exact O1|]. destruct (q_usable_rules js i rules pieces U N) as [S1 S2].
    assert (S3 : Forall decided rules) by (apply (Forall_impl _ (fun r (G : q_pattern r <> [] /\ decided r) => proj2 G) S2)).
    clear - O2 Hc S1 S3. unfold q_fits in O2. cbn [fst snd] in O2. induction O2 as [|p x ps xs H _ IH]; constructor; [|exact IH].
    exact (q_rewriting_weaken _ _ _ _ _ (fun i m => q_one_condition c rules i m Hc S3 S1) H).
  Qed.
  Lemma q_fits_unique rules pieces o o' : zlen rules <= 254 -> Forall (fun r => q_pattern r <> []) rules -> q_fits accepted rules pieces o -> q_fits accepted rules pieces o' -> o = o'.
  Proof.
    intros H1 H2 H. unfold q_fits in *. cbn [fst snd] in *. revert o'. induction H as [|p x ps xs Hp _ IH]; intros o' H'; inversion H' as [|? y ? ys Hy Hys]; subst; [reflexivity|].
    f_equal; [exact (q_rewriting_unique rules H1 H2 _ _ Hp _ Hy)|exact (IH _ Hys)].
  Qed.
  Lemma q_session_independent js js' w os w' os' i j e : q_usable js -> q_usable js' ->
    run_jobs k (false, new_tester) js = Ok (w, os) -> run_jobs k (false, new_tester) js' = Ok (w', os') ->
    nth_error (expected new_session js) i = Some e -> nth_error (expected new_session js') j = Some e ->
    exists o, nth_error os i = Some o /\ nth_error os' j = Some o.
  Proof.
    intros U U' E E' N N'. destruct (Forall2_nth _ _ _ (q_usable_run js w os U E) _ _ N) as (o & O1 & O2). destruct (Forall2_nth _ _ _ (q_usable_run js' w' os' U' E') _ _ N') as (o' & O1' & O2').
    destruct e as [rules pieces]. destruct (q_usable_rules js i rules pieces U N) as [S1 S2].
    assert (S3 : Forall (fun r => q_pattern r <> []) rules) by (apply (Forall_impl _ (fun r (G : q_pattern r <> [] /\ decided r) => proj1 G) S2)).
    pose proof (q_fits_unique rules pieces o o' S1 S3 O2 O2') as <-. eauto.
  Qed.
  Lemma q_session_empty js w os i pieces : q_usable js -> run_jobs k (false, new_tester) js = Ok (w, os) ->
    nth_error (expected new_session js) i = Some ([], pieces) -> nth_error os i = Some (map (filter accepted) pieces).
  Proof.
    intros U E N. destruct (Forall2_nth _ _ _ (q_usable_run js w os U E) _ _ N) as (o & O1 & O2). rewrite O1. f_equal. unfold q_fits in O2. cbn [fst snd] in O2. clear - O2.
    induction O2 as [|p x ps xs H _ IH]; [reflexivity|]. cbn [map]. f_equal; [|exact IH].
    induction H as [|y rest out _ _ IHr|m r h b t rest out Hn]; [reflexivity|f_equal; exact IHr|destruct m; discriminate].
  Qed.
End Kind.
