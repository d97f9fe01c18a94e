(** Proofs about the rewrite testers: rules as bytes, and consequences. *)
From Verif Require Import Base BaseFacts Model_Helpers Spec_Helpers Proofs_Helpers Spec_Format Spec_Layout Proofs_Format Model_Font Model_Rewrites Proofs_Rewrites
  Model_Scanner Spec_Scanner Proofs_Scanner2 Proofs_Scanner3 Model_CircularBuffer Model_Tree Spec_Tree Proofs_Tree4 Model_Tester Spec_Tester Spec_Session Spec_TesterRules
  Proofs_Tester Proofs_Tester2 Proofs_Tester3 Proofs_Tester4 Proofs_Tester5.

(** ** Bytes of rules *)
Lemma fragment_elements_len dec f : zlen (fragment_elements dec f) = fragment_length f.
Proof. unfold fragment_elements, fragment_length. rewrite zlen_app, !BaseFacts.zlen_map. reflexivity. Qed.
Lemma block_elements_len dec b : zlen (block_elements dec b) = block_length b.
Proof.
  unfold block_elements, block_length. induction b as [|f b IH]; [reflexivity|]. cbn [map concat fold_right]. rewrite zlen_app, fragment_elements_len, IH. reflexivity.
Qed.
Lemma encodes_elements k w dec t r : encodes k w dec t r -> rule_elements dec t = map Single (pattern r) /\
  block_length (rule_head t) = zlen (r_head r) /\ block_length (rule_body t) = zlen (r_body r) /\ block_length (rule_tail t) = 0.
Proof.
  unfold block_is. intros (_ & _ & H1 & H2 & H3 & _). unfold rule_elements. rewrite H1, H2, H3. cbn [map]. rewrite app_nil_r. unfold pattern. rewrite map_app.
  split; [reflexivity|]. rewrite <- !(block_elements_len dec), H1, H2, H3, !BaseFacts.zlen_map. auto.
Qed.
Lemma block_bytes_ok w valid dec b : block_wellformed w valid dec b -> bytes (block_bytes w b).
Proof.
  intros [_ H]. unfold block_bytes. induction H as [|f b (H1 & H2 & H3 & _) _ IH]; [constructor|]. cbn [map concat]. apply bytes_app. split; [|exact IH].
  unfold fragment_bytes. apply bytes_cons. split.
  - pose proof (zlen_nonneg (fst f)). pose proof (zlen_nonneg (snd f)). unfold byte. lia.
  - apply bytes_app. split; [exact H3|]. clear. induction (snd f) as [|x l IH]; [constructor|]. cbn [map concat]. apply bytes_app. split; [apply le_digits_bytes|exact IH].
Qed.
Lemma rule_bytes_ok k w dec t : scannable k w dec t -> bytes (rule_bytes w t).
Proof.
  intros S. destruct (S) as [S1 S2 S3 S4 S5 S6 S7 S8]. unfold rule_bytes.
  assert (N : forall b, 0 <= block_length b) by (intros b; rewrite <- (block_elements_len dec); apply zlen_nonneg).
  pose proof (N (rule_head t)). pose proof (N (rule_body t)). pose proof (N (rule_tail t)). apply bytes_app. split.
  - repeat (apply bytes_cons; split; [unfold byte in *; lia|]). constructor.
  - apply bytes_app. split; [|repeat (apply bytes_app; split); eapply block_bytes_ok; eassumption].
    clear. induction (rule_out t) as [|x l IH]; [constructor|]. cbn [map concat]. apply bytes_app. split; [apply le_digits_bytes|exact IH].
Qed.
Lemma glyph_plain d r : glyph_rule d r -> plain glyph_tester d r.
Proof.
  intros (t & -> & E). pose proof E as (S & Hc & _ & _ & _ & y & Ho & Hr). destruct (encodes_elements _ _ _ _ _ E) as (E1 & E2 & E3 & E4).
  destruct (rule_fields 2 t) as (R1 & R2 & R3 & R4 & R5 & _). pose proof (rule_bytes_ok _ _ _ _ S) as Hb.
  pose proof (read_glyph _ S) as Hs. rewrite E1 in Hs. pose proof (sr_outputs _ _ _ _ S) as Hout. change (256 ^ Z.of_nat 2) with 65536 in Hout.
  unfold plain. rewrite R1, R2, R3, R4, Hc, E2, E3, E4. split; [exact Hb|]. do 4 (split; [reflexivity|]). split; [unfold rule_OutLen in R5; rewrite R5, Ho; reflexivity|].
  split; [cbn [tk_out glyph_tester]; rewrite (glyph_outs t Hout), Ho, Hr; reflexivity|]. split; [exact Hs|].
  apply Forall_forall. intros x Hx. apply (glyph_succ _ _ x Hb Hs). apply in_map. exact Hx.
Qed.
Lemma utf8_plain d r : utf8_rule d r -> plain utf8_tester d r.
Proof.
  intros (t & -> & E & Hmax). pose proof E as (S & Hc & _ & _ & _ & y & Ho & Hr). destruct (encodes_elements _ _ _ _ _ E) as (E1 & E2 & E3 & E4).
  destruct (rule_fields 4 t) as (R1 & R2 & R3 & R4 & R5 & _). pose proof (rule_bytes_ok _ _ _ _ S) as Hb.
  pose proof (read_utf8 _ S) as Hs. rewrite E1 in Hs. pose proof (sr_outputs _ _ _ _ S) as Hout. change (256 ^ Z.of_nat 4) with (2 ^ 32) in Hout.
  unfold plain. rewrite R1, R2, R3, R4, Hc, E2, E3, E4. split; [exact Hb|]. do 4 (split; [reflexivity|]). split; [unfold rule_OutLen in R5; rewrite R5, Ho; reflexivity|].
  rewrite Ho in Hout. split; [cbn [tk_out utf8_tester]; rewrite (utf8_outs_one t y Ho (Forall_inv Hout)), Hr; reflexivity|]. split; [exact Hs|].
  apply Forall_forall. intros x Hx. apply (utf8_succ _ _ x Hs); [apply in_map; exact Hx|]. intros ->. contradiction.
Qed.
Lemma glyph_feeds g : tk_feed glyph_tester g = Ok (is_glyph g) \/ (is_glyph g = false /\ exists m, tk_feed glyph_tester g = Err m).
Proof.
  unfold is_glyph. cbn [tk_feed glyph_tester]. destruct (Z.eqb_spec g 56790) as [->|H]; [left; reflexivity|]. destruct (Z.gtb_spec g 56789); destruct (Z.leb_spec g 56789); try lia; eauto.
Qed.
Lemma utf8_feeds g : tk_feed utf8_tester g = Ok (is_rune g) \/ (is_rune g = false /\ exists m, tk_feed utf8_tester g = Err m).
Proof.
  cbn [tk_feed utf8_tester]. assert (E : is_rune g = valid_rune g && negb (g =? 65533)).
  { unfold is_rune, valid_rune. destruct (0 <=? g), (g <? 55296), (Z.leb_spec 57344 g), (Z.ltb_spec 57343 g), (Z.ltb_spec g 1114112), (Z.leb_spec g 1114111); try lia; reflexivity. }
  rewrite E. destruct (valid_rune g); cbn [negb orb andb]; [|eauto]. destruct (g =? 65533); cbn [negb]; eauto.
Qed.

(** ** Legal sessions *)
Lemma legal_weaken (P Q : list Z -> rrule -> Prop) : (forall d r, P d r -> Q d r) -> forall js s, all_legal P s js -> all_legal Q s js.
Proof.
  intros H. induction js as [|j js IH]; intros s; cbn [all_legal]; [auto|]. intros [H1 H2]. split; [|auto]. destruct j; cbn [legal] in *; auto.
Qed.
Definition sound (s : session rrule) : Prop := zlen (s_rules s) <= 254 /\ Forall (fun e => pattern (snd e) <> []) (s_rules s).
Lemma sound_new : sound new_session.
Proof. split; [discriminate|constructor]. Qed.
Lemma sound_next (P : list Z -> rrule -> Prop) s j : (forall d r, P d r -> pattern r <> []) -> sound s -> legal P s j -> sound (next s j).
Proof.
  intros HP [H1 H2] L. assert (Hc : sound (compiled s)) by (unfold compiled; destruct (s_pending s); split; assumption). destruct j; cbn [next]; try exact Hc; try (split; assumption).
  - destruct (Z.ltb_spec (zlen (s_rules s)) 254); [|split; assumption]. split; cbn [s_rules]; [rewrite zlen_app, zlen_cons, zlen_nil; lia|].
    apply Forall_app. split; [exact H2|]. constructor; [exact (HP d r L)|constructor].
  - destruct (without d (s_rules s)) as [l|] eqn:E; [|split; assumption]. destruct (without_in _ _ _ E) as (e & _ & _ & Hl & Hs). split; cbn [s_rules]; [lia|].
    apply Forall_forall. intros x Hx. exact (proj1 (Forall_forall _ _) H2 x (Hs _ Hx)).
  - split; [cbn [s_rules]; rewrite zlen_nil; lia|constructor].
Qed.
Lemma expected_sound (P : list Z -> rrule -> Prop) : (forall d r, P d r -> pattern r <> []) -> forall js s, sound s -> all_legal P s js ->
  Forall (fun e => zlen (fst e) <= 254 /\ Forall (fun r => pattern r <> []) (fst e)) (expected s js).
Proof.
  intros HP. induction js as [|j js IH]; intros s Hs L; [constructor|]. destruct L as [L1 L2]. pose proof (IH _ (sound_next P s j HP Hs L1) L2) as G.
  destruct j; cbn [expected]; try exact G. constructor; [|exact G]. destruct Hs as [H1 H2]. cbn [fst]. rewrite BaseFacts.zlen_map. split; [exact H1|]. apply Forall_map. exact H2.
Qed.
Lemma compilations_sound (P : list Z -> rrule -> Prop) : (forall d r, P d r -> pattern r <> []) -> forall js s, sound s -> all_legal P s js ->
  Forall (fun rules => Forall (fun r => pattern r <> []) rules) (compilations s js).
Proof.
  intros HP. induction js as [|j js IH]; intros s Hs L; [constructor|]. destruct L as [L1 L2]. pose proof (IH _ (sound_next P s j HP Hs L1) L2) as G.
  assert (K : Forall (fun rules => Forall (fun r => pattern r <> []) rules) (if s_pending s then [map snd (s_rules s)] else [])).
  { destruct (s_pending s); constructor; [|constructor]. apply Forall_map. exact (proj2 Hs). }
  cbn [compilations]. destruct j; cbn [app]; try exact G; apply Forall_app; split; assumption.
Qed.
Lemma room_ok rules : Forall (fun r => pattern r <> []) rules -> within_limits (all_rules rules) -> ~ crowded rules.
Proof.
  intros Hp [H1 H2] (c & Hc). apply Hc. unfold within_limits, group, all_rules in *. revert H1 H2. generalize 0%Z. intros from H1 H2.
  assert (K : steps (patterns (filter (fun e => r_cond (fst e) =? c) (numbered from rules))) <= steps (patterns (numbered from rules)) /\
              zlen (patterns (filter (fun e => r_cond (fst e) =? c) (numbered from rules))) <= zlen (patterns (numbered from rules))); [|lia].
  clear - Hp. revert from. induction Hp as [|r rules Hr _ IH]; intros from; [split; reflexivity|]. cbn [numbered filter fst]. specialize (IH (from + 1)).
  assert (G : 0 < zlen (pattern r)) by (destruct (pattern r) as [|x l]; [contradiction|]; rewrite zlen_cons; pose proof (zlen_nonneg l); lia).
  destruct (_ =? _); unfold patterns in *; cbn [map fst snd steps fold_right] in *; rewrite ?zlen_cons; unfold steps in *; lia.
Qed.
Lemma Forall2_nth {A B} (P : A -> B -> Prop) l m : Forall2 P l m -> forall n x, nth_error l n = Some x -> exists y, nth_error m n = Some y /\ P x y.
Proof.
  induction 1 as [|a b l m Hab _ IH]; intros n x; [destruct n; discriminate|]. destruct n; cbn [nth_error]; [intros [= ->]; eauto|apply IH].
Qed.
Lemma fits_unique accepted rules pieces o o' : zlen rules <= 254 -> Forall (fun r => pattern r <> []) rules -> fits accepted rules pieces o -> fits accepted rules pieces o' -> o = o'.
Proof.
  intros Hm Hp H. revert o'. induction H as [|p x ps xs H1 _ IH]; intros o' H'; inversion H' as [|? y ? ys G1 G2]; subst; [reflexivity|]. f_equal; [|exact (IH _ G2)].
  exact (rewriting_unique rules Hm Hp _ _ H1 _ G1).
Qed.
(** ** What follows for a kind of rules *)
Section Kind.
  Variables (k : tester_kind) (accepted : Z -> bool) (rule_of : list Z -> rrule -> Prop).
  Hypothesis Hfeeds : forall g, tk_feed k g = Ok (accepted g) \/ (accepted g = false /\ exists m, tk_feed k g = Err m).
  Hypothesis Hplain : forall d r, rule_of d r -> plain k d r.
  Lemma of_pattern d r : rule_of d r -> pattern r <> [].
  Proof. intros H. exact (plain_pattern_ne _ _ _ (Hplain _ _ H)). Qed.

  Lemma session_ok js : all_legal rule_of new_session js ->
    run_jobs k (false, new_tester) js = Err "DecisionTreeCompiler hit a limit" /\ Exists crowded (compilations new_session js) \/
    exists w os, run_jobs k (false, new_tester) js = Ok (w, os) /\ Forall2 (fun e o => fits accepted (fst e) (snd e) o) (expected new_session js) os.
  Proof.
    intros L. apply (jobs_ok k accepted Hfeeds); [apply new_idle|]. exact (legal_weaken _ _ Hplain js _ L).
  Qed.
  Lemma session_room js : all_legal rule_of new_session js -> Forall (fun rules => within_limits (all_rules rules)) (compilations new_session js) ->
    exists w os, run_jobs k (false, new_tester) js = Ok (w, os).
  Proof.
    intros L H. destruct (session_ok js L) as [[_ Hc]|(w & os & E & _)]; [exfalso|eauto]. apply Exists_exists in Hc. destruct Hc as (rules & Hin & Hc).
    pose proof (proj1 (Forall_forall _ _) H _ Hin) as Hw. cbv beta in Hw. refine (room_ok rules _ Hw Hc).
    exact (proj1 (Forall_forall _ _) (compilations_sound rule_of of_pattern js _ sound_new L) _ Hin).
  Qed.
  Lemma session_independent js js' w os w' os' i j e : all_legal rule_of new_session js -> all_legal rule_of new_session js' ->
    run_jobs k (false, new_tester) js = Ok (w, os) -> run_jobs k (false, new_tester) js' = Ok (w', os') ->
    nth_error (expected new_session js) i = Some e -> nth_error (expected new_session js') j = Some e ->
    exists o, nth_error os i = Some o /\ nth_error os' j = Some o.
  Proof.
    intros L L' E E' N N'. destruct (session_ok js L) as [[X _]|(w1 & os1 & X & F)]; [congruence|]. rewrite E in X. injection X as <- <-.
    destruct (session_ok js' L') as [[X _]|(w2 & os2 & X & F')]; [congruence|]. rewrite E' in X. injection X as <- <-.
    destruct (Forall2_nth _ _ _ F _ _ N) as (o & O1 & O2). destruct (Forall2_nth _ _ _ F' _ _ N') as (o' & O1' & O2').
    pose proof (expected_sound rule_of of_pattern js _ sound_new L) as S. pose proof (proj1 (Forall_forall _ _) S e (nth_error_In _ _ N)) as [S1 S2]. cbv beta in *.
    exists o. split; [exact O1|]. rewrite (fits_unique accepted _ _ _ _ S1 S2 O2 O2'). exact O1'.
  Qed.
  Lemma session_empty js w os i pieces : all_legal rule_of new_session js -> run_jobs k (false, new_tester) js = Ok (w, os) ->
    nth_error (expected new_session js) i = Some ([], pieces) -> nth_error os i = Some (map (filter accepted) pieces).
  Proof.
    intros L E N. destruct (session_ok js L) as [[X _]|(w1 & os1 & X & F)]; [congruence|]. rewrite E in X. injection X as <- <-.
    destruct (Forall2_nth _ _ _ F _ _ N) as (o & O1 & O2). rewrite O1. f_equal. cbn [fst snd] in O2. clear - O2.
    induction O2 as [|p x ps xs H _ IH]; [reflexivity|]. cbn [map]. rewrite IH. f_equal. revert H. generalize (filter accepted p). clear. intros l H.
    remember [] as rules eqn:Er in H at 1 2. induction H as [|y rest out _ _ IH|m r rest out Hn]; [reflexivity|rewrite IH by exact Er; reflexivity|]. subst. destruct m; discriminate.
  Qed.
End Kind.

(** ** One condition *)
Lemma prefix_dec (p l : list Z) : is_prefix p l \/ ~ is_prefix p l.
Proof.
  destruct (list_eq_dec Z.eq_dec p (firstn (length p) l)) as [E|E]; [left; exists (skipn (length p) l); rewrite E at 1; symmetry; apply firstn_skipn|right].
  intros (r & ->). apply E. rewrite firstn_app, Nat.sub_diag, firstn_all. cbn [firstn]. rewrite app_nil_r. reflexivity.
Qed.
Lemma best_exists P input : exists m, best_match P input m.
Proof.
  induction P as [|[xs r] P (m & IH)]; [exists 255; apply best_nil|]. destruct (prefix_dec xs input) as [Hp|Hp].
  - destruct IH as [[-> H]|(a & ys & b & E & H1 & H2 & H3)].
    + exists r. right. exists [], xs, P. split; [reflexivity|]. split; [exact Hp|]. split; [|intros ? ? []]. intros ys r' [[= <- <-]|Hin] Hy; [lia|exfalso; exact (H _ _ Hin Hy)].
    + destruct (Nat.le_gt_cases (length ys) (length xs)) as [Hl|Hl].
      * exists r. right. exists [], xs, P. split; [reflexivity|]. split; [exact Hp|]. split; [|intros ? ? []]. intros zs r' [[= <- <-]|Hin] Hz; [lia|]. specialize (H2 _ _ Hin Hz). lia.
      * exists m. right. exists ((xs, r) :: a), ys, b. split; [rewrite E; reflexivity|]. split; [exact H1|]. split.
        -- intros zs r' [[= <- <-]|Hin] Hz; [lia|exact (H2 _ _ Hin Hz)].
        -- intros zs r' [[= <- <-]|Hin] Hz; [lia|exact (H3 _ _ Hin Hz)].
  - exists m. destruct IH as [[-> H]|(a & ys & b & E & H1 & H2 & H3)].
    + left. split; [reflexivity|]. intros zs r' [[= <- <-]|Hin]; [exact Hp|exact (H _ _ Hin)].
    + right. exists ((xs, r) :: a), ys, b. split; [rewrite E; reflexivity|]. split; [exact H1|]. split.
      * intros zs r' [[= <- <-]|Hin] Hz; [contradiction|exact (H2 _ _ Hin Hz)].
      * intros zs r' [[= <- <-]|Hin] Hz; [contradiction|exact (H3 _ _ Hin Hz)].
Qed.
Lemma group_all c rules : Forall (fun r => r_cond r = c) rules -> group c rules = all_rules rules.
Proof.
  intros H. unfold group, all_rules. f_equal. generalize 0. induction H as [|r rules Hr _ IH]; intros from; [reflexivity|]. cbn [numbered filter fst]. rewrite Hr, Z.eqb_refl, IH. reflexivity.
Qed.
Lemma group_none c c' rules : Forall (fun r => r_cond r = c) rules -> c' <> c -> group c' rules = [].
Proof.
  intros H Hc. unfold group. rewrite numbered_cond; [reflexivity|]. intros r Hr E. apply Hc. rewrite <- E. exact (proj1 (Forall_forall _ _) H r Hr).
Qed.
Lemma one_condition c rules input m : Forall (fun r => r_cond r = c) rules -> zlen rules <= 254 -> by_condition rules input m -> longest rules input m.
Proof.
  intros H Hm [(c' & H1) H2]. unfold longest. rewrite <- (group_all c rules H). destruct (Z.eq_dec c' c) as [->|N]; [exact H1|].
  rewrite (group_none c c' rules H N) in H1. pose proof (best_unique _ _ _ _ H1 (best_nil input)) as ->.
  destruct (best_exists (group c rules) input) as (m & Hb). specialize (H2 c m Hb).
  assert (R : 0 <= m <= 255) by (apply (best_range _ _ _ (fun xs i Hi => group_range rules c xs i Hm Hi) Hb)).
  assert (m = 255) by lia. subst m. exact Hb.
Qed.
Lemma rewriting_weaken (P Q : list Z -> Z -> Prop) rules w o : (forall i m, P i m -> Q i m) -> rewriting P rules w o -> rewriting Q rules w o.
Proof. intros H. induction 1; econstructor; eauto. Qed.

Lemma rewriting_replaces P rules w o : rewriting P rules w o -> replaced (map (fun r => (r_body r, r_out r)) rules) w o.
Proof.
  induction 1 as [|x rest out _ _ IH|m r rest out Hn _ _ IH]; [constructor|constructor; exact IH|]. unfold pattern. rewrite <- app_assoc.
  induction (r_head r) as [|x h IHh]; cbn [app]; [|constructor; exact IHh]. apply replaced_apply; [|exact IH].
  apply in_map_iff. exists r. split; [reflexivity|exact (nth_error_In _ _ Hn)].
Qed.
Lemma expected_same {R} (js js' : list (job R)) : Forall2 same_job js js' -> forall s, expected s js = expected s js'.
Proof.
  induction 1 as [|j j' js js' H _ IH]; intros s; [reflexivity|]. destruct j, j'; cbn [same_job] in H; try discriminate; try contradiction;
    try (destruct H as [<- <-]); try (injection H; intros; subst); cbn [expected next]; rewrite ?IH; try reflexivity.
Qed.

(** ** Failed compilations *)
Lemma compiling_stuck k e rules trees : existsb i_resync trees = true -> conditions_known e -> recompile_trees k e rules true trees = Panic.
Proof.
  intros H He. induction trees as [|i trees IH]; [discriminate|]. cbn [recompile_trees existsb] in *.
  assert (K : exists j, (if i_cached i then Ok i else do b <- testCondition e (i_cond i); Ok (with_value i b)) = Ok j /\ i_resync j = i_resync i).
  { destruct (i_cached i); [eauto|]. destruct (conditions_ok e (i_cond i) He) as (b & ->). cbn [bind]. eexists. split; reflexivity. }
  destruct K as (j & -> & Hj). cbn [bind]. rewrite Hj. destruct (i_resync i); cbn [negb orb] in *; [reflexivity|]. rewrite (IH H). reflexivity.
Qed.
Lemma added_stuck k e d t : k_min (tk_kind k) <= zlen d -> 1 <= k_min (tk_kind k) -> AddRule k new_tester d = Ok t -> conditions_known e -> BeginSequence k e true t = Panic.
Proof.
  intros Hm H1 H He. unfold AddRule in H. cbn [new_tester ts_operating ts_rules ts_trees] in H. replace (zlen d <? k_min (tk_kind k)) with false in H by lia. cbn in H.
  destruct (rule_Condition d) as [c| | |]; cbn in H; try discriminate. injection H as <-. unfold BeginSequence. cbn [ts_operating with_operating ts_recompile]. unfold recompile. cbn [ts_rules ts_trees].
  rewrite compiling_stuck; [reflexivity|reflexivity|exact He].
Qed.
(** Within a sequence, and when beginning one without recompiling, the compiler is not used. *)
Definition in_sequence (c : call) : Prop := match c with CFeed _ | CBreak | CFinishSequence => True | _ => False end.
Lemma flag_unused k l : Forall in_sequence l -> forall t t' r, do_calls k (false, t) l = Ok (false, t', r) -> do_calls k (true, t) l = Ok (true, t', r).
Proof.
  induction 1 as [|c l Hc _ IH]; intros t t' r H; cbn [do_calls] in *; [injection H as <- <-; reflexivity|].
  destruct c; cbn [in_sequence] in Hc; try contradiction; cbn [do_call] in *.
  - destruct (Feed k t g) as [[[t1 o] e]| | |]; cbn [bind] in *; try discriminate. destruct (do_calls k (false, t1) l) as [[[c2 t2] os]| | |] eqn:E; cbn [bind] in *; try discriminate.
    injection H as -> <- <-. rewrite (IH _ _ _ E). reflexivity.
  - destruct (Break k t) as [[t1 o]| | |]; cbn [bind] in *; try discriminate. destruct (do_calls k (false, t1) l) as [[[c2 t2] os]| | |] eqn:E; cbn [bind] in *; try discriminate.
    injection H as -> <- <-. rewrite (IH _ _ _ E). reflexivity.
  - destruct (FinishSequence k t) as [[t1 o]| | |]; cbn [bind] in *; try discriminate. destruct (do_calls k (false, t1) l) as [[[c2 t2] os]| | |] eqn:E; cbn [bind] in *; try discriminate.
    injection H as -> <- <-. rewrite (IH _ _ _ E). reflexivity.
Qed.
Lemma compiled_unaffected k e t l t' r : ts_recompile t = false -> Forall in_sequence l ->
  do_calls k (false, t) (CBeginSequence e :: l) = Ok (false, t', r) -> do_calls k (true, t) (CBeginSequence e :: l) = Ok (true, t', r).
Proof.
  intros Hr Hl H. cbn [do_calls do_call] in *. unfold BeginSequence in *. destruct (ts_operating t); [discriminate|]. cbn [with_operating ts_recompile] in *. rewrite Hr in *. cbn [bind] in *.
  destruct (treesRestartDetection _) as [t1| | |]; cbn [bind] in *; try discriminate. destruct (do_calls k (false, t1) l) as [[[c2 t2] os]| | |] eqn:E; cbn [bind] in *; try discriminate.
  injection H as -> <- <-. rewrite (flag_unused _ _ Hl _ _ _ E). reflexivity.
Qed.
(** ** Conditions *)
Lemma refreshed e t t' : RefreshConditions e t = Ok t' ->
  map i_cond (ts_trees t') = map i_cond (ts_trees t) /\
  Forall (fun i => i_cached i = true /\ (if i_cond i =? 255 then i_value i = true else e_cond e (i_cond i) = Ok (i_value i))) (ts_trees t').
Proof.
  unfold RefreshConditions. intros H. apply bind_ok in H. destruct H as (l & H & E). injection E as <-. cbn [with_trees ts_trees].
  revert l H. induction (ts_trees t) as [|i trees IH]; intros l H; cbn [omap] in H; [injection H as <-; split; constructor|].
  apply bind_ok in H. destruct H as (j & Hj & H). apply bind_ok in H. destruct H as (l' & Hl & H). injection H as <-. destruct (IH _ Hl) as [IH1 IH2].
  apply bind_ok in Hj. destruct Hj as (b & Hb & Hj). injection Hj as <-. cbn [map with_value i_cond]. rewrite IH1. split; [reflexivity|]. constructor; [|exact IH2].
  cbn [with_value i_cond i_cached i_value]. split; [reflexivity|]. unfold testCondition in Hb. destruct (i_cond i =? 255); [congruence|exact Hb].
Qed.

Section Kind2.
  Variables (k : tester_kind) (accepted : Z -> bool) (rule_of : list Z -> rrule -> Prop).
  Hypothesis Hfeeds : forall g, tk_feed k g = Ok (accepted g) \/ (accepted g = false /\ exists m, tk_feed k g = Err m).
  Hypothesis Hplain : forall d r, rule_of d r -> plain k d r.
  (** With one condition, the longest match is taken. *)
  Lemma session_longest js w os i rules pieces c : all_legal rule_of new_session js -> run_jobs k (false, new_tester) js = Ok (w, os) ->
    nth_error (expected new_session js) i = Some (rules, pieces) -> Forall (fun r => r_cond r = c) rules ->
    exists o, nth_error os i = Some o /\ Forall2 (fun piece out => rewriting (longest rules) rules (filter accepted piece) out) pieces o.
  Proof.
    intros L E N Hc. destruct (session_ok k accepted rule_of Hfeeds Hplain js L) as [[X _]|(w1 & os1 & X & F)]; [congruence|]. rewrite E in X. injection X as <- <-.
    destruct (Forall2_nth _ _ _ F _ _ N) as (o & O1 & O2). exists o. split; [exact O1|]. cbn [fst snd] in O2.
    pose proof (expected_sound rule_of (of_pattern k rule_of Hplain) js _ sound_new L) as S. pose proof (proj1 (Forall_forall _ _) S _ (nth_error_In _ _ N)) as [S1 _]. cbn [fst] in S1.
    clear - O2 Hc S1. unfold fits in O2. induction O2 as [|p x ps xs H _ IH]; constructor; [|exact IH].
    exact (rewriting_weaken _ _ _ _ _ (fun i m => one_condition c rules i m Hc S1) H).
  Qed.
  Lemma session_same js js' w os w' os' : all_legal rule_of new_session js -> all_legal rule_of new_session js' -> Forall2 same_job js js' ->
    run_jobs k (false, new_tester) js = Ok (w, os) -> run_jobs k (false, new_tester) js' = Ok (w', os') -> os = os'.
  Proof.
    intros L L' Sj E E'. destruct (session_ok k accepted rule_of Hfeeds Hplain js L) as [[X _]|(w1 & os1 & X & F)]; [congruence|]. rewrite E in X. injection X as <- <-.
    destruct (session_ok k accepted rule_of Hfeeds Hplain js' L') as [[X _]|(w1 & os1 & X & F')]; [congruence|]. rewrite E' in X. injection X as <- <-.
    rewrite <- (expected_same _ _ Sj) in F'. pose proof (expected_sound rule_of (of_pattern k rule_of Hplain) js _ sound_new L) as S. clear - F F' S.
    revert os' F'. induction F as [|e o es os H _ IH]; intros os' F'; inversion F' as [|? o' ? os'' H' F'']; subst; [reflexivity|]. inversion S as [|? ? [S1 S2] S3]; subst.
    f_equal; [exact (fits_unique accepted _ _ _ _ S1 S2 H H')|exact (IH S3 _ F'')].
  Qed.
End Kind2.

(** A check that is passed by every replacement, whatever the bound [n] *)
Definition starts (p l : list Z) : bool := if list_eq_dec Z.eq_dec p (firstn (length p) l) then true else false.
Lemma starts_app p l : starts p (p ++ l) = true.
Proof. unfold starts. rewrite firstn_app, Nat.sub_diag, firstn_all. cbn [firstn]. rewrite app_nil_r. destruct (list_eq_dec Z.eq_dec p p); [reflexivity|contradiction]. Qed.
Fixpoint can_replace (n : nat) (rules : list (list Z * list Z)) (w o : list Z) : bool :=
  match n with
  | O => true
  | S n =>
      match w, o with [], [] => true | x :: w', y :: o' => (x =? y) && can_replace n rules w' o' | _, _ => false end ||
      existsb (fun r => starts (fst r) w && starts (snd r) o && can_replace n rules (skipn (length (fst r)) w) (skipn (length (snd r)) o)) rules
  end.
Lemma can_replace_ok rules w o : replaced rules w o -> forall n, can_replace n rules w o = true.
Proof.
  induction 1 as [|x rest out _ IH|b ob rest out Hin _ IH]; intros [|n]; try reflexivity; cbn [can_replace].
  - rewrite Z.eqb_refl, IH. reflexivity.
  - apply orb_true_iff. right. apply existsb_exists. exists (b, ob). split; [exact Hin|]. cbn [fst snd]. rewrite !starts_app, !skipn_app, !Nat.sub_diag, !skipn_all. exact (IH n).
Qed.
Lemma plain_min k d r : plain k d r -> k_min (tk_kind k) <= zlen d.
Proof. intros H. exact (proj1 (plain_sizes _ _ _ H)). Qed.
Lemma add_new_ok k d r : plain k d r -> exists t, AddRule k new_tester d = Ok t.
Proof.
  intros H. pose proof (add_ok k new_tester new_session d r (new_idle k) H) as G. destruct (AddRule k new_tester d) as [t|m| |] eqn:E; try contradiction; [eauto|].
  exfalso. unfold AddRule in E. cbn [new_tester ts_operating ts_rules ts_trees] in E. pose proof (plain_min _ _ _ H). replace (zlen d <? k_min (tk_kind k)) with false in E by lia. cbn in E.
  destruct H as (_ & Hc & _). rewrite Hc in E. discriminate.
Qed.
