(** What each part of Build appends: the tables of rules, the kernings. *)
From Coq Require Import Permutation.
From Verif Require Import Base BaseFacts Spec_Helpers Model_Helpers Proofs_Helpers Spec_Names Model_Names Proofs_Names Model_Date
  Model_Mask Spec_Mask Model_Font Model_Words Model_Parse Spec_Format Proofs_Format Spec_Layout Spec_LayoutFont
  Model_Builder Spec_Builder Proofs_Builder Proofs_Build Proofs_Build2 Proofs_Build3 Proofs_Build4 Proofs_Build5.

Lemma patch24_len data i v d : patch24 data i v = Ok d -> zlen d = zlen data.
Proof.
  unfold patch24. intros H. apply bind_ok_inv in H. destruct H as (sub & E & H). apply bind_ok_inv in H. destruct H as (sub' & E' & H). inversion H.
  unfold zslice in E. destruct ((0 <=? i) && (i <=? i + 3) && (i + 3 <=? zlen data)) eqn:G; [|discriminate].
  apply andb_true_iff in G. destruct G as [G G3]. apply andb_true_iff in G. destruct G as [G1 G2]. inversion E as [E1]. clear E.
  assert (LS : zlen sub = 3) by (rewrite <- E1; unfold zlen in *; rewrite firstn_length, skipn_length; lia).
  rewrite encode24_spec in E'. destruct (zlen sub <? 3) eqn:X; [discriminate|]. 
  assert (L' : zlen sub' = 3) by (replace sub' with (le_digits 3 v ++ skipn 3 sub) by congruence; rewrite zlen_app, zlen_le_digits; unfold zlen in *; rewrite skipn_length; lia).
  clear E'. rewrite !zlen_app, L'. unfold zlen in *. rewrite !skipn_length, firstn_length. lia.
Qed.
Lemma zlen_le_app {A} (a b : list A) : zlen a <= zlen (a ++ b).
Proof. rewrite zlen_app. pose proof (zlen_nonneg b). lia. Qed.

Section RuleTables.
  Variable w : nat.
  Variable elem : list Z -> Z -> outcome (list Z).
  Variable gl : list (Z * Z).
  Variable elemR : Z -> Z -> Prop.
  Variable b : builder.
  Hypothesis elem_ok : forall data x d, elem data x = Ok d -> exists i, elemR x i /\ d = data ++ le_digits w i.
  Hypothesis gl_ok : forall msg uid i, look_err gl msg uid = Ok i -> set_indexed_as b uid i.
  (* what is needed of the rules of a builder *)
  Definition rule_fine (r : brule) : Prop :=
    (exists input, rule_input r input) /\ byte (br_condition r) /\ byte (br_headLen r) /\ byte (br_bodyLen r) /\ byte (br_tailLen r).
  (* the rule is described, and its size is within the limits of the format *)
  Definition rule_stored (r : brule) (t : rewrite_rule) : Prop :=
    rule_described b elemR r t /\ br_bodyLen r <> 0 /\ zlen (rule_out t) <= 255 /\
    block_shaped (rule_head t) /\ block_shaped (rule_body t) /\ block_shaped (rule_tail t).
  Lemma rule_stored_ok r data d : rule_fine r -> rule_AppendTo elem gl r data = Ok d ->
    exists t, rule_stored r t /\ d = data ++ rule_bytes w t.
  Proof.
    intros ((input & RI) & B1 & B2 & B3 & B4) H. unfold byte in *.
    apply (rule_AppendTo_ok w elem gl elemR (set_indexed_as b) elem_ok gl_ok r input RI) in H; [|lia].
    destruct H as (t & -> & T1 & T2 & T3 & T4 & T5 & T6 & T7 & T8 & T9 & T10). exists t. split; [|reflexivity].
    split; [|auto]. repeat split; auto. exists input. auto.
  Qed.
  Lemma build_rule_grows off base msg data i r data' i' : rule_fine r -> build_rule elem gl off base msg (data, i) r = Ok (data', i') -> zlen data <= zlen data'.
  Proof.
    intros F. unfold build_rule. intros H. apply bind_ok_inv in H. destruct H as (d & E & H). cbv zeta in H.
    destruct (_ >? 16777215); [discriminate|]. apply bind_ok_inv in H. destruct H as (d2 & E2 & H). inversion H. subst.
    apply rule_stored_ok in E; [|exact F]. destruct E as (t & _ & ->). rewrite (patch24_len _ _ _ _ E2). apply zlen_le_app.
  Qed.
  Lemma build_rules_grows msg rules data data' : Forall rule_fine rules -> build_rules elem gl msg rules data = Ok data' -> zlen data <= zlen data'.
  Proof.
    intros F. unfold build_rules. destruct (_ >? 65535); [discriminate|]. cbv zeta. intros H. apply bind_ok_inv in H. destruct H as ([d i] & E & H). inversion H. subst d.
    rewrite append16_spec in E. rewrite <- app_assoc in E. apply Z.le_trans with (zlen (data ++ le_digits 2 (u16 (zlen rules)) ++ repeat 0 (Z.to_nat (u16 (zlen rules) * 3)))); [apply zlen_le_app|].
    clear H. revert E. generalize (data ++ le_digits 2 (u16 (zlen rules)) ++ repeat 0 (Z.to_nat (u16 (zlen rules) * 3))) at 1 2 3. intros d. generalize (u32 (zlen data)) as off. generalize (zlen d) at 1 as base. generalize 0. revert d.
    induction F as [|r rs Fr _ IH]; intros d i0 base off; cbn [ofold]; [intros H; inversion H; lia|].
    intros H. apply bind_ok_inv in H. destruct H as ([d1 i1] & E & H). apply build_rule_grows in E; [|exact Fr]. apply IH in H. lia.
  Qed.
  Lemma rules_loop msg pre off : off + 2 = zlen pre -> zlen pre + 3 * 65535 < 2 ^ 32 -> forall rules done prev data i, Forall rule_fine rules -> Forall2 rule_stored prev done ->
    0 <= off -> zlen done + zlen rules <= 65535 ->
    ofold (build_rule elem gl off (zlen pre + 3 * (zlen done + zlen rules)) msg) rules
      (reserved pre (map (rule_bytes w) done) (length rules), zlen done) = Ok (data, i) ->
    exists ts, Forall2 rule_stored (prev ++ rules) ts /\ data = reserved pre (map (rule_bytes w) ts) 0 /\
      (rules <> [] -> u32 (zlen data - (zlen pre + 3 * (zlen done + zlen rules))) <= 16777215).
  Proof.
    intros HO HP. induction rules as [|r rs IH]; intros done prev data i F D P0 L; cbn [ofold length].
    { intros H. inversion H. exists done. rewrite app_nil_r. split; [exact D|]. split; [reflexivity|]. intros N. contradiction. }
    intros H. apply bind_ok_inv in H. destruct H as ([d1 i1] & E & H). unfold build_rule in E. apply bind_ok_inv in E. destruct E as (d & E & E').
    apply rule_stored_ok in E; [|exact (Forall_inv F)]. destruct E as (t & T & ->). cbv zeta in E'.
    match type of E' with (if ?o >? _ then _ else _) = _ => set (offset := o) in * end.
    destruct (Z.gtb_spec offset 16777215) as [|OF]; [discriminate|]. apply bind_ok_inv in E'. destruct E' as (d2 & E2 & E'). inversion E'. subst d2 i1. clear E'.
    rewrite zlen_cons in L. pose proof (zlen_nonneg done). pose proof (zlen_nonneg rs). pose proof (zlen_nonneg pre).
    assert (EO : u32 (off + 2 + u32 (zlen done) * 3) = zlen pre + 3 * zlen (map (rule_bytes w) done)).
    { rewrite zlen_map. unfold u32. rewrite (Z.mod_small (zlen done)) by lia. rewrite Z.mod_small; lia. }
    rewrite EO in E2. rewrite patch_next in E2.
    - inversion E2. subst d1. clear E2.
      assert (X1 : zlen pre + 3 * (zlen done + zlen (r :: rs)) = zlen pre + 3 * (zlen (done ++ [t]) + zlen rs)) by (rewrite zlen_app, !zlen_cons, zlen_nil; lia).
      assert (X2 : zlen done + 1 = zlen (done ++ [t])) by (rewrite zlen_app, zlen_cons, zlen_nil; lia).
      assert (X3 : map (rule_bytes w) done ++ [rule_bytes w t] = map (rule_bytes w) (done ++ [t])) by (rewrite map_app; reflexivity).
      rewrite X1, X2, X3 in H.
      assert (LAST : rs = [] -> data = reserved pre (map (rule_bytes w) (done ++ [t])) 0) by (intros ->; cbn [ofold length] in H; inversion H; reflexivity).
      apply (IH (done ++ [t]) (prev ++ [r])) in H.
      + rewrite <- app_assoc in H. destruct H as (ts & T1 & T2 & T3). exists ts. split; [exact T1|]. split; [exact T2|]. intros _.
        rewrite X1. destruct rs as [|r2 rs]; [|apply T3; discriminate]. rewrite (LAST eq_refl). unfold offset in OF. eapply Z.le_trans; [|exact OF]. apply Z.eq_le_incl. f_equal.
        unfold reserved. rewrite map_app, concat_app. cbn [map concat]. rewrite !zlen_app, !zlen_offsets, !zlen_repeat, !zlen_map, zlen_app. cbn [length Nat.mul Nat.add]. rewrite ?app_nil_r, !zlen_cons, !zlen_nil.
        rewrite !zlen_map. lia.
      + exact (Forall_inv_tail F).
      + apply Forall2_app; [exact D|constructor; [exact T|constructor]].
      + exact P0.
      + rewrite zlen_app, zlen_cons, zlen_nil. lia.
    - unfold offset. rewrite digits3_u32. f_equal. unfold reserved. rewrite concat_app. cbn [concat]. rewrite app_nil_r, !zlen_app, zlen_offsets, zlen_repeat, zlen_map, zlen_cons.
      unfold zlen. lia.
  Qed.
  Lemma build_rules_ok msg rules data data' : Forall rule_fine rules -> zlen data <= MaxFontDataSize ->
    build_rules elem gl msg rules data = Ok data' ->
    exists ts, Forall2 rule_stored rules ts /\ data' = data ++ rules_bytes w ts /\ zlen ts <= 65535 /\
      u32 (zlen (concat (map (rule_bytes w) ts))) <= 16777215.
  Proof.
    intros F L. unfold build_rules. pose proof (zlen_nonneg rules). pose proof (zlen_nonneg data). unfold MaxFontDataSize in L.
    destruct (Z.gtb_spec (zlen rules) 65535) as [|LR]; [discriminate|]. cbv zeta. intros H'. apply bind_ok_inv in H'. destruct H' as ([d i] & E & H'). inversion H'. subst d. clear H'.
    assert (U1 : u16 (zlen rules) = zlen rules) by (unfold u16; lia). assert (U2 : u32 (zlen data) = zlen data) by (unfold u32; rewrite Z.mod_small; lia).
    rewrite U1, U2, append16_spec in E.
    set (pre := data ++ le_digits 2 (zlen rules)) in *.
    assert (LP : zlen data + 2 = zlen pre) by (unfold pre; rewrite zlen_app, zlen_le_digits; lia).
    replace (Z.to_nat (zlen rules * 3)) with (3 * length rules)%nat in E by (unfold zlen; lia).
    assert (R : pre ++ repeat 0 (3 * length rules) = reserved pre (map (rule_bytes w) []) (length rules)).
    { unfold reserved. cbn [map concat offsets end_offsets app]. rewrite app_nil_r. reflexivity. }
    assert (LB : zlen (pre ++ repeat 0 (3 * length rules)) = zlen pre + 3 * (zlen (@nil rewrite_rule) + zlen rules)) by (rewrite zlen_app, zlen_repeat, zlen_nil; unfold zlen; lia).
    rewrite LB, R in E. change 0 with (zlen (@nil rewrite_rule)) in E.
    apply (rules_loop msg pre (zlen data) LP ltac:(lia) rules [] [] data' i F) in E; [|constructor|lia|rewrite zlen_nil; lia].
    destruct E as (ts & T & -> & TS). cbn [app] in T. exists ts. split; [exact T|].
    assert (LT : zlen ts = zlen rules) by (unfold zlen; rewrite (Forall2_len _ _ _ T); reflexivity).
    split; [unfold reserved, rules_bytes, indexed, pre; cbn [repeat Nat.mul app]; rewrite LT, <- !app_assoc; reflexivity|]. split; [lia|].
    destruct rules as [|r0 rs0]; [inversion T; discriminate|]. specialize (TS ltac:(discriminate)). eapply Z.le_trans; [|exact TS]. apply Z.eq_le_incl. f_equal.
    unfold reserved. rewrite !zlen_app, zlen_offsets, zlen_repeat, zlen_map, LT, zlen_nil. cbn [Nat.mul]. lia.
  Qed.
End RuleTables.

(** ** Kernings *)
Lemma Permutation_Forall2_r {A B} (R : A -> B -> Prop) l l' r' : Forall2 R l l' -> Permutation r' l' -> exists r, Permutation r l /\ Forall2 R r r'.
Proof.
  intros F P. apply Permutation_sym in P. revert l F. induction P as [|x l1 l2 P IH|x y l1|l1 l2 l3 P1 IH1 P2 IH2]; intros l F.
  - inversion F. exists []. split; constructor.
  - inversion F as [|a ? t ? H1 H2]; subst. apply IH in H2. destruct H2 as (r & Pr & Fr). exists (a :: r). split; [constructor; exact Pr|constructor; assumption].
  - inversion F as [|a ? t ? H1 H2]; subst. inversion H2 as [|a' ? t' ? H3 H4]; subst. exists (a' :: a :: t'). split; [constructor|]. constructor; [assumption|]. constructor; assumption.
  - apply IH1 in F. destruct F as (r & Pr & Fr). apply IH2 in Fr. destruct Fr as (q & Pq & Fq). exists q. split; [|exact Fq]. apply (Permutation_trans Pq Pr).
Qed.
Section Kernings.
  Variable b : builder.
  Let lookup := index_lookup 0 (b_order b) [].
  Hypothesis ND : NoDup (b_order b).
  Hypothesis HL : zlen (b_order b) <= 65535.
  Definition coded (x : Z * Z * kpair) (c : Z) : Prop :=
    exists i j, indexed_as b (fst (fst x)) i /\ indexed_as b (snd (fst x)) j /\ c = i * 65536 + j.
  Lemma pair_code_ok x c : pair_code lookup x = Ok c -> coded x c.
  Proof.
    unfold pair_code. intros H. apply bind_ok_inv in H. destruct H as (i & Ei & H). apply bind_ok_inv in H. destruct H as (j & Ej & H). inversion H. subst c. clear H.
    apply look_ok in Ei; try assumption. apply look_ok in Ej; try assumption. exists i, j. split; [exact Ei|]. split; [exact Ej|].
    apply indexed_range in Ei. apply indexed_range in Ej. rewrite Z.shiftl_mul_pow2 by lia. change (2 ^ 16) with 65536.
    unfold u32. rewrite Z.mod_small by lia. rewrite Z.lor_comm. change 65536 with (2 ^ 16). rewrite lor_add_mul; [lia|lia|]. change (2 ^ 16) with 65536. lia.
  Qed.
  Lemma coded_inj x y c : coded x c -> coded y c -> fst x = fst y.
  Proof.
    intros (i & j & A1 & A2 & A3) (i' & j' & B1 & B2 & B3). pose proof (indexed_range b _ _ A1). pose proof (indexed_range b _ _ A2).
    pose proof (indexed_range b _ _ B1). pose proof (indexed_range b _ _ B2). assert (i = i' /\ j = j') as [-> ->] by lia.
    unfold indexed_as in *. destruct x as [[x1 x2] k1], y as [[y1 y2] k2]. cbn in *. congruence.
  Qed.
  Lemma coded_nodup p cs : NoDup (map fst p) -> Forall2 coded p cs -> NoDup cs.
  Proof.
    intros N F. revert N. induction F as [|x c p cs C F IH]; intros N; [constructor|]. cbn in N. apply NoDup_cons_iff in N. destruct N as [N1 N2].
    constructor; [|auto]. intros I1. apply N1. apply (Forall2_in_r _ _ _ _ F) in I1. destruct I1 as (y & I1 & C'). rewrite (coded_inj _ _ _ C C'). apply in_map. exact I1.
  Qed.
  Lemma append_pairs_ok cs : forall first data d, append_pairs cs first data = Ok d -> Forall (fun c => 0 <= c < 2 ^ 32) cs ->
    d = data ++ concat (map (le_digits 4) cs).
  Proof.
    induction cs as [|c r IH]; intros first data d; cbn [append_pairs]; [intros H _; inversion H; cbn; rewrite app_nil_r; reflexivity|].
    destruct (_ && _); [discriminate|]. intros H F. apply IH in H; [|exact (Forall_inv_tail F)]. rewrite H, append32_spec. pose proof (Forall_inv F) as R. cbn beta in R.
    unfold u32. rewrite Z.mod_small by lia. cbn. rewrite <- app_assoc. reflexivity.
  Qed.
  Definition kerned (x : Z * Z * kpair) (y : Z * Z * Z) : Prop := let '(prev, curr, v) := y in
    indexed_as b (fst (fst x)) prev /\ indexed_as b (snd (fst x)) curr /\ exists k, In (fst x, k) (b_horz b) /\ kerning_value b k v.
  Lemma append_value_ok x c data d : coded x c -> append_value b data c = Ok d ->
    exists y, kerned x y /\ pair_key y = c /\ d = data ++ le_digits 1 (pair_value y).
  Proof.
    intros (i & j & A1 & A2 & ->). pose proof (indexed_range b _ _ A1). pose proof (indexed_range b _ _ A2).
    unfold append_value. assert (E1 : u16 (Z.shiftr (i * 65536 + j) 16) = i) by (rewrite Z.shiftr_div_pow2 by lia; change (2 ^ 16) with 65536; unfold u16; lia).
    assert (E2 : u16 (i * 65536 + j) = j) by (unfold u16; lia). rewrite E1, E2. unfold indexed_as in A1, A2. rewrite A1, A2. cbn [bind].
    destruct x as [[u1 u2] k0]. cbn [fst snd] in *. destruct (m_get pair_eqb (b_horz b) (u1, u2)) as [k|] eqn:G; [|discriminate].
    apply (m_get_in _ pair_eqb_true) in G. intros H'.
    assert (X : exists v, kerning_value b k v /\ d = data ++ [u8 v]).
    { destruct (Z.eqb_spec (kp_Class k) 0) as [E|N].
      - inversion H'. exists (kp_Value k). split; [left; auto|reflexivity].
      - apply bind_ok_inv in H'. destruct H' as (v & E & H'). inversion H'. exists v. split; [right; auto|reflexivity]. }
    destruct X as (v & V & ->). exists (i, j, v). split; [split; [exact A1|split; [exact A2|exists k; auto]]|]. split; reflexivity.
  Qed.
  Lemma append_values_ok p cs : Forall2 coded p cs -> forall data d, ofold (append_value b) cs data = Ok d ->
    exists l, Forall2 kerned p l /\ map pair_key l = cs /\ d = data ++ concat (map (fun y => le_digits 1 (pair_value y)) l).
  Proof.
    induction 1 as [|x c p cs C _ IH]; intros data d; cbn [ofold]; [intros H; inversion H; exists []; rewrite app_nil_r; repeat split; constructor|].
    intros H. apply bind_ok_inv in H. destruct H as (d1 & E & H). apply (append_value_ok x) in E; [|exact C]. destruct E as (y & K & PK & ->).
    apply IH in H. destruct H as (l & F & M & ->). exists (y :: l). split; [constructor; assumption|]. cbn [map concat]. rewrite PK, M, <- app_assoc. auto.
  Qed.
  Lemma build_kernings_ok o n pairs data d : perm_order o -> NoDup (map fst pairs) -> zlen pairs <= 16777215 ->
    build_kernings o n b lookup pairs data = Ok d ->
    exists l, kerning_described b pairs (b_horz b) l /\ zlen l = zlen pairs /\ d = data ++ kernings_bytes l.
  Proof.
    intros HO NP LP. unfold build_kernings. cbv zeta. intros H. apply bind_ok_inv in H. destruct H as (codes & E & H). apply bind_ok_inv in H. destruct H as (d1 & E1 & H).
    apply omap_ok in E. apply (Forall2_impl _ coded) in E; [|intros x y X; apply pair_code_ok; exact X].
    set (cs := go_sort Z.leb codes) in *. pose proof (go_sort_perm Z.leb codes : Permutation cs codes) as PC.
    destruct (Permutation_Forall2_r _ _ _ cs E PC) as (p & PP & F). pose proof (Permutation_trans PP (HO n _ pairs)) as PP'.
    assert (RC : Forall (fun c => 0 <= c < 2 ^ 32) cs).
    { apply Forall_forall. intros c Ic. apply (Forall2_in_r _ _ _ _ F) in Ic. destruct Ic as (x & _ & (i & j & A1 & A2 & ->)).
      apply indexed_range in A1. apply indexed_range in A2. lia. }
    apply append_pairs_ok in E1; [|exact RC]. subst d1. apply (append_values_ok _ _ F) in H. destruct H as (l & K & M & ->).
    assert (LL : zlen l = zlen pairs) by (unfold zlen; rewrite <- (Forall2_len _ _ _ K), (Permutation_length PP'); reflexivity).
    exists l. split; [split|split; [exact LL|]].
    - rewrite M. apply (ordered_strict Z.le Z.lt); [intros x y X1 X2; lia| |].
      + apply (coded_nodup p); [|exact F]. apply (Permutation_NoDup (Permutation_map fst (Permutation_sym PP'))). exact NP.
      + apply go_sort_ordered; [intros; lia|intros a c X; apply Z.leb_le; exact X|intros a c X; apply Z.leb_gt in X; lia].
    - exists p. split; [exact PP'|]. exact K.
    - unfold kernings_bytes. rewrite append24_spec, digits3_u32, LL, <- M, map_map, <- !app_assoc. reflexivity.
  Qed.
End Kernings.
