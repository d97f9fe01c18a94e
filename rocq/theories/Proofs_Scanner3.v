(** Rules given to the builder are scanned as they were given. *)
From Coq Require Import Permutation.
From Verif Require Import Base BaseFacts Spec_Helpers Model_Helpers Proofs_Helpers Model_Date Spec_Format Proofs_Format Spec_Layout Spec_LayoutFont
  Model_Font Model_Parse Proofs_Layout Proofs_Font Proofs_Font2 Proofs_Font3 Proofs_Font4 Model_Rewrites Proofs_Rewrites
  Model_Builder Spec_Builder Spec_Survive Proofs_Builder Proofs_Build6 Proofs_Build7 Proofs_Build8 Proofs_Build9 Proofs_Survive
  Model_Scanner Spec_Scanner Proofs_Scanner Proofs_Scanner2 Spec_Rules.

(** ** the rules of a history *)
Record kept (a : added) (r : brule) : Prop := {
  kp_condition : br_condition r = 255;
  kp_head : br_headLen r = ad_head a; kp_body : br_bodyLen r = ad_body a; kp_tail : br_tailLen r = ad_tail a;
  kp_input : rule_input r (ad_input a); kp_out : br_output r = ad_out a;
  kp_lens : byte (ad_head a) /\ byte (ad_body a) /\ byte (ad_tail a);
  kp_sum : ad_head a + ad_body a + ad_tail a = zlen (ad_input a) /\ zlen (ad_input a) <= 255 }.

Lemma glyph_input_known b input : forall bl0 inp0 es0 gs0 bl es gs, collected bl0 inp0 es0 gs0 ->
  ofold (fun '(bl, inGlyphs, inGroups) uid =>
        if m_has Z.eqb (b_glyphs b) uid then do bl <- bl_Push bl false; Ok (bl, inGlyphs ++ [uid], inGroups)
        else if negb (m_has Z.eqb (b_glyphSets b) uid) then Err "given input UID is neither glyph nor set"
        else do bl <- bl_Push bl true; Ok (bl, inGlyphs, inGroups ++ [uid]))
      input (bl0, es0, gs0) = Ok (bl, es, gs) ->
  collected bl (inp0 ++ map (fun uid => (negb (m_has Z.eqb (b_glyphs b) uid), uid)) input) es gs.
Proof.
  induction input as [|u r IH]; intros bl0 inp0 e0 g0 bl es gs C; cbn [ofold map]; [intros X; inversion X; subst; rewrite app_nil_r; exact C|].
  intros X. apply bind_ok_inv in X. destruct X as ([[bl1 es1] gs1] & X1 & X). destruct (m_has Z.eqb (b_glyphs b) u).
  - apply bind_ok_inv in X1. destruct X1 as (bl2 & X1 & X2). inversion X2. subst.
    pose proof (IH _ _ _ _ _ _ _ (collected_push _ _ _ _ _ u _ C X1) X) as Y. rewrite <- app_assoc in Y. exact Y.
  - destruct (negb _); [discriminate|]. apply bind_ok_inv in X1. destruct X1 as (bl2 & X1 & X2). inversion X2. subst.
    pose proof (IH _ _ _ _ _ _ _ (collected_push _ _ _ _ _ u _ C X1) X) as Y. rewrite <- app_assoc in Y. exact Y.
Qed.
Lemma utf8_input_known seq : forall bl0 inp es bl, collected bl0 inp es [] -> ofold (fun bl _ => bl_Push bl false) seq bl0 = Ok bl ->
  collected bl (inp ++ map (pair false) seq) (es ++ seq) [].
Proof.
  induction seq as [|x r IH]; intros bl0 inp es bl C; cbn [ofold map]; [intros X; inversion X; subst; rewrite !app_nil_r; exact C|].
  intros X. apply bind_ok_inv in X. destruct X as (bl1 & X1 & X). pose proof (collected_push _ _ _ _ _ x _ C X1) as X2. cbn in X2.
  apply (IH _ _ _ _ X2) in X. rewrite <- !app_assoc in X. exact X.
Qed.

Lemma u8_ge x y : byte x -> byte y -> y <= u8 (x + y) -> x + y <= 255 /\ u8 (x + y) = x + y.
Proof.
  unfold byte. intros X Y H. destruct (Z.leb_spec (x + y) 255); [split; [lia|apply u8_small; lia]|].
  exfalso. unfold u8 in H. assert (E : (x + y) mod 256 = x + y - 256).
  { rewrite <- (Z_mod_plus_full (x + y) (-1) 256). apply Z.mod_small. lia. } lia.
Qed.

Lemma glyph_call_kept b op : op_typed op ->
  exists ts, b_glyphRules (bstep b op) = b_glyphRules b ++ ts /\ Forall2 kept (glyph_rule_call b op) ts.
Proof.
  intros T. pose proof (frame_rules b op) as F.
  destruct op; try (exists []; rewrite app_nil_r; split; [congruence|constructor]); clear F; cbn [bstep op_typed glyph_rule_call] in *.
  - exists []. rewrite app_nil_r. split; [|constructor]. unfold AddSimpleUtf8RewriteRule. destruct (_ =? 0); [reflexivity|].
    destruct (_ >? 255); [reflexivity|]. destruct (ofold _ _ _); reflexivity.
  - destruct T as (Th & Tb & Tt & _).
    unfold AddGlyphRewriteRule, succeeds. cbv zeta.
    match goal with |- context [if ?c then (b, Err "rewrite rule exceeds 255 input elements") else _] => destruct c eqn:C1 end;
      [exists []; rewrite app_nil_r; split; [reflexivity|constructor]|].
    match goal with |- context [if ?c then (b, Err "rewrite rule input block lengths don't match given input") else _] => destruct c eqn:C2 end;
      [exists []; rewrite app_nil_r; split; [reflexivity|constructor]|].
    match goal with |- context [if ?c then (b, Err "invalid rewrite rule output glyph UID") else _] => destruct c eqn:C3 end;
      [exists []; rewrite app_nil_r; split; [reflexivity|constructor]|].
    match goal with |- context [ofold ?f input ?s] => destruct (ofold f input s) as [[[bl es] gs]| | |] eqn:E end;
      try (exists []; rewrite app_nil_r; split; [reflexivity|constructor]).
    eexists. split; [reflexivity|]. constructor; [|constructor].
    pose proof (glyph_input_known b input _ _ _ _ _ _ _ collected_nil E) as K. cbn [app] in K.
    apply orb_false_iff in C1. destruct C1 as [C1 C1']. apply negb_false_iff in C2.
    destruct (u8_ge headLen bodyLen Th Tb) as [L1 E1]; [lia|]. rewrite E1 in *.
    destruct (u8_ge (headLen + bodyLen) tailLen) as [L2 E2]; [unfold byte in *; lia|exact Tt|lia|].
    constructor; cbn [br_condition br_headLen br_bodyLen br_tailLen br_output ad_head ad_body ad_tail ad_input ad_out]; try reflexivity.
    + apply collected_rule. exact K.
    + auto.
    + rewrite zlen_map. lia.
Qed.
Lemma utf8_call_kept b op : op_typed op ->
  exists ts, b_utf8Rules (bstep b op) = b_utf8Rules b ++ ts /\ Forall2 kept (utf8_rule_call b op) ts.
Proof.
  intros T. pose proof (frame_rules b op) as F.
  destruct op; try (exists []; rewrite app_nil_r; split; [congruence|constructor]); clear F; cbn [bstep op_typed utf8_rule_call] in *.
  - unfold AddSimpleUtf8RewriteRule, succeeds.
    destruct (Z.eqb_spec (zlen sequence) 0) as [Z0|Z0]; [exists []; rewrite app_nil_r; split; [reflexivity|constructor]|].
    destruct (Z.gtb_spec (zlen sequence) 255) as [Z1|Z1]; [exists []; rewrite app_nil_r; split; [reflexivity|constructor]|].
    destruct (ofold _ sequence _) as [bl| | |] eqn:E; try (exists []; rewrite app_nil_r; split; [reflexivity|constructor]).
    eexists. split; [reflexivity|]. constructor; [|constructor].
    pose proof (utf8_input_known sequence _ _ _ _ collected_nil E) as K. cbn [app] in K. pose proof (zlen_nonneg sequence).
    constructor; cbn [br_condition br_headLen br_bodyLen br_tailLen br_output ad_head ad_body ad_tail ad_input ad_out]; try reflexivity.
    + apply u8_small. lia.
    + apply collected_rule. exact K.
    + unfold byte. lia.
    + rewrite zlen_map. lia.
  - exists []. rewrite app_nil_r. split; [|constructor]. unfold AddGlyphRewriteRule. cbv zeta. destruct (_ || _); [reflexivity|].
    destruct (negb _); [reflexivity|]. destruct (negb _); [reflexivity|].
    match goal with |- context [ofold ?f input ?s] => destruct (ofold f input s) as [[[bl es] gs]| | |] end; reflexivity.
Qed.
Lemma calls_kept (rules : builder -> list brule) call :
  (forall b op, op_typed op -> exists ts, rules (bstep b op) = rules b ++ ts /\ Forall2 kept (call b op) ts) ->
  forall ops b, Forall op_typed ops -> exists ts, rules (fold_left bstep ops b) = rules b ++ ts /\ Forall2 kept (calls call b ops) ts.
Proof.
  intros H. induction ops as [|op ops IH]; intros b T; cbn [fold_left calls]; [exists []; rewrite app_nil_r; split; [reflexivity|constructor]|].
  destruct (H b op (Forall_inv T)) as (ts & E & K). destruct (IH (bstep b op) (Forall_inv_tail T)) as (ts' & E' & K').
  exists (ts ++ ts'). rewrite E', E, app_assoc. split; [reflexivity|]. apply Forall2_app; assumption.
Qed.
Lemma glyph_rules_kept id date ops : Forall op_typed ops -> Forall2 kept (glyph_rules_added id date ops) (b_glyphRules (history id date ops)).
Proof. intros T. destruct (calls_kept b_glyphRules _ glyph_call_kept ops (New id date) T) as (ts & E & K). unfold history. rewrite E. exact K. Qed.
Lemma utf8_rules_kept id date ops : Forall op_typed ops -> Forall2 kept (utf8_rules_added id date ops) (b_utf8Rules (history id date ops)).
Proof. intros T. destruct (calls_kept b_utf8Rules _ utf8_call_kept ops (New id date) T) as (ts & E & K). unfold history. rewrite E. exact K. Qed.
Lemma calls_app {A} (call : builder -> bop -> list A) ops : forall b ops', calls call b (ops ++ ops') = calls call b ops ++ calls call (fold_left bstep ops b) ops'.
Proof. induction ops as [|op ops IH]; intros; cbn; [reflexivity|]. rewrite IH, app_assoc. reflexivity. Qed.

(** ** the input of a rule is determined *)
Lemma filter_split (l : list (bool * Z)) : zlen (filter fst l) + zlen (filter (fun x => negb (fst x)) l) = zlen l.
Proof. induction l as [|[[|] x] l IH]; cbn [filter fst negb]; rewrite ?zlen_cons; [reflexivity|lia|lia]. Qed.
Lemma flags_determine : forall l l' : list (bool * Z), map fst l = map fst l' -> map snd (filter fst l) = map snd (filter fst l') ->
  map snd (filter (fun x => negb (fst x)) l) = map snd (filter (fun x => negb (fst x)) l') -> l = l'.
Proof.
  induction l as [|[b x] l IH]; intros [|[b' x'] l'] H1 H2 H3; try discriminate; [reflexivity|].
  cbn [map fst] in H1. injection H1 as -> H1. destruct b'; cbn [filter fst negb map snd] in *.
  - injection H2 as -> H2. f_equal. apply IH; assumption.
  - injection H3 as -> H3. f_equal. apply IH; assumption.
Qed.
Lemma rule_input_unique r i1 i2 : rule_input r i1 -> rule_input r i2 -> i1 = i2.
Proof.
  intros (A1 & A2 & A3) (B1 & B2 & B3). apply flags_determine; [|congruence|congruence].
  assert (L : zlen i1 = zlen i2).
  { rewrite <- (filter_split i1), <- (filter_split i2).
    rewrite <- (zlen_map snd (filter fst i1)), <- (zlen_map snd (filter (fun x => negb (fst x)) i1)), <- A1, <- A2, A1, A2 at 1.
    rewrite <- (zlen_map snd (filter fst i2)), <- (zlen_map snd (filter (fun x => negb (fst x)) i2)), <- B1, <- B2. congruence. }
  apply nth_ext with (d := false) (d' := false); [rewrite !map_length; unfold zlen in L; lia|].
  intros n N. rewrite map_length in N.
  destruct (zget_in_range i1 (Z.of_nat n)) as ([g x] & E1); [unfold zlen; lia|].
  destruct (zget_in_range i2 (Z.of_nat n)) as ([g' x'] & E2); [unfold zlen in *; lia|].
  pose proof (A3 _ _ _ E1) as G1. pose proof (B3 _ _ _ E2) as G2. rewrite G1 in G2. injection G2 as <-.
  unfold zget in E1, E2. destruct (Z.ltb_spec (Z.of_nat n) 0); [lia|]. rewrite Nat2Z.id in *.
  destruct (nth_error i1 n) eqn:N1; [|discriminate]. destruct (nth_error i2 n) eqn:N2; [|discriminate].
  injection E1 as ->. injection E2 as ->.
  rewrite (nth_error_nth (map fst i1) n false (x := g)) by (rewrite nth_error_map, N1; reflexivity).
  rewrite (nth_error_nth (map fst i2) n false (x := g)) by (rewrite nth_error_map, N2; reflexivity). reflexivity.
Qed.

(** ** scanning what was built *)
Lemma flat_elements dec b : block_elements dec b = map (fun x : bool * Z => if fst x then InSet (snd x) else Single (dec (snd x))) (flat b).
Proof.
  unfold block_elements, flat. induction b as [|f b IH]; [reflexivity|]. cbn [map concat]. rewrite map_app, IH. f_equal.
  unfold fragment_elements. rewrite map_app, !map_map. reflexivity.
Qed.
Lemma in_flat_single (l : list (list Z * list Z)) f y : In f l -> In y (snd f) -> In (false, y) (flat l).
Proof.
  intros I1 I2. unfold flat. apply in_concat. exists (map (pair true) (fst f) ++ map (pair false) (snd f)).
  split; [apply (in_map (fun f : list Z * list Z => map (pair true) (fst f) ++ map (pair false) (snd f))); exact I1|].
  apply in_or_app. right. apply in_map. exact I2.
Qed.

Section Stored.
  Variable k : kind.
  Variable w : nat.
  Variable dec : Z -> Z.
  Variable R : Z -> Z -> Prop.
  Variable b : builder.
  Hypothesis SETS : zlen (b_setsOrder b) <= 255.
  Variables (a : added) (r : brule) (t : rewrite_rule).
  Hypothesis K : kept a r.
  Hypothesis ST : rule_stored R b r t.
  Hypothesis RANGE : forall x y, In (false, x) (ad_input a) -> R x y -> 0 <= y < 256 ^ Z.of_nat w /\ k_valid k (dec y) = true.
  Hypothesis OUTS : forall x y, In x (ad_out a) -> R x y -> 0 <= y < 256 ^ Z.of_nat w.
  Hypothesis KW : k_width k = Z.of_nat w.
  Hypothesis W1 : (1 <= w)%nat.
  Hypothesis KM : k_min k = Z.of_nat w + 9.

  Lemma stored_lengths : block_length (rule_head t) = ad_head a /\ block_length (rule_body t) = ad_body a /\
    block_length (rule_tail t) = ad_tail a /\ zlen (rule_out t) = zlen (ad_out a) /\ rule_condition t = 255 /\ 1 <= ad_body a.
  Proof.
    destruct K as [K1 K2 K3 K4 K5 K6 (K7 & K8 & K9) K10]. destruct ST as ((H1 & H2 & H3 & H4 & H5 & H6) & N & _).
    rewrite H1, H2, H3, H4, K1, K2, K3, K4. rewrite K3 in N. unfold byte in *. repeat (split; [lia|]). split; [|split; [reflexivity|lia]].
    rewrite <- K6. clear - H5. induction H5; rewrite ?zlen_cons; lia.
  Qed.
  Lemma stored_input : Forall2 (fun (x y : bool * Z) => fst x = fst y /\ if fst x then set_indexed_as b (snd x) (snd y) else R (snd x) (snd y))
        (ad_input a) (flat (rule_head t) ++ flat (rule_body t) ++ flat (rule_tail t)).
  Proof.
    destruct ST as ((_ & _ & _ & _ & _ & (input & RI & F) & _) & _). rewrite <- (rule_input_unique _ _ _ RI (kp_input _ _ K)). exact F.
  Qed.
  Lemma stored_scannable : 1 <= zlen (ad_out a) <= ad_body a -> scannable k w dec t.
  Proof.
    intros HO. destruct stored_lengths as (L1 & L2 & L3 & L4 & L5 & L6). pose proof stored_input as SI.
    destruct K as [K1 K2 K3 K4 K5 K6 (K7 & K8 & K9) (K10 & K11)]. destruct ST as ((H1 & H2 & H3 & H4 & H5 & H6 & H7) & N & NO & S1 & S2 & S3).
    assert (W : forall bl, block_shaped bl -> incl bl (rule_head t ++ rule_body t ++ rule_tail t) ->
      (forall y, In y (flat bl) -> In y (flat (rule_head t) ++ flat (rule_body t) ++ flat (rule_tail t))) -> block_wellformed w (k_valid k) dec bl).
    { intros bl SH I1 I2. split; [exact SH|]. apply Forall_forall. intros f F. rewrite Forall_forall in H7.
      destruct (H7 f (I1 f F)) as [A1 A2]. split; [exact A1|]. split; [exact A2|]. split; apply Forall_forall; intros y Y.
      - destruct (Forall2_in_r _ _ _ _ SI (I2 _ (in_flat bl f y F Y))) as ([g x] & _ & X1 & X2). cbn [fst snd] in *. subst g.
        unfold set_indexed_as in X2. apply zget_ok_range in X2. unfold byte. lia.
      - destruct (Forall2_in_r _ _ _ _ SI (I2 _ (in_flat_single bl f y F Y))) as ([g x] & I & X1 & X2). cbn [fst snd] in *. subst g.
        exact (RANGE _ _ I X2). }
    constructor.
    - rewrite L5. unfold byte. lia.
    - apply W; [exact S1|intros x; rewrite !in_app_iff; tauto|intros x; rewrite !in_app_iff; tauto].
    - apply W; [exact S2|intros x; rewrite !in_app_iff; tauto|intros x; rewrite !in_app_iff; tauto].
    - apply W; [exact S3|intros x; rewrite !in_app_iff; tauto|intros x; rewrite !in_app_iff; tauto].
    - apply Forall_forall. intros y Y. destruct (Forall2_in_r _ _ _ _ H5 Y) as (x & X & RX). rewrite K6 in X. exact (OUTS _ _ X RX).
    - lia.
    - lia.
    - assert (E : forall bl, block_shaped bl -> block_length bl + 1 <= zlen (block_bytes w bl)).
      { intros bl SH. assert (1 <= zlen bl) by (destruct SH as [->|(X & _)]; [vm_compute; discriminate|destruct bl; [congruence|rewrite zlen_cons; pose proof (zlen_nonneg bl); lia]]).
        pose proof (block_size w bl W1). lia. }
      unfold rule_bytes. rewrite !zlen_app, !zlen_cons, zlen_nil, values_size. pose proof (E _ S1). pose proof (E _ S2). pose proof (E _ S3).
      pose proof (block_nonneg (rule_head t)). pose proof (block_nonneg (rule_tail t)). nia.
  Qed.
  Lemma stored_elements : Forall2 (fun x e => match e with
      | InSet s => fst x = true /\ set_indexed_as b (snd x) s
      | Single c => fst x = false /\ exists y, R (snd x) y /\ c = dec y end) (ad_input a) (rule_elements dec t).
  Proof.
    unfold rule_elements. rewrite !flat_elements, <- !map_app. pose proof stored_input as SI. revert SI.
    generalize (flat (rule_head t) ++ flat (rule_body t) ++ flat (rule_tail t)). generalize (ad_input a). clear.
    intros l m F. induction F as [|[g x] [g' y] l m (E & H) _ IH]; cbn [map]; constructor; [|exact IH].
    cbn [fst snd] in *. subst g'. destruct g; [split; [reflexivity|exact H]|]. split; [reflexivity|]. exists y. auto.
  Qed.
  (** the scanner refuses rules without output and with more output than body *)
  Lemma stored_refused : zlen (ad_out a) = 0 \/ ad_body a < zlen (ad_out a) -> scan k (rule_bytes w t) = invalid_rule.
  Proof.
    intros HO. destruct stored_lengths as (L1 & L2 & L3 & L4 & L5 & L6).
    destruct K as [_ _ _ _ _ _ (K7 & K8 & K9) (K10 & K11)]. unfold byte in *.
    unfold scan, Start, startChecks. destruct (zlen (rule_bytes w t) <? k_min k); [reflexivity|].
    replace (zget (rule_bytes w t) 4) with (Ok (zlen (rule_out t))) by reflexivity. cbn [bind]. rewrite L4.
    destruct (Z.eqb_spec (zlen (ad_out a)) 0); [reflexivity|].
    replace (zget (rule_bytes w t) 1) with (Ok (block_length (rule_head t))) by reflexivity.
    replace (zget (rule_bytes w t) 2) with (Ok (block_length (rule_body t))) by reflexivity.
    replace (zget (rule_bytes w t) 3) with (Ok (block_length (rule_tail t))) by reflexivity. cbn [bind]. rewrite L1, L2, L3.
    destruct (_ >? _); [reflexivity|]. destruct (_ >? _); [reflexivity|].
    destruct (Z.ltb_spec (ad_body a) (zlen (ad_out a))); [reflexivity|lia].
  Qed.
End Stored.

Lemma i32_back c : int32 c -> i32 (c mod 2 ^ 32) = c.
Proof.
  unfold int32, i32, u32. change (2 ^ 32) with 4294967296. intros H. rewrite Z.mod_mod by lia. destruct (Z_lt_dec c 0).
  - replace (c mod 4294967296) with (c + 4294967296) by (rewrite <- (Z_mod_plus_full c 1); symmetry; apply Z.mod_small; lia).
    destruct (Z.ltb_spec (c + 4294967296) 2147483648); lia.
  - rewrite Z.mod_small by lia. destruct (Z.ltb_spec c 2147483648); lia.
Qed.
Lemma utf8_outs_one r y : rule_out r = [y] -> 0 <= y < 2 ^ 32 -> utf8_rule_EachOut (rule_bytes 4 r) = Ok [i32 y].
Proof.
  intros HR Hy. unfold utf8_rule_EachOut. replace (zget (rule_bytes 4 r) 4) with (Ok (zlen (rule_out r))) by reflexivity. rewrite HR. cbn [bind].
  change ((zlen [y] + 1) / 2) with 1. apply omap_range; [reflexivity|]. intros i g E. pose proof (zget_ok_range _ _ _ E) as Ri. change (zlen [i32 y]) with 1 in Ri. assert (i = 0) by lia. subst i.
  injection E as <-. pose proof (rule_outs_at 4 r []) as S. rewrite app_nil_r, HR in S.
  pose proof (stored_array (le_digits 4) 4 [y] _ _ 0 y (zlen_le_digits 4) S eq_refl) as S2.
  rewrite <- (bind_assoc (zfrom _ _) (fun b => DecodeUint32LE b)). rewrite (from32 _ _ y); [reflexivity|exact S2|lia].
Qed.
Lemma utf8_added_typed id date ops : Forall op_typed ops -> forall i a, zget (utf8_rules_added id date ops) i = Ok a ->
  ad_head a = 0 /\ ad_body a = zlen (ad_input a) /\ ad_tail a = 0 /\
  exists rep, ad_out a = [rep] /\ int32 rep /\ Forall (fun x => fst x = false /\ int32 (snd x)) (ad_input a).
Proof.
  intros T i a G. apply zget_in in G. unfold utf8_rules_added in G. revert G. generalize (New id date). induction T as [|op ops T1 _ IH]; intros b; cbn [calls]; [intros []|].
  rewrite in_app_iff. intros [I|I]; [|exact (IH _ I)]. destruct op; cbn [utf8_rule_call] in I; try destruct I.
  destruct (succeeds _); [|destruct I]. destruct I as [<-|[]]. cbn. rewrite zlen_map. repeat (split; [reflexivity|]). exists replacement.
  destruct T1 as [T1 T2]. split; [reflexivity|]. split; [exact T1|]. apply Forall_forall. intros x X. apply in_map_iff in X. destruct X as (c & <- & X).
  rewrite Forall_forall in T2. split; [reflexivity|exact (T2 c X)].
Qed.

Section History.
  Variables (id : Z) (date : Date) (ops : list bop) (o : order) (sort : list Model_Mask.fragment -> list Model_Mask.fragment) (b' : builder) (f : Font).
  Hypothesis HD : date_typed date.
  Hypothesis HT : Forall op_typed ops.
  Hypothesis HO : perm_order o.
  Hypothesis HS : forall l, Permutation l (sort l).
  Hypothesis HB : Build o sort (history id date ops) = (b', Ok f).

  Lemma table_small w d off rs : stored d off (rules_bytes w rs) -> zlen d <= MaxFontDataSize ->
    u32 (zlen (concat (map (rule_bytes w) rs))) <= 16777215 -> zlen (concat (map (rule_bytes w) rs)) < 16777216.
  Proof.
    intros S L U. apply stored_range in S. unfold rules_bytes in S. rewrite zlen_app, zlen_indexed in S. unfold MaxFontDataSize in L.
    pose proof (zlen_nonneg (le_digits 2 (zlen rs))). pose proof (zlen_nonneg rs). pose proof (zlen_nonneg (concat (map (rule_bytes w) rs))).
    unfold Spec_Accept.total in S. rewrite ?zlen_map in S. unfold u32 in U. rewrite Z.mod_small in U by nia. lia.
  Qed.

  Lemma glyph_rule_found i a : zget (glyph_rules_added id date ops) i = Ok a ->
    exists t r, kept a r /\ rule_stored (indexed_as b') b' r t /\ rewrites_GetGlyphRule f i = Ok (rule_bytes 2 t) /\
      zlen (b_setsOrder b') <= 255 /\ zlen (b_order b') <= 56789.
  Proof.
    intros G. destruct (built_history _ _ _ _ _ _ _ HD HT HO HS HB) as (l & -> & DS & BT & FN & _ & _ & E & HT').
    destruct (bt_glyph_rules _ _ _ BT) as (F2 & N & SZ).
    assert (KT : Forall2 kept (glyph_rules_added id date ops) (b_glyphRules b')).
    { rewrite E. replace (glyph_rules_added id date ops) with (glyph_rules_added id date (ops ++ [OBuild o sort])) by
        (unfold glyph_rules_added; rewrite calls_app; cbn; rewrite app_nil_r; reflexivity). apply glyph_rules_kept. exact HT'. }
    pose proof (zget_ok_range _ _ _ G) as RG.
    destruct (Forall2_zget _ _ _ i KT) as [(a' & r & X1 & X2 & X3)|[X1 _]]; [|congruence]. rewrite G in X1. injection X1 as <-.
    destruct (Forall2_zget _ _ _ i F2) as [(r' & t & Y1 & Y2 & Y3)|[Y1 _]]; [|congruence]. rewrite X2 in Y1. injection Y1 as <-.
    exists t, r. split; [exact X3|]. split; [exact Y3|].
    pose proof (st_glyph_rules l) as S. split; [|split].
    - unfold rewrites_GetGlyphRule. unfold rules_bytes in S. rewrite <- (zlen_map (rule_bytes 2) (l_glyph_rules l)) in S.
      rewrite (rule_located _ _ _ S); [rewrite zget_map, Y2; reflexivity|rewrite zlen_map; lia| |lia].
      apply (table_small 2 _ _ _ (st_glyph_rules l)); [exact (bt_size _ _ _ BT)|exact SZ].
    - rewrite (F2_zlen _ _ _ (ds_glyph_sets _ _ DS)). apply (bt_sets _ _ _ BT).
    - apply (bt_glyphs _ _ _ BT).
  Qed.
  Lemma utf8_rule_found i a : zget (utf8_rules_added id date ops) i = Ok a ->
    exists t r, kept a r /\ rule_stored rune_stored b' r t /\ rewrites_GetUtf8Rule f i = Ok (rule_bytes 4 t) /\
      zlen (b_setsOrder b') <= 255.
  Proof.
    intros G. destruct (built_history _ _ _ _ _ _ _ HD HT HO HS HB) as (l & -> & DS & BT & FN & _ & _ & E & HT').
    destruct (bt_utf8_rules _ _ _ BT) as (F2 & N & SZ).
    assert (KT : Forall2 kept (utf8_rules_added id date ops) (b_utf8Rules b')).
    { rewrite E. replace (utf8_rules_added id date ops) with (utf8_rules_added id date (ops ++ [OBuild o sort])) by
        (unfold utf8_rules_added; rewrite calls_app; cbn; rewrite app_nil_r; reflexivity). apply utf8_rules_kept. exact HT'. }
    pose proof (zget_ok_range _ _ _ G) as RG.
    destruct (Forall2_zget _ _ _ i KT) as [(a' & r & X1 & X2 & X3)|[X1 _]]; [|congruence]. rewrite G in X1. injection X1 as <-.
    destruct (Forall2_zget _ _ _ i F2) as [(r' & t & Y1 & Y2 & Y3)|[Y1 _]]; [|congruence]. rewrite X2 in Y1. injection Y1 as <-.
    exists t, r. split; [exact X3|]. split; [exact Y3|].
    pose proof (st_utf8_rules l) as S. split.
    - unfold rewrites_GetUtf8Rule. unfold rules_bytes in S. rewrite <- (zlen_map (rule_bytes 4) (l_utf8_rules l)) in S.
      rewrite (rule_located _ _ _ S); [rewrite zget_map, Y2; reflexivity|rewrite zlen_map; lia| |lia].
      apply (table_small 4 _ _ _ (st_utf8_rules l)); [exact (bt_size _ _ _ BT)|exact SZ].
    - rewrite (F2_zlen _ _ _ (ds_glyph_sets _ _ DS)). apply (bt_sets _ _ _ BT).
  Qed.

  Lemma glyph_rule_survives i a : zget (glyph_rules_added id date ops) i = Ok a ->
    exists data, rewrites_GetGlyphRule f i = Ok data /\ rule_Condition data = Ok 255 /\
      rule_HeadLen data = Ok (ad_head a) /\ rule_BodyLen data = Ok (ad_body a) /\ rule_TailLen data = Ok (ad_tail a) /\
      rule_OutLen data = Ok (zlen (ad_out a)) /\
      (exists outs, Forall2 (indexed_as b') (ad_out a) outs /\
         glyph_rule_EachOut data = Ok (firstn (Z.to_nat ((zlen (ad_out a) + 1) / 2)) outs)) /\
      (1 <= zlen (ad_out a) <= ad_body a -> exists es, scan glyph_kind data = Ok es /\ Forall2 (reported b') (ad_input a) es) /\
      (zlen (ad_out a) = 0 \/ ad_body a < zlen (ad_out a) -> scan glyph_kind data = Err "invalid rewrite rule").
  Proof.
    intros G. destruct (glyph_rule_found i a G) as (t & r & K & ST & E & LS & LO). exists (rule_bytes 2 t). split; [exact E|].
    destruct (stored_lengths 2 _ _ _ _ _ K ST ltac:(lia)) as (L1 & L2 & L3 & L4 & L5 & L6).
    destruct (rule_fields 2 t) as (R1 & R2 & R3 & R4 & R5 & _). rewrite R1, R2, R3, R4, R5, L1, L2, L3, L4, L5.
    repeat (split; [reflexivity|]).
    assert (IX : forall x y, indexed_as b' x y -> 0 <= y < 56789) by (intros x y H; apply zget_ok_range in H; lia).
    pose proof ST as ((_ & _ & _ & _ & OF & _) & _). rewrite (kp_out _ _ K) in OF.
    split.
    - exists (rule_out t). split; [exact OF|]. rewrite <- L4. apply glyph_outs. apply Forall_forall. intros y Y.
      destruct (Forall2_in_r _ _ _ _ OF Y) as (x & _ & X). apply IX in X. lia.
    - split; [|intros H; eapply stored_refused; try eassumption; lia].
      intros H. exists (rule_elements (fun x => x) t). split.
      + apply read_glyph. eapply stored_scannable; try eassumption; try reflexivity; try lia.
        * intros x y _ X. apply IX in X. change (256 ^ Z.of_nat 2) with 65536. split; [lia|]. cbn [k_valid glyph_kind]. lia.
        * intros x y _ X. apply IX in X. change (256 ^ Z.of_nat 2) with 65536. lia.
      + pose proof (stored_elements (fun x => x) _ _ _ _ _ K ST) as F. clear - F.
        induction F as [|x e l m X _ IH]; constructor; [|exact IH]. destruct e as [s|c]; cbn in *; [exact X|]. destruct X as (H1 & y & H2 & ->). auto.
  Qed.

  Lemma utf8_rule_survives i a : zget (utf8_rules_added id date ops) i = Ok a ->
    exists data replacement, rewrites_GetUtf8Rule f i = Ok data /\ rule_Condition data = Ok 255 /\
      rule_HeadLen data = Ok 0 /\ rule_BodyLen data = Ok (zlen (ad_input a)) /\ rule_TailLen data = Ok 0 /\
      rule_OutLen data = Ok 1 /\ ad_out a = [replacement] /\ utf8_rule_EachOut data = Ok [replacement] /\
      (~ In (false, 65533) (ad_input a) -> scan utf8_kind data = Ok (map (fun x => Single (snd x)) (ad_input a))).
  Proof.
    intros G. destruct (utf8_rule_found i a G) as (t & r & K & ST & E & LS).
    destruct (utf8_added_typed id date ops HT i a G) as (H1 & H2 & H3 & rep & H4 & H5 & H6).
    exists (rule_bytes 4 t), rep. split; [exact E|].
    destruct (stored_lengths 2 _ _ _ _ _ K ST ltac:(lia)) as (L1 & L2 & L3 & L4 & L5 & L6).
    destruct (rule_fields 4 t) as (R1 & R2 & R3 & R4 & R5 & _). rewrite R1, R2, R3, R4, R5, L1, L2, L3, L4, L5, H1, H2, H3, H4.
    repeat (split; [reflexivity|]).
    assert (IX : forall x y, rune_stored x y -> 0 <= y < 2 ^ 32) by (intros x y ->; apply Z.mod_pos_bound; lia).
    pose proof ST as ((_ & _ & _ & _ & OF & _) & _). rewrite (kp_out _ _ K), H4 in OF.
    split.
    - inversion OF as [|? y ? l' Y OF' A B]; subst. inversion OF'; subst. rewrite (utf8_outs_one t y); [|auto|exact (IX _ _ Y)].
      rewrite Y, i32_back by assumption. reflexivity.
    - intros NI. rewrite read_utf8.
      + f_equal. pose proof (stored_elements i32 _ _ _ _ _ K ST) as F. rewrite Forall_forall in H6. revert F H6. clear. generalize (ad_input a). generalize (rule_elements i32 t).
        intros es l F. induction F as [|x e l es X _ IH]; intros T; [reflexivity|]. cbn [map]. destruct (T x (or_introl eq_refl)) as [T1 T2].
        f_equal; [|apply IH; intros z Z; apply T; right; exact Z]. destruct e as [s|c]; [destruct X; congruence|]. destruct X as (_ & y & -> & ->).
        f_equal. rewrite i32_back by exact T2. reflexivity.
      + eapply stored_scannable; try eassumption; try reflexivity; try lia.
        * intros x y I X. pose proof (IX _ _ X). change (256 ^ Z.of_nat 4) with (2 ^ 32). split; [lia|]. cbn [k_valid utf8_kind].
          rewrite Forall_forall in H6. destruct (H6 _ I) as [_ T]. cbn [snd] in T. rewrite X, i32_back by exact T.
          destruct (Z.eqb_spec x 65533); [subst; contradiction|reflexivity].
        * intros x y _ X. exact (IX _ _ X).
        * rewrite H2, H4. destruct K as [_ _ _ _ _ _ _ [K1 K2]]. change (zlen [rep]) with 1. lia.
  Qed.
End History.
