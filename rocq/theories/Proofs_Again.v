(** Proofs for C78 to C80. *)
From Verif Require Import Base BaseFacts Model_Helpers Model_Names Model_Date Model_Mask Model_Font Model_Words Model_Parse Model_Builder Proofs_Builder Spec_Again.

(** opens the matches of calls from outside to inside *)
Ltac open_calls :=
  repeat match goal with
  | |- context [fst (match ?x with _ => _ end)] => destruct x
  | |- context [snd (match ?x with _ => _ end)] => destruct x
  | |- context [agree _ (match ?x with _ => _ end)] => destruct x
  end.

Ltac calls := unfold bstep, refused, no_good, AddDye, AddPalette, AddSetting, AddSwitch, Map, MapGroup, MapWithSwitchSingles, MapWithSwitch,
  SetFirstVerDate, SetMajorVerDate, SetMinorVerDate, set_date, SetName, SetFamily, SetAuthor, SetAbout, set_text, SetMetric,
  RaiseMajorVersion, RaiseMinorVersion, SetVersion,
  AddGlyph, SetGlyphPlacement, SetGlyphName, CreateGlyphSet, RemoveGlyphSet, AddGlyphSetRange, RemoveGlyphSetRange,
  AddGlyphSetListGlyph, RemoveGlyphSetListGlyph, CreateRuneSet, RemoveRuneSet, AddRuneSetRange, RemoveRuneSetRange,
  AddRuneSetListRune, RemoveRuneSetListRune, AddSimpleUtf8RewriteRule, AddGlyphRewriteRule in *; cbv zeta in *.

Lemma refused_same b op : is_build op = false -> refused b op = true -> bstep b op = b.
Proof.
  destruct op; cbn [is_build]; intros HB; try discriminate HB; clear HB; calls;
    try (intros HR; discriminate HR); open_calls; cbn [snd fst is_ok negb]; intros HR; try reflexivity; try discriminate HR.
Qed.

Lemma frame b op p : part_eqb (part_of op) p = false -> agree p (bstep b op) b.
Proof.
  destruct (is_build op) eqn:HB.
  - destruct op; try discriminate HB. cbn [part_of bstep]. intros HP.
    destruct (build_builder o sort b) as [->|(_ & _ & ->)]; destruct p; try discriminate HP; cbn; auto.
  - destruct op; try discriminate HB; clear HB; cbn [part_of]; intros HP; destruct p; try discriminate HP; clear HP;
      calls; unfold SetKerningPair, SetVertLayoutUsed, put_rune_set; open_calls; cbn; auto.
Qed.

(** two builders that agree in all parts are the same *)
Lemma agree_all b b' : (forall p, agree p b b') -> b = b'.
Proof.
  intros H. pose proof (H PHeader). pose proof (H PMetrics). pose proof (H PGlyphs). pose proof (H PColors). pose proof (H PSettings).
  pose proof (H PSwitches). pose proof (H PMapping). pose proof (H PConditions). pose proof (H PGlyphSets). pose proof (H PRuneSets).
  pose proof (H PGlyphRules). pose proof (H PUtf8Rules). pose proof (H PHorzKerning). pose proof (H PVertKerning). pose proof (H PClasses).
  clear H. destruct b, b'. cbn in *. intuition subst. reflexivity.
Qed.
Lemma agree_sym p b b' : agree p b b' -> agree p b' b.
Proof. destruct p; cbn; intuition congruence. Qed.
Lemma agree_trans p b1 b2 b3 : agree p b1 b2 -> agree p b2 b3 -> agree p b1 b3.
Proof. destruct p; cbn; intuition congruence. Qed.
Lemma part_eqb_spec p q : part_eqb p q = true <-> p = q.
Proof. split; [destruct p, q; cbn; congruence|intros ->; destruct q; reflexivity]. Qed.

(** what a call makes of its part and whether it is refused depends on that part and on what it looks at *)
Lemma local b b' op : is_build op = false -> (forall p, p = part_of op \/ looks_at op p = true -> agree p b b') ->
  agree (part_of op) (bstep b op) (bstep b' op) /\ refused b op = refused b' op.
Proof.
  intros HB H. pose proof (H _ (or_introl eq_refl)) as H0.
  assert (H1 : forall p, looks_at op p = true -> agree p b b') by auto. clear H.
  destruct op; try discriminate HB; clear HB; cbn [part_of] in *;
    try pose proof (H1 PGlyphs eq_refl); try pose proof (H1 PSettings eq_refl); try pose proof (H1 PSwitches eq_refl);
    try pose proof (H1 PMetrics eq_refl); try pose proof (H1 PGlyphSets eq_refl); clear H1.
  all: destruct b as [h1 m1 od1 g1 d1 p1 st1 sw1 mp1 c1 gs1 so1 rs1 gr1 ur1 hk1 vk1 kc1], b' as [h2 m2 od2 g2 d2 p2 st2 sw2 mp2 c2 gs2 so2 rs2 gr2 ur2 hk2 vk2 kc2]; cbn [agree b_header b_metrics b_order b_glyphs b_dyes b_palettes b_settings b_switches b_mapping b_conditions
    b_glyphSets b_setsOrder b_runeSets b_glyphRules b_utf8Rules b_horz b_vert b_classes] in *;
    repeat match goal with H : _ /\ _ |- _ => destruct H end; subst.
  all: calls; unfold SetKerningPair, SetVertLayoutUsed, put_rune_set, rune_sets, computeNumSwitchCases, checkColorSectionNameCollision, getColorIndexCount;
    cbn [b_header b_metrics b_order b_glyphs b_dyes b_palettes b_settings b_switches b_mapping b_conditions
    b_glyphSets b_setsOrder b_runeSets b_glyphRules b_utf8Rules b_horz b_vert b_classes].
  all: try match goal with |- context [b_horz (if ?k =? 0 then _ else _)] => destruct (k =? 0) end; open_calls; cbn; auto.
Qed.

Lemma apart_spec x y : apart x y = true -> is_build x = false /\ is_build y = false /\
  part_of x <> part_of y /\ looks_at x (part_of y) = false /\ looks_at y (part_of x) = false.
Proof.
  unfold apart. intros H. apply andb_prop in H as [H H3]. apply andb_prop in H as [H1 H2].
  apply Bool.negb_true_iff in H1, H2, H3.
  split; [destruct x; try reflexivity; discriminate H2|]. split; [destruct y; try reflexivity; discriminate H3|].
  split; [|split; assumption]. intros E. apply part_eqb_spec in E. congruence.
Qed.
Lemma frame' b op p : p <> part_of op -> agree p (bstep b op) b.
Proof. intros H. apply frame. destruct (part_eqb _ _) eqn:E; [|reflexivity]. apply part_eqb_spec in E. congruence. Qed.

(** the result and the part of a call stay the same behind a call apart from it *)
Lemma local_behind b x y : apart x y = true ->
  agree (part_of y) (bstep (bstep b x) y) (bstep b y) /\ refused (bstep b x) y = refused b y.
Proof.
  intros H. apply apart_spec in H as (HX & HY & HN & H1 & H2). apply local; [exact HY|].
  intros p [->|HP]; apply frame'; [congruence|]. intros ->. congruence.
Qed.
Lemma apart_sym x y : apart x y = apart y x.
Proof.
  unfold apart. replace (part_eqb (part_of y) (part_of x)) with (part_eqb (part_of x) (part_of y)) by (destruct (part_of x), (part_of y); reflexivity).
  destruct (part_eqb _ _), (looks_at x _), (looks_at y _); reflexivity.
Qed.
Lemma part_dec (p q : part) : {p = q} + {p <> q}.
Proof. decide equality. Qed.
Lemma exchange b x y : apart x y = true -> bstep (bstep b x) y = bstep (bstep b y) x.
Proof.
  intros H. pose proof (apart_spec _ _ H) as (_ & _ & HN & _). apply agree_all. intros p.
  destruct (part_dec p (part_of x)) as [->|HX]; [|destruct (part_dec p (part_of y)) as [->|HY]].
  - eapply agree_trans; [apply frame'; congruence|]. apply agree_sym. rewrite apart_sym in H. apply local_behind; exact H.
  - eapply agree_trans; [apply local_behind; exact H|]. apply agree_sym. apply frame'. congruence.
  - eapply agree_trans; [apply frame'; congruence|]. eapply agree_trans; [apply frame'; congruence|].
    apply agree_sym. eapply agree_trans; [apply frame'; congruence|]. apply frame'. congruence.
Qed.

(** ** Building again *)
Lemma main_dye_colored b : colored b -> zlen (b_dyes b) + zlen (b_palettes b) <= 255 -> main_dye b = (b, Ok tt).
Proof.
  intros H HL. unfold main_dye. destruct (_ >? 255) eqn:E1; [lia|]. destruct (_ =? 0) eqn:E2; [|reflexivity].
  pose proof (zlen_nonneg (b_dyes b)). pose proof (zlen_nonneg (b_palettes b)).
  destruct H as [H|H]; destruct H; apply zlen_0_nil; lia.
Qed.
Lemma build_again o sort b : Build o sort (fst (Build o sort b)) = Build o sort b.
Proof.
  destruct (build_builder o sort b) as [H|(H1 & H2 & H3)].
  - rewrite H. reflexivity.
  - rewrite H3. revert H3. unfold Build. cbn [b_glyphs b_order with_colors].
    destruct (_ >? MaxGlyphs); [cbn; intros <-; reflexivity|].
    destruct (negb _); [cbn; intros <-; reflexivity|]. destruct (_ =? 0); [cbn; intros <-; reflexivity|].
    change (build_header (with_colors b [(str_bytes "main", [255])] [])) with (build_header b).
    change (GetMetricsStatus (with_colors b [(str_bytes "main", [255])] [])) with (GetMetricsStatus b).
    destruct (build_header b) as [d| | |]; [|cbn; intros <-; reflexivity..].
    destruct (GetMetricsStatus b) as [| | |]; [|cbn; intros <-; reflexivity..]. cbv zeta.
    change (build_metrics (with_colors b [(str_bytes "main", [255])] []) d) with (build_metrics b d).
    assert (HM : main_dye b = (with_colors b [(str_bytes "main", [255])] [], Ok tt)).
    { unfold main_dye, AddDye, checkColorSectionNameCollision, getColorIndexCount. rewrite H1, H2. reflexivity. }
    rewrite HM. intros _. rewrite main_dye_colored; [reflexivity|left; discriminate|cbn; vm_compute; discriminate].
Qed.
Lemma build_colored o sort b : colored b -> fst (Build o sort b) = b.
Proof. intros H. destruct (build_builder o sort b) as [->|(H1 & H2 & _)]; [reflexivity|]. destruct H; congruence. Qed.

(** [b'] is [b] with the dye that Build adds *)
Definition dyed (b b' : builder) : Prop := b_dyes b = [] /\ b_palettes b = [] /\ b' = with_colors b [(str_bytes "main", [255])] [].
Lemma dyed_colored b b' : dyed b b' -> colored b'.
Proof. intros (_ & _ & ->). left. discriminate. Qed.
Lemma build_dyed o sort b b' : dyed b b' -> snd (Build o sort b') = snd (Build o sort b).
Proof.
  intros (H1 & H2 & ->). unfold Build. cbn [b_glyphs b_order with_colors].
  destruct (_ >? MaxGlyphs); [reflexivity|]. destruct (negb _); [reflexivity|]. destruct (_ =? 0); [reflexivity|].
  change (build_header (with_colors b [(str_bytes "main", [255])] [])) with (build_header b).
  change (GetMetricsStatus (with_colors b [(str_bytes "main", [255])] [])) with (GetMetricsStatus b).
  destruct (build_header b) as [d| | |]; [|reflexivity..].
  destruct (GetMetricsStatus b) as [| | |]; [|reflexivity..]. cbv zeta.
  change (build_metrics (with_colors b [(str_bytes "main", [255])] []) d) with (build_metrics b d).
  assert (HM : main_dye b = (with_colors b [(str_bytes "main", [255])] [], Ok tt)).
  { unfold main_dye, AddDye, checkColorSectionNameCollision, getColorIndexCount. rewrite H1, H2. reflexivity. }
  rewrite HM. rewrite main_dye_colored; [reflexivity|left; discriminate|cbn; vm_compute; discriminate].
Qed.
Lemma dyed_step b b' op : is_build op = false -> adds_color op = false -> dyed b b' -> dyed (bstep b op) (bstep b' op).
Proof.
  intros HB HC HD.
  assert (HP : PColors <> part_of op) by (destruct op; cbn in *; congruence).
  pose proof (frame' b op PColors HP) as (F1 & F2). pose proof (frame' b' op PColors HP) as (F3 & F4).
  destruct HD as (H1 & H2 & HD).
  split; [congruence|]. split; [congruence|].
  assert (HA : forall p, p <> PColors -> agree p b' b) by (intros p Hp; rewrite HD; destruct p; cbn; auto; congruence).
  apply agree_all. intros p. destruct (part_dec p PColors) as [->|Hp].
  - cbn. rewrite F3, F4, HD. cbn. auto.
  - apply agree_trans with (b2 := bstep b op).
    + destruct (part_dec p (part_of op)) as [->|Hq].
      * apply local; [exact HB|]. intros q [->|Hq]; apply HA; [congruence|]. intros ->. destruct op; cbn in Hq, HB; discriminate.
      * eapply agree_trans; [apply frame'; exact Hq|]. eapply agree_trans; [apply HA; exact Hp|]. apply agree_sym, frame'; exact Hq.
    + destruct p; cbn; auto; congruence.
Qed.

(** calls of Build between other calls *)
Lemma builds_dropped ops : forall b b',
  (b = b' \/ (dyed b b' /\ existsb adds_color ops = false)) ->
  (forall pre o sort post, ops = pre ++ OBuild o sort :: post -> colored (fold_left bstep pre b') \/ existsb adds_color post = false) ->
  fold_left bstep (without_builds ops) b = fold_left bstep ops b' \/
  dyed (fold_left bstep (without_builds ops) b) (fold_left bstep ops b').
Proof.
  induction ops as [|op ops IH]; intros b b' HR HC; [cbn; tauto|].
  assert (HC' : forall pre o sort post, ops = pre ++ OBuild o sort :: post ->
      colored (fold_left bstep pre (bstep b' op)) \/ existsb adds_color post = false).
  { intros pre o sort post E. apply (HC (op :: pre) o sort post). rewrite E. reflexivity. }
  unfold without_builds in *. cbn [filter fold_left]. destruct (is_build op) eqn:HB; cbn [negb].
  - destruct op; try discriminate HB. cbn [fold_left]. apply IH; [|exact HC'].
    cbn [bstep]. destruct HR as [->|[HD HN]].
    + destruct (HC [] o sort ops eq_refl) as [H|H].
      * left. symmetry. apply build_colored. exact H.
      * destruct (build_builder o sort b') as [->|HD]; [left; reflexivity|right]. split; [exact HD|exact H].
    + right. cbn in HN. split; [|exact HN]. rewrite build_colored; [exact HD|eapply dyed_colored; exact HD].
  - cbn [fold_left]. apply IH; [|exact HC'].
    destruct HR as [->|[HD HN]]; [left; reflexivity|right]. cbn [existsb] in HN. apply orb_false_elim in HN as [N1 N2].
    split; [|exact N2]. apply dyed_step; assumption.
Qed.
Lemma fonts_same id date ops o sort :
  (forall pre o sort post, ops = pre ++ OBuild o sort :: post -> colored (history id date pre) \/ existsb adds_color post = false) ->
  snd (Build o sort (history id date ops)) = snd (Build o sort (history id date (without_builds ops))).
Proof.
  intros H. destruct (builds_dropped ops (New id date) (New id date) (or_introl eq_refl) H) as [E|E]; unfold history in *.
  - rewrite E. reflexivity.
  - apply build_dyed. exact E.
Qed.
Lemma exchange_history id date pre x y post : apart x y = true ->
  history id date (pre ++ x :: y :: post) = history id date (pre ++ y :: x :: post).
Proof. intros H. unfold history. rewrite !fold_left_app. cbn [fold_left]. rewrite exchange by exact H. reflexivity. Qed.
