(** Facts about the builder's calls: colors, settings, switches and sets. *)
From Coq Require Import Permutation.
From Verif Require Import Base BaseFacts Spec_Helpers Model_Helpers Spec_Names Model_Names Proofs_Names Model_Mask Model_Font
  Model_Words Model_Parse Model_Builder Spec_Builder.

Lemma list_eqb_true (a : list Z) : forall b, list_eqb a b = true <-> a = b.
Proof.
  induction a as [|x a IH]; intros [|y b]; cbn; split; try discriminate; try reflexivity.
  - rewrite andb_true_iff, Z.eqb_eq, IH. intros [-> ->]. reflexivity.
  - intros E. inversion E. subst. rewrite Z.eqb_refl. cbn. apply IH. reflexivity.
Qed.
Lemma list_eqb_refl a : list_eqb a a = true.
Proof. apply list_eqb_true. reflexivity. Qed.
Lemma pair_eqb_true a b : pair_eqb a b = true <-> a = b.
Proof.
  destruct a, b. unfold pair_eqb. cbn. rewrite andb_true_iff, !Z.eqb_eq. split; [intros [-> ->]; reflexivity|intros E; inversion E; auto].
Qed.

(** ** Maps *)
Section MapFacts.
  Context {K V : Type} (eqb : K -> K -> bool).
  Hypothesis eqb_true : forall a b, eqb a b = true <-> a = b.
  Lemma eqb_rfl k : eqb k k = true. Proof. apply eqb_true. reflexivity. Qed.
  Lemma eqb_false a b : eqb a b = false <-> a <> b.
  Proof. rewrite <- eqb_true. destruct (eqb a b); split; congruence. Qed.
  Lemma m_get_in (m : list (K * V)) k v : m_get eqb m k = Some v -> In (k, v) m.
  Proof.
    induction m as [|[k' v'] r IH]; [discriminate|]. cbn. destruct (eqb k k') eqn:E.
    - intros H. inversion H. apply eqb_true in E. subst. auto.
    - auto.
  Qed.
  Lemma m_get_none (m : list (K * V)) k : m_get eqb m k = None <-> ~ In k (map fst m).
  Proof.
    induction m as [|[k' v'] r IH]; [cbn; tauto|]. cbn. destruct (eqb k k') eqn:E.
    - apply eqb_true in E. split; [discriminate|]. intros H. exfalso. apply H. left. congruence.
    - apply eqb_false in E. rewrite IH. split; intros H; [|tauto]. intros [->|H']; [congruence|tauto].
  Qed.
  Lemma m_has_true (m : list (K * V)) k : m_has eqb m k = true <-> In k (map fst m).
  Proof.
    unfold m_has. destruct (m_get eqb m k) eqn:E.
    - split; [|reflexivity]. intros _. apply m_get_in in E. apply in_map_iff. exists (k, v). auto.
    - apply m_get_none in E. split; [discriminate|tauto].
  Qed.
  Lemma m_get_unique (m : list (K * V)) k v : NoDup (map fst m) -> In (k, v) m -> m_get eqb m k = Some v.
  Proof.
    induction m as [|[k' v'] r IH]; [easy|]. cbn. intros ND [H|H].
    - inversion H. rewrite eqb_rfl. reflexivity.
    - apply NoDup_cons_iff in ND. destruct ND as [N1 N2]. destruct (eqb k k') eqn:E; [|auto]. apply eqb_true in E. subst.
      exfalso. apply N1. apply in_map_iff. exists (k', v). auto.
  Qed.
  Lemma m_set_keys (m : list (K * V)) k v : map fst (m_set eqb m k v) = if m_has eqb m k then map fst m else map fst m ++ [k].
  Proof.
    unfold m_has. induction m as [|[k' v'] r IH]; [reflexivity|]. cbn. destruct (eqb k k') eqn:E; cbn.
    - apply eqb_true in E. subst. reflexivity.
    - rewrite IH. destruct (m_get eqb r k); reflexivity.
  Qed.
  Lemma m_set_nodup (m : list (K * V)) k v : NoDup (map fst m) -> NoDup (map fst (m_set eqb m k v)).
  Proof.
    intros ND. rewrite m_set_keys. destruct (m_has eqb m k) eqn:E; [exact ND|].
    apply (Permutation_NoDup (Permutation_cons_append _ _)). constructor; [|exact ND].
    intros H. apply m_has_true in H. congruence.
  Qed.
  Lemma m_get_set (m : list (K * V)) k v k' : m_get eqb (m_set eqb m k v) k' = if eqb k' k then Some v else m_get eqb m k'.
  Proof.
    induction m as [|[k0 v0] r IH]; cbn; [reflexivity|]. destruct (eqb k k0) eqn:E; cbn.
    - apply eqb_true in E. subst k0. destruct (eqb k' k); reflexivity.
    - destruct (eqb k' k0) eqn:E'; [|exact IH]. apply eqb_true in E'. subst k0.
      destruct (eqb k' k) eqn:E''; [|reflexivity]. apply eqb_true in E''. subst. rewrite eqb_rfl in E. discriminate.
  Qed.
  Lemma m_get_del (m : list (K * V)) k k' : m_get eqb (m_del eqb m k) k' = if eqb k' k then None else m_get eqb m k'.
  Proof.
    unfold m_del. induction m as [|[k0 v0] r IH]; cbn; [destruct (eqb k' k); reflexivity|].
    destruct (eqb k k0) eqn:E; cbn.
    - apply eqb_true in E. subst k0. rewrite IH. destruct (eqb k' k); reflexivity.
    - rewrite IH. destruct (eqb k' k0) eqn:E'; [|reflexivity]. apply eqb_true in E'. subst k0.
      destruct (eqb k' k) eqn:E''; [|reflexivity]. apply eqb_true in E''. subst. rewrite eqb_rfl in E. discriminate.
  Qed.
  Lemma m_del_nodup (m : list (K * V)) k : NoDup (map fst m) -> NoDup (map fst (m_del eqb m k)).
  Proof.
    unfold m_del. induction m as [|[k0 v0] r IH]; cbn; [auto|]. intros ND. apply NoDup_cons_iff in ND. destruct ND as [N1 N2].
    destruct (negb (eqb k k0)); cbn; [|auto]. constructor; [|auto]. intros HI. apply N1.
    apply in_map_iff in HI. destruct HI as (x & <- & HI). apply filter_In in HI. apply in_map. tauto.
  Qed.
  Lemma m_set_in (m : list (K * V)) k v k' v' : In (k', v') (m_set eqb m k v) -> (k', v') = (k, v) \/ In (k', v') m.
  Proof.
    induction m as [|[k0 v0] r IH]; cbn; [intros [H|[]]; left; congruence|].
    destruct (eqb k k0); cbn; intros [H|H]; auto. destruct (IH H); auto.
  Qed.
End MapFacts.

(** ** Colors, settings and switches *)
Lemma fold_count {A} (l : list (list Z * list A)) : forall c,
  fold_left (fun c p => c + zlen (snd p)) l c = c + zlen (concat (map snd l)).
Proof. induction l as [|x r IH]; intros c; cbn; [rewrite zlen_nil; lia|]. rewrite IH, zlen_app. lia. Qed.
Lemma color_count_spec b : getColorIndexCount b = color_count b.
Proof. unfold getColorIndexCount, color_count. rewrite !fold_count. lia. Qed.
Lemma existsb_name {A} (l : list (list Z * A)) name : existsb (fun d => list_eqb (fst d) name) l = true <-> In name (map fst l).
Proof.
  rewrite existsb_exists, in_map_iff. split; intros (x & H); exists x; rewrite list_eqb_true in *; tauto.
Qed.
Lemma collision b name : (checkColorSectionNameCollision b name = Ok tt /\ ~ In name (color_names b)) \/
  (exists m, checkColorSectionNameCollision b name = Err m /\ In name (color_names b)).
Proof.
  unfold checkColorSectionNameCollision, color_names.
  destruct (existsb (fun d => list_eqb (fst d) name) (b_dyes b)) eqn:E1; [right; eexists; split; [reflexivity|]|].
  { apply in_or_app. left. apply existsb_name. exact E1. }
  destruct (existsb (fun d => list_eqb (fst d) name) (b_palettes b)) eqn:E2; [right; eexists; split; [reflexivity|]|left].
  { apply in_or_app. right. apply existsb_name. exact E2. }
  split; [reflexivity|]. intros H. apply in_app_or in H. destruct H as [H|H]; apply existsb_name in H; congruence.
Qed.
Lemma add_dye b name alphas :
  (~ In name (color_names b) /\ color_count b + zlen alphas <= 255 /\
   AddDye b name alphas = (with_colors b (b_dyes b ++ [(name, alphas)]) (b_palettes b), Ok tt)) \/
  ((In name (color_names b) \/ 255 < color_count b + zlen alphas) /\ exists m, AddDye b name alphas = (b, Err m)).
Proof.
  unfold AddDye. rewrite color_count_spec. destruct (collision b name) as [[-> H]|(m & -> & H)]; [|right; split; eauto].
  destruct (color_count b + zlen alphas >? 255) eqn:E; rewrite Z.gtb_ltb in E.
  - right. split; [right; lia|eauto].
  - left. split; [exact H|]. split; [lia|reflexivity].
Qed.
Lemma add_palette b name cs :
  (~ In name (color_names b) /\ color_count b + zlen cs <= 255 /\
   AddPalette b name cs = (with_colors b (b_dyes b) (b_palettes b ++ [(name, cs)]), Ok tt)) \/
  ((In name (color_names b) \/ 255 < color_count b + zlen cs) /\ exists m, AddPalette b name cs = (b, Err m)).
Proof.
  unfold AddPalette. rewrite color_count_spec. destruct (collision b name) as [[-> H]|(m & -> & H)]; [|right; split; eauto].
  destruct (color_count b + zlen cs >? 255) eqn:E; rewrite Z.gtb_ltb in E.
  - right. split; [right; lia|eauto].
  - left. split; [exact H|]. split; [lia|reflexivity].
Qed.
Lemma validate_all opts : (ofold (fun _ opt => ValidateBasicName opt) opts tt = Ok tt /\ Forall loose_name opts) \/
  (exists m, ofold (fun _ opt => ValidateBasicName opt) opts tt = Err m /\ ~ Forall loose_name opts).
Proof.
  induction opts as [|x r IH]; [left; split; [reflexivity|constructor]|]. cbn [ofold].
  destruct (validate_spec x) as [(m & E)|E]; rewrite E; cbn [bind].
  - right. exists m. split; [reflexivity|]. intros F. apply Forall_inv in F. apply validate_loose in F. congruence.
  - destruct IH as [(-> & F)|(m & -> & F)].
    + left. split; [reflexivity|]. constructor; [apply validate_loose; exact E|exact F].
    + right. exists m. split; [reflexivity|]. intros F'. apply F. apply (Forall_inv_tail F').
Qed.
Lemma add_setting b name opts :
  (setting_acceptable b name opts /\
   AddSetting b name opts = (with_settings b (b_settings b ++ [(name, opts)]), Ok (zlen (b_settings b)))) \/
  (~ setting_acceptable b name opts /\ exists m, AddSetting b name opts = (b, Err m)).
Proof.
  unfold AddSetting, setting_acceptable.
  destruct (validate_spec name) as [(m & E)|E]; rewrite E.
  { right. split; [|eauto]. intros (F & _). apply validate_loose in F. congruence. }
  apply validate_loose in E.
  destruct (validate_all opts) as [(-> & F)|(m & -> & F)]; [|right; split; [tauto|eauto]].
  destruct (zlen opts >? 255) eqn:E1; rewrite Z.gtb_ltb in E1; [right; split; [lia|eauto]|].
  destruct (zlen (b_settings b) >=? 255) eqn:E2; rewrite Z.geb_leb in E2; [right; split; [lia|eauto]|].
  destruct (existsb _ _) eqn:E3.
  { right. split; [|eauto]. apply existsb_name in E3. unfold setting_names. tauto. }
  left. split.
  - repeat (split; [assumption || lia|]). intros H. apply existsb_name in H. congruence.
  - f_equal. f_equal. unfold u8. pose proof (zlen_nonneg (b_settings b)). rewrite Z.mod_small; lia.
Qed.
Lemma switch_settings_spec n l : forall seen, 
  (Forall (fun s => s < n) l /\ NoDup l /\ (forall s, In s l -> ~ In s seen) /\ switch_settings n l seen = Ok (seen ++ l)) \/
  (~ (Forall (fun s => s < n) l /\ NoDup l /\ (forall s, In s l -> ~ In s seen)) /\ exists m, switch_settings n l seen = Err m).
Proof.
  induction l as [|s r IH]; intros seen; cbn [switch_settings].
  { left. split; [constructor|]. split; [constructor|]. split; [easy|]. rewrite app_nil_r. reflexivity. }
  destruct (s >=? n) eqn:E1; rewrite Z.geb_leb in E1.
  { right. split; [|eauto]. intros (F & _). apply Forall_inv in F. lia. }
  destruct (existsb (Z.eqb s) seen) eqn:E2.
  { right. split; [|eauto]. intros (_ & _ & F). apply existsb_exists in E2. destruct E2 as (x & Hx & Ex).
    apply Z.eqb_eq in Ex. subst x. apply (F s); [left; reflexivity|exact Hx]. }
  assert (N : ~ In s seen).
  { intros H. assert (existsb (Z.eqb s) seen = true) by (apply existsb_exists; exists s; rewrite Z.eqb_refl; auto). congruence. }
  destruct (IH (seen ++ [s])) as [(F & ND & D & ->)|(F & M)].
  - left. split; [constructor; [lia|exact F]|]. split.
    + constructor; [|exact ND]. intros H. apply (D s H). apply in_or_app. right. left. reflexivity.
    + split; [|rewrite <- app_assoc; reflexivity]. intros x [<-|H]; [exact N|]. intros H'. apply (D x H). apply in_or_app. auto.
  - right. split; [|exact M]. intros (F1 & F2 & F3). apply F. inversion F1. inversion F2 as [|? ? N1 N2]. subst.
    split; [assumption|]. split; [assumption|]. intros x H H'. apply in_app_or in H'. destruct H' as [H'|[<-|[]]]; [|contradiction].
    apply (F3 x); [right; exact H|exact H'].
Qed.
Lemma add_switch b l : zlen (b_settings b) <= 255 ->
  (switch_acceptable b l /\
   AddSwitch b l = (with_switches b (b_switches b ++ [l]), Ok (zlen (b_switches b)))) \/
  (~ switch_acceptable b l /\ exists m, AddSwitch b l = (b, Err m)).
Proof.
  intros HS. unfold AddSwitch, switch_acceptable. pose proof (zlen_nonneg (b_settings b)).
  destruct ((zlen l <? 1) || (zlen l >? 255)) eqn:E1; rewrite Z.gtb_ltb in E1.
  { right. split; [|eauto]. apply orb_true_iff in E1. lia. }
  apply orb_false_iff in E1.
  destruct (zlen (b_switches b) >=? 254) eqn:E2; rewrite Z.geb_leb in E2; [right; split; [lia|eauto]|].
  assert (U : u8 (zlen (b_settings b)) = zlen (b_settings b)) by (apply u8_id; unfold byte; lia). rewrite U.
  destruct (switch_settings_spec (zlen (b_settings b)) l []) as [(F & ND & _ & ->)|(F & (m & ->))].
  - left. split; [split; [lia|]; split; [lia|]; split; assumption|]. cbn [app]. f_equal. f_equal.
    pose proof (zlen_nonneg (b_switches b)). apply u8_id. unfold byte. lia.
  - right. split; [|eauto]. intros (_ & _ & F1 & F2). apply F. split; [exact F2|]. split; [exact F1|]. auto.
Qed.

(** ** Histories *)
Lemma build_builder o sort b : fst (Build o sort b) = b \/
  (b_dyes b = [] /\ b_palettes b = [] /\ fst (Build o sort b) = with_colors b [(str_bytes "main", [255])] []).
Proof.
  unfold Build. destruct (_ >? MaxGlyphs); [auto|]. destruct (negb _); [auto|]. destruct (_ =? 0); [auto|].
  destruct (build_header b); [|auto..]. destruct (GetMetricsStatus b); [|auto..].
  assert (H : fst (main_dye b) = b \/ (b_dyes b = [] /\ b_palettes b = [] /\ fst (main_dye b) = with_colors b [(str_bytes "main", [255])] [])).
  { unfold main_dye. destruct (_ >? 255); [auto|]. destruct (_ =? 0) eqn:E; [|auto]. right.
    pose proof (zlen_nonneg (b_dyes b)). pose proof (zlen_nonneg (b_palettes b)).
    assert (E1 : b_dyes b = []) by (apply zlen_0_nil; lia). assert (E2 : b_palettes b = []) by (apply zlen_0_nil; lia).
    split; [exact E1|]. split; [exact E2|]. 
    destruct (add_dye b (str_bytes "main") [255]) as [(_ & _ & ->)|([H1|H1] & _)].
    - rewrite E1, E2. reflexivity.
    - unfold color_names in H1. rewrite E1, E2 in H1. destruct H1.
    - unfold color_count in H1. rewrite E1, E2 in H1. cbn in H1. change (zlen (@nil Z)) with 0 in H1.
      change (zlen (@nil rgba)) with 0 in H1. unfold zlen in H1. cbn in H1. lia. }
  destruct (main_dye b) as [b' r]. cbn [fst] in H. destruct r; exact H.
Qed.

Ltac split_if := match goal with
  | |- context [if ?c then _ else _] => destruct c
  | |- context [match ?x with _ => _ end] => destruct x
  end.
Ltac frame_op := repeat split_if; reflexivity.
Ltac unfold_ops := unfold AddDye, AddPalette, AddSetting, AddSwitch, Map, MapGroup, MapWithSwitchSingles, MapWithSwitch,
  SetFirstVerDate, SetMajorVerDate, SetMinorVerDate, set_date, RaiseMajorVersion, RaiseMinorVersion, SetVersion,
  SetName, SetFamily, SetAuthor, SetAbout, set_text, SetMetric, SetVertLayoutUsed, AddGlyph, SetGlyphPlacement, SetGlyphName,
  SetKerningPair, CreateGlyphSet, RemoveGlyphSet, AddGlyphSetRange, RemoveGlyphSetRange, AddGlyphSetListGlyph,
  RemoveGlyphSetListGlyph, CreateRuneSet, RemoveRuneSet, AddRuneSetRange, RemoveRuneSetRange, AddRuneSetListRune,
  RemoveRuneSetListRune, AddSimpleUtf8RewriteRule, AddGlyphRewriteRule.

Lemma frame_colors b op : match op with OAddDye _ _ | OAddPalette _ _ | OBuild _ _ => True | _ =>
  b_dyes (bstep b op) = b_dyes b /\ b_palettes (bstep b op) = b_palettes b end.
Proof. destruct op; try exact I; cbn [bstep]; unfold_ops; cbv zeta; split; frame_op. Qed.
Lemma frame_settings b op : match op with OAddSetting _ _ => True | _ => b_settings (bstep b op) = b_settings b end.
Proof.
  destruct op; try exact I; cbn [bstep]; try (unfold_ops; cbv zeta; frame_op).
  destruct (build_builder o sort b) as [->|(_ & _ & ->)]; reflexivity.
Qed.
Lemma frame_switches b op : match op with OAddSwitch _ => True | _ => b_switches (bstep b op) = b_switches b end.
Proof.
  destruct op; try exact I; cbn [bstep]; try (unfold_ops; cbv zeta; frame_op).
  destruct (build_builder o sort b) as [->|(_ & _ & ->)]; reflexivity.
Qed.

Lemma NoDup_snoc {A} (l : list A) x : NoDup l -> ~ In x l -> NoDup (l ++ [x]).
Proof. intros H N. apply (Permutation_NoDup (Permutation_cons_append _ _)). constructor; assumption. Qed.
Lemma colors_step b op : colors_ok b -> colors_ok (bstep b op).
Proof.
  intros [ND C]. pose proof (frame_colors b op) as F. destruct op;
    try (destruct F as [F1 F2]; unfold colors_ok, color_names, color_count in *; rewrite F1, F2; auto); cbn [bstep].
  - destruct (add_dye b name alphas) as [(H1 & H2 & ->)|(_ & m & ->)]; [|split; assumption].
    unfold colors_ok, color_names, color_count in *. cbn. rewrite !map_app, concat_app. cbn.
    rewrite app_nil_r, zlen_app. split; [|lia]. rewrite <- app_assoc. cbn.
    apply (Permutation_NoDup (Permutation_middle _ _ _)). constructor; assumption.
  - destruct (add_palette b name colors) as [(H1 & H2 & ->)|(_ & m & ->)]; [|split; assumption].
    unfold colors_ok, color_names, color_count in *. cbn. rewrite !map_app, concat_app. cbn.
    rewrite app_nil_r, zlen_app. split; [|lia]. rewrite app_assoc. apply NoDup_snoc; assumption.
  - destruct (build_builder o sort b) as [->|(E1 & E2 & ->)]; [split; assumption|].
    unfold colors_ok, color_names, color_count. cbn. split; [|unfold zlen; cbn; lia].
    constructor; [easy|constructor].
Qed.
Lemma settings_step b op : settings_ok b -> settings_ok (bstep b op).
Proof.
  intros H. pose proof (frame_settings b op) as F. destruct op;
    try (unfold settings_ok, setting_names in *; rewrite F; exact H); cbn [bstep].
  destruct (add_setting b name options) as [((A1 & A2 & A3 & A4 & A5) & ->)|(_ & m & ->)]; [|exact H].
  destruct H as (H1 & H2 & H3). unfold settings_ok, setting_names. cbn. rewrite map_app. split; [apply NoDup_snoc; assumption|].
  rewrite zlen_app. split; [unfold zlen in *; cbn; lia|]. apply Forall_app. split; [exact H3|]. constructor; [cbn; auto|constructor].
Qed.
Lemma switches_step b op : op_typed op -> settings_ok b -> switches_ok b -> switches_ok (bstep b op).
Proof.
  intros T HS [H1 H2]. pose proof (frame_switches b op) as F. pose proof (frame_settings b op) as F2.
  assert (M : forall b', b_switches b' = b_switches b -> zlen (b_settings b) <= zlen (b_settings b') -> switches_ok b').
  { intros b' E L. split; [rewrite E; exact H1|]. rewrite E. eapply Forall_impl; [|exact H2]. cbn. intros sw (S1 & S2 & S3).
    split; [exact S1|]. split; [exact S2|]. eapply Forall_impl; [|exact S3]. cbn. intros. lia. }
  destruct op; try (apply M; [exact F|rewrite F2; lia]); cbn [bstep] in *.
  - apply M; [exact F|]. destruct (add_setting b name options) as [(_ & ->)|(_ & m & ->)]; cbn; [|lia].
    rewrite zlen_app. pose proof (zlen_nonneg [(name, options)]). lia.
  - destruct HS as (_ & S2 & _). destruct (add_switch b settings S2) as [((A1 & A2 & A3 & A4) & ->)|(_ & m & ->)]; [|split; assumption].
    split; cbn.
    + rewrite zlen_app. unfold zlen in *. cbn. lia.
    + apply Forall_app. split; [exact H2|]. constructor; [|constructor]. split; [intros ->; unfold zlen in A1; cbn in A1; lia|].
      split; [exact A3|]. cbn [op_typed] in T. unfold bytes in T. rewrite Forall_forall in *. intros s Hs. specialize (A4 s Hs). specialize (T s Hs). unfold byte in T. lia.
Qed.
Lemma limits_history id date ops : Forall op_typed ops ->
  let b := history id date ops in colors_ok b /\ settings_ok b /\ switches_ok b.
Proof.
  intros T. cbv zeta. unfold history. rewrite <- (rev_involutive ops) in *.
  generalize dependent (rev ops). clear ops. intros ops. induction ops as [|op r IH]; intros T.
  - cbn. unfold colors_ok, settings_ok, switches_ok, color_count, zlen. cbn. 
    repeat split; try lia; try constructor.
  - cbn [rev] in *. apply Forall_app in T. destruct T as [T1 T2]. destruct (IH T1) as (A & B & C). rewrite fold_left_app. cbn [fold_left].
    split; [apply colors_step; exact A|]. split; [apply settings_step; exact B|]. apply switches_step; [exact (Forall_inv T2)|exact B|exact C].
Qed.
(** at most one section per color index when no section is empty *)
Lemma nonempty_count {A} (l : list (list Z * list A)) : Forall (fun x => snd x <> []) l -> zlen l <= zlen (concat (map snd l)).
Proof.
  induction l as [|x r IH]; intros F; cbn; [rewrite !zlen_nil; lia|]. rewrite zlen_cons, zlen_app. specialize (IH (Forall_inv_tail F)).
  pose proof (Forall_inv F) as N. cbn in N. destruct (snd x); [congruence|]. rewrite zlen_cons. pose proof (zlen_nonneg l). lia.
Qed.
Lemma sections_bound b : colors_ok b -> Forall (fun x => snd x <> []) (b_dyes b) -> Forall (fun x => snd x <> []) (b_palettes b) ->
  color_sections_ok b.
Proof.
  intros [_ C] F1 F2. unfold color_sections_ok, color_count in *. apply nonempty_count in F1. apply nonempty_count in F2. lia.
Qed.
Definition nonempty_section (op : bop) : Prop :=
  match op with OAddDye _ a => a <> [] | OAddPalette _ c => c <> [] | _ => True end.
Lemma nonempty_step b op : nonempty_section op ->
  Forall (fun x => snd x <> []) (b_dyes b) /\ Forall (fun x => snd x <> []) (b_palettes b) ->
  Forall (fun x => snd x <> []) (b_dyes (bstep b op)) /\ Forall (fun x => snd x <> []) (b_palettes (bstep b op)).
Proof.
  intros N [H1 H2]. pose proof (frame_colors b op) as F. destruct op;
    try (destruct F as [F1 F2]; rewrite F1, F2; split; assumption); cbn [bstep].
  - destruct (add_dye b name alphas) as [(_ & _ & ->)|(_ & m & ->)]; [|split; assumption]. cbn. split; [|assumption].
    apply Forall_app. split; [assumption|]. constructor; [exact N|constructor].
  - destruct (add_palette b name colors) as [(_ & _ & ->)|(_ & m & ->)]; [|split; assumption]. cbn. split; [assumption|].
    apply Forall_app. split; [assumption|]. constructor; [exact N|constructor].
  - destruct (build_builder o sort b) as [->|(E1 & E2 & ->)]; [split; assumption|]. cbn. split; [|constructor].
    constructor; [discriminate|constructor].
Qed.
Lemma sections_history id date ops : Forall op_typed ops -> Forall nonempty_section ops ->
  color_sections_ok (history id date ops).
Proof.
  intros T N. apply sections_bound; [apply limits_history; exact T|..]; clear T;
  unfold history; rewrite <- (rev_involutive ops) in *; generalize dependent (rev ops); clear ops; intros ops;
  (assert (G : Forall nonempty_section (rev ops) ->
     Forall (fun x => snd x <> []) (b_dyes (fold_left bstep (rev ops) (New id date))) /\
     Forall (fun x => snd x <> []) (b_palettes (fold_left bstep (rev ops) (New id date))));
   [|intros N; apply (G N)]);
  induction ops as [|op r IH]; intros N; [split; constructor| |split; constructor|];
  cbn [rev] in *; apply Forall_app in N; destruct N as [T1 T2]; rewrite fold_left_app; cbn [fold_left];
  (apply nonempty_step; [exact (Forall_inv T2)|exact (IH T1)]).
Qed.

(** ** Sets *)
Lemma slices_Delete_none {A} (l : list A) i : slices_Delete l i i = l.
Proof. unfold slices_Delete. apply firstn_skipn. Qed.
Lemma index_of_some {A} (p : A -> bool) l : forall i, index_of p i l = None <-> existsb p l = false.
Proof.
  induction l as [|x r IH]; intros i; cbn; [tauto|]. destruct (p x); cbn; [split; discriminate|apply IH].
Qed.
Lemma range_is_in first last l : existsb (range_is first last) l = true <-> In (first, last) l.
Proof.
  rewrite existsb_exists. unfold range_is. split.
  - intros ([a c] & H & E). cbn in E. apply andb_true_iff in E. rewrite !Z.eqb_eq in E. destruct E as [-> ->]. exact H.
  - intros H. exists (first, last). cbn. rewrite !Z.eqb_refl. auto.
Qed.
Lemma eqb_in x l : existsb (Z.eqb x) l = true <-> In x l.
Proof.
  rewrite existsb_exists. split; [intros (y & H & E); apply Z.eqb_eq in E; subst; exact H|]. intros H. exists x. rewrite Z.eqb_refl. auto.
Qed.
(** what the four removals do, for a map of sets *)
Lemma remove_range b uid first last b' r : RemoveGlyphSetRange b uid first last = (b', r) ->
  (r = true <-> exists s, m_get Z.eqb (b_glyphSets b) uid = Some s /\ In (first, last) (bs_ranges s)) /\
  (forall k, m_get Z.eqb (b_glyphSets b') k = m_get Z.eqb (b_glyphSets b) k) /\
  b' = with_glyphSets b (b_glyphSets b') (b_setsOrder b).
Proof.
  unfold RemoveGlyphSetRange. assert (Rfl : b = with_glyphSets b (b_glyphSets b) (b_setsOrder b)) by (destruct b; reflexivity).
  destruct (m_get Z.eqb (b_glyphSets b) uid) as [s|] eqn:G.
  2:{ intros E. inversion E. subst. split; [split; [discriminate|intros (s & H & _); discriminate]|]. split; [reflexivity|exact Rfl]. }
  destruct (index_of (range_is first last) 0 (bs_ranges s)) eqn:I; intros E; inversion E; subst.
  - split; [split; [|reflexivity]|].
    + intros _. exists s. split; [reflexivity|]. apply range_is_in. destruct (existsb _ _) eqn:X; [reflexivity|].
      apply index_of_some with (i := 0) in X. congruence.
    + split; [|reflexivity]. intros k. cbn. rewrite (m_get_set _ Z.eqb_eq), slices_Delete_none.
      destruct (Z.eqb_spec k uid) as [->|]; [|reflexivity]. rewrite G. destruct s; reflexivity.
  - split; [split; [discriminate|]|split; [reflexivity|exact Rfl]]. intros (s' & H & H'). inversion H. subst s'.
    apply range_is_in in H'. apply index_of_some in I. congruence.
Qed.
Lemma remove_listed b uid g b' r : RemoveGlyphSetListGlyph b uid g = (b', r) ->
  (r = true <-> exists s, m_get Z.eqb (b_glyphSets b) uid = Some s /\ In g (bs_list s)) /\
  (forall k, m_get Z.eqb (b_glyphSets b') k = m_get Z.eqb (b_glyphSets b) k) /\
  b' = with_glyphSets b (b_glyphSets b') (b_setsOrder b).
Proof.
  unfold RemoveGlyphSetListGlyph. assert (Rfl : b = with_glyphSets b (b_glyphSets b) (b_setsOrder b)) by (destruct b; reflexivity).
  destruct (m_get Z.eqb (b_glyphSets b) uid) as [s|] eqn:G.
  2:{ intros E. inversion E. subst. split; [split; [discriminate|intros (s & H & _); discriminate]|]. split; [reflexivity|exact Rfl]. }
  destruct (index_of (Z.eqb g) 0 (bs_list s)) eqn:I; intros E; inversion E; subst.
  - split; [split; [|reflexivity]|].
    + intros _. exists s. split; [reflexivity|]. apply eqb_in. destruct (existsb _ _) eqn:X; [reflexivity|].
      apply index_of_some with (i := 0) in X. congruence.
    + split; [|reflexivity]. intros k. cbn. rewrite (m_get_set _ Z.eqb_eq), slices_Delete_none.
      destruct (Z.eqb_spec k uid) as [->|]; [|reflexivity]. rewrite G. destruct s; reflexivity.
  - split; [split; [discriminate|]|split; [reflexivity|exact Rfl]]. intros (s' & H & H'). inversion H. subst s'.
    apply eqb_in in H'. apply index_of_some in I. congruence.
Qed.
Lemma remove_rune_range b uid first last b' r : RemoveRuneSetRange b uid first last = (b', r) ->
  (r = true <-> exists s, m_get Z.eqb (rune_sets b) uid = Some s /\ In (first, last) (bs_ranges s)) /\
  (forall k, m_get Z.eqb (rune_sets b') k = m_get Z.eqb (rune_sets b) k) /\
  b' = with_runeSets b (b_runeSets b').
Proof.
  unfold RemoveRuneSetRange. assert (Rfl : b = with_runeSets b (b_runeSets b)) by (destruct b; reflexivity).
  destruct (m_get Z.eqb (rune_sets b) uid) as [s|] eqn:G.
  2:{ intros E. inversion E. subst. split; [split; [discriminate|intros (s & H & _); discriminate]|]. split; [reflexivity|exact Rfl]. }
  destruct (index_of (range_is first last) 0 (bs_ranges s)) eqn:I; intros E; inversion E; subst.
  - split; [split; [|reflexivity]|].
    + intros _. exists s. split; [reflexivity|]. apply range_is_in. destruct (existsb _ _) eqn:X; [reflexivity|].
      apply index_of_some with (i := 0) in X. congruence.
    + split; [|reflexivity]. intros k. cbn. rewrite (m_get_set _ Z.eqb_eq), slices_Delete_none.
      destruct (Z.eqb_spec k uid) as [->|]; [|reflexivity]. rewrite G. destruct s; reflexivity.
  - split; [split; [discriminate|]|split; [reflexivity|exact Rfl]]. intros (s' & H & H'). inversion H. subst s'.
    apply range_is_in in H'. apply index_of_some in I. congruence.
Qed.
Lemma remove_rune_listed b uid g b' r : RemoveRuneSetListRune b uid g = (b', r) ->
  (r = true <-> exists s, m_get Z.eqb (rune_sets b) uid = Some s /\ In g (bs_list s)) /\
  (forall k, m_get Z.eqb (rune_sets b') k = m_get Z.eqb (rune_sets b) k) /\
  b' = with_runeSets b (b_runeSets b').
Proof.
  unfold RemoveRuneSetListRune. assert (Rfl : b = with_runeSets b (b_runeSets b)) by (destruct b; reflexivity).
  destruct (m_get Z.eqb (rune_sets b) uid) as [s|] eqn:G.
  2:{ intros E. inversion E. subst. split; [split; [discriminate|intros (s & H & _); discriminate]|]. split; [reflexivity|exact Rfl]. }
  destruct (index_of (Z.eqb g) 0 (bs_list s)) eqn:I; intros E; inversion E; subst.
  - split; [split; [|reflexivity]|].
    + intros _. exists s. split; [reflexivity|]. apply eqb_in. destruct (existsb _ _) eqn:X; [reflexivity|].
      apply index_of_some with (i := 0) in X. congruence.
    + split; [|reflexivity]. intros k. cbn. rewrite (m_get_set _ Z.eqb_eq), slices_Delete_none.
      destruct (Z.eqb_spec k uid) as [->|]; [|reflexivity]. rewrite G. destruct s; reflexivity.
  - split; [split; [discriminate|]|split; [reflexivity|exact Rfl]]. intros (s' & H & H'). inversion H. subst s'.
    apply eqb_in in H'. apply index_of_some in I. congruence.
Qed.
(** adding *)
Lemma add_range b uid first last b' : AddGlyphSetRange b uid first last = (b', Ok tt) ->
  exists s, m_get Z.eqb (b_glyphSets b) uid = Some s /\ ~ In (first, last) (bs_ranges s) /\
    forall k, m_get Z.eqb (b_glyphSets b') k =
      if k =? uid then Some (mkBSet (bs_ranges s ++ [(first, last)]) (bs_list s)) else m_get Z.eqb (b_glyphSets b) k.
Proof.
  unfold AddGlyphSetRange. destruct (m_get Z.eqb (b_glyphSets b) uid) as [s|]; [|discriminate].
  repeat (destruct (_ >=? _); [discriminate|]). repeat (destruct (negb _); [discriminate|]).
  destruct (existsb _ _) eqn:E; [discriminate|]. intros H. inversion H. exists s. split; [reflexivity|].
  split; [intros X; apply range_is_in in X; congruence|]. intros k. cbn. apply (m_get_set _ Z.eqb_eq).
Qed.
Lemma add_listed b uid g b' : AddGlyphSetListGlyph b uid g = (b', Ok tt) ->
  exists s, m_get Z.eqb (b_glyphSets b) uid = Some s /\ ~ In g (bs_list s) /\
    forall k, m_get Z.eqb (b_glyphSets b') k =
      if k =? uid then Some (mkBSet (bs_ranges s) (bs_list s ++ [g])) else m_get Z.eqb (b_glyphSets b) k.
Proof.
  unfold AddGlyphSetListGlyph. destruct (m_get Z.eqb (b_glyphSets b) uid) as [s|]; [|discriminate].
  repeat (destruct (_ >=? _); [discriminate|]). repeat (destruct (negb _); [discriminate|]).
  destruct (existsb _ _) eqn:E; [discriminate|]. intros H. inversion H. exists s. split; [reflexivity|].
  split; [intros X; apply eqb_in in X; congruence|]. intros k. cbn. apply (m_get_set _ Z.eqb_eq).
Qed.

(** ** Removed sets stay in the order of the sets *)
Lemma m_set_len {K V} (eqb : K -> K -> bool) (eqb_true : forall a b, eqb a b = true <-> a = b) (m : list (K * V)) k v :
  zlen (m_set eqb m k v) = zlen m + (if m_has eqb m k then 0 else 1).
Proof.
  pose proof (f_equal zlen (m_set_keys eqb eqb_true m k v)) as E. destruct (m_has eqb m k); rewrite ?zlen_app in E;
    unfold zlen in *; rewrite ?map_length in E; cbn in E; lia.
Qed.
Lemma filter_len {A} (p : A -> bool) l : zlen (filter p l) <= zlen l.
Proof. induction l as [|x r IH]; cbn; [lia|]. destruct (p x); rewrite !zlen_cons; lia. Qed.
Lemma m_del_len {V} (m : list (Z * V)) k : m_has Z.eqb m k = true -> zlen (m_del Z.eqb m k) < zlen m.
Proof.
  intros H. apply (m_has_true _ Z.eqb_eq) in H. unfold m_del. induction m as [|[k0 v0] r IH]; [easy|].
  cbn in *. rewrite zlen_cons. pose proof (filter_len (fun e : Z * V => negb (k =? fst e)) r).
  destruct (Z.eqb_spec k k0) as [->|N]; cbn [negb]; [lia|]. rewrite zlen_cons.
  destruct H as [H|H]; [congruence|]. specialize (IH H). lia.
Qed.
Definition set_lag (b : builder) : Z := zlen (b_setsOrder b) - zlen (b_glyphSets b).
Lemma set_lag_step b op : set_lag b <= set_lag (bstep b op).
Proof.
  destruct op; cbn [bstep];
    try (unfold_ops; cbv zeta; repeat split_if; unfold set_lag; cbn [fst b_setsOrder b_glyphSets with_header with_metrics with_glyphs
      with_colors with_settings with_switches with_mapping with_runeSets put_rune_set with_rules with_kerning]; lia).
  - unfold CreateGlyphSet. destruct (_ >=? 255); [cbn; lia|]. destruct random as [|uid r]; [cbn; lia|].
    destruct (m_has Z.eqb (b_glyphSets b) uid) eqn:E; [cbn; lia|]. unfold set_lag. cbn.
    rewrite (m_set_len _ Z.eqb_eq), E, zlen_app. change (zlen [uid]) with 1. lia.
  - unfold RemoveGlyphSet. destruct (m_has Z.eqb (b_glyphSets b) uid) eqn:E; [|cbn; lia].
    apply m_del_len in E. unfold set_lag. cbn. lia.
  - unfold AddGlyphSetRange. destruct (m_get Z.eqb (b_glyphSets b) uid) eqn:G; [|cbn; lia].
    repeat split_if; unfold set_lag; cbn [fst b_setsOrder b_glyphSets with_glyphSets]; try lia.
    rewrite (m_set_len _ Z.eqb_eq). unfold m_has. rewrite G. lia.
  - unfold RemoveGlyphSetRange. destruct (m_get Z.eqb (b_glyphSets b) uid) eqn:G; [|cbn; lia].
    repeat split_if; unfold set_lag; cbn [fst b_setsOrder b_glyphSets with_glyphSets]; try lia.
    rewrite (m_set_len _ Z.eqb_eq). unfold m_has. rewrite G. lia.
  - unfold AddGlyphSetListGlyph. destruct (m_get Z.eqb (b_glyphSets b) uid) eqn:G; [|cbn; lia].
    repeat split_if; unfold set_lag; cbn [fst b_setsOrder b_glyphSets with_glyphSets]; try lia.
    rewrite (m_set_len _ Z.eqb_eq). unfold m_has. rewrite G. lia.
  - unfold RemoveGlyphSetListGlyph. destruct (m_get Z.eqb (b_glyphSets b) uid) eqn:G; [|cbn; lia].
    repeat split_if; unfold set_lag; cbn [fst b_setsOrder b_glyphSets with_glyphSets]; try lia.
    rewrite (m_set_len _ Z.eqb_eq). unfold m_has. rewrite G. lia.
  - destruct (build_builder o sort b) as [->|(_ & _ & ->)]; unfold set_lag; cbn; lia.
Qed.
Lemma set_lag_steps ops : forall b, set_lag b <= set_lag (fold_left bstep ops b).
Proof.
  induction ops as [|op r IH]; intros b; cbn [fold_left]; [lia|]. specialize (IH (bstep b op)). pose proof (set_lag_step b op). lia.
Qed.
Lemma set_lag_history id date ops : 0 <= set_lag (history id date ops).
Proof. change 0 with (set_lag (New id date)). apply set_lag_steps. Qed.

(** the intermediate results of a successful bind *)
Lemma bind_ok_inv {A B} (x : outcome A) (k : A -> outcome B) r : bind x k = Ok r -> exists a, x = Ok a /\ k a = Ok r.
Proof. destruct x; cbn; intros H; [eauto|discriminate..]. Qed.
Ltac binds H := repeat (apply bind_ok_inv in H; let E := fresh "E" in destruct H as ([? ?] & E & H) || destruct H as (? & E & H)).

Lemma sections_sets o sort b om data f : build_sections o sort b om data = Ok f -> set_lag b = 0.
Proof.
  unfold build_sections. cbv zeta. intros H.
  repeat (apply bind_ok_inv in H; let E := fresh "E" in destruct H as (? & E & H); try
    match type of H with (let (_, _) := ?p in _) = _ => destruct p; try match type of H with (let (_, _) := ?p in _) = _ => destruct p end end).
  match goal with E : build_glyph_sets _ _ _ = _ |- _ => unfold build_glyph_sets in E; clear - E; rename E into H end.
  destruct (_ >? 255); [discriminate|]. destruct (zlen (b_glyphSets b) =? zlen (b_setsOrder b)) eqn:E; [|discriminate].
  unfold set_lag. lia.
Qed.
Lemma build_sets o sort b b' f : Build o sort b = (b', Ok f) -> set_lag b = 0.
Proof.
  intros H. assert (S' : set_lag b' = 0 /\ (b' = b \/ set_lag b' = set_lag b)).
  { assert (B : b' = fst (Build o sort b)) by (rewrite H; reflexivity). split.
    - unfold Build in H. destruct (_ >? MaxGlyphs); [discriminate|]. destruct (negb _); [discriminate|]. destruct (_ =? 0); [discriminate|].
      destruct (build_header b); [|discriminate..]. destruct (GetMetricsStatus b); [|discriminate..].
      destruct (main_dye b) as [b1 [u|m| |]]; [|discriminate..]. inversion H. subst b1. eapply sections_sets. eassumption.
    - right. rewrite B. destruct (build_builder o sort b) as [->|(_ & _ & ->)]; reflexivity. }
  destruct S' as [S1 [->|S2]]; congruence.
Qed.
Lemma removed_never_builds id date ops uid later : let b := history id date ops in
  snd (RemoveGlyphSet b uid) = true ->
  forall o sort b' f, Build o sort (fold_left bstep later (fst (RemoveGlyphSet b uid))) <> (b', Ok f).
Proof.
  cbv zeta. intros H o sort b' f E. apply build_sets in E.
  pose proof (set_lag_steps later (fst (RemoveGlyphSet (history id date ops) uid))) as L.
  pose proof (set_lag_history id date ops) as L0. unfold RemoveGlyphSet in *.
  destruct (m_has Z.eqb (b_glyphSets (history id date ops)) uid) eqn:M; [|discriminate].
  apply m_del_len in M. cbn [fst] in *. unfold set_lag in *. cbn in L. lia.
Qed.
Lemma remove_set b uid :
  (snd (RemoveGlyphSet b uid) = true <-> In uid (map fst (b_glyphSets b))) /\
  (forall k, m_get Z.eqb (b_glyphSets (fst (RemoveGlyphSet b uid))) k = if k =? uid then None else m_get Z.eqb (b_glyphSets b) k).
Proof.
  unfold RemoveGlyphSet. rewrite <- (m_has_true _ Z.eqb_eq). destruct (m_has Z.eqb (b_glyphSets b) uid) eqn:E; cbn.
  - split; [tauto|]. intros k. apply (m_get_del _ Z.eqb_eq).
  - split; [tauto|]. intros k. destruct (Z.eqb_spec k uid) as [->|]; [|reflexivity]. unfold m_has in E.
    destruct (m_get Z.eqb (b_glyphSets b) uid); [discriminate|reflexivity].
Qed.
