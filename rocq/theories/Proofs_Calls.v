(** Calls that add mappings, kernings, sets and rules to a builder. *)
From Verif Require Import Base BaseFacts Spec_Helpers Model_Helpers Proofs_Helpers Model_Builder Spec_Builder Proofs_Builder Spec_Rules
  Proofs_Build6 Proofs_Build7 Proofs_Scanner2 Proofs_Scanner3 Spec_Calls.

Lemma known_has b u : m_has Z.eqb (b_glyphs b) u = true <-> glyph_known b u.
Proof. apply m_has_true. apply Z.eqb_eq. Qed.
Lemma set_known_has b u : m_has Z.eqb (b_glyphSets b) u = true <-> set_known b u.
Proof. apply m_has_true. apply Z.eqb_eq. Qed.
Lemma known_all b l : forallb (m_has Z.eqb (b_glyphs b)) l = true <-> Forall (glyph_known b) l.
Proof. rewrite forallb_forall, Forall_forall. split; intros H x Hx; apply known_has, H, Hx. Qed.
Lemma maps_set b cp e : maps b cp e (with_mapping b (m_set Z.eqb (b_mapping b) cp e)).
Proof.
  unfold maps, mapping_at. cbn. rewrite (m_get_set Z.eqb Z.eqb_eq), Z.eqb_refl. split; [reflexivity|]. split; [|reflexivity].
  intros c N. rewrite (m_get_set Z.eqb Z.eqb_eq). destruct (Z.eqb_spec c cp); [contradiction|reflexivity].
Qed.
Lemma sets_set b uid s o : sets b uid s (with_glyphSets b (m_set Z.eqb (b_glyphSets b) uid s) o).
Proof.
  unfold sets, set_at. cbn. rewrite (m_get_set Z.eqb Z.eqb_eq), Z.eqb_refl. split; [reflexivity|]. split; [|reflexivity].
  intros c N. rewrite (m_get_set Z.eqb Z.eqb_eq). destruct (Z.eqb_spec c uid); [contradiction|reflexivity].
Qed.
Definition refused (b b' : builder) {A} (r : outcome A) : Prop := b' = b /\ exists m, r = Err m.

Ltac refuse := intros ZZ; injection ZZ as <- <-; split; [split; [discriminate|]|split; [discriminate|intros _; split; [reflexivity|eexists; reflexivity]]].
Ltac accept := intros ZZ; injection ZZ as <- <-; split; [split; [intros _|reflexivity]|split; [intros _|congruence]].

(** ** Mappings *)
Lemma map_spec b cp uid b' r : Map b cp uid = (b', r) ->
  (r = Ok tt <-> 32 <= cp /\ glyph_known b uid) /\
  (r = Ok tt -> maps b cp (mkMapEntry 255 [mkMapGroup [uid] 0]) b') /\ (r <> Ok tt -> b' = b /\ exists m, r = Err m).
Proof.
  unfold Map. pose proof (known_has b uid) as K. destruct (Z.ltb_spec cp 32); [refuse; lia|]. destruct (m_has Z.eqb (b_glyphs b) uid); cbn [negb].
  - accept; [split; [lia|apply K; reflexivity]|apply maps_set].
  - refuse. intros [_ X]. apply K in X. discriminate.
Qed.
Lemma map_group_spec b cp fl uids b' r : MapGroup b cp fl uids = (b', r) ->
  (r = Ok tt <-> 32 <= cp /\ 2 <= zlen uids <= 127 /\ Forall (glyph_known b) uids) /\
  (r = Ok tt -> maps b cp (mkMapEntry 254 [mkMapGroup uids fl]) b') /\ (r <> Ok tt -> b' = b /\ exists m, r = Err m).
Proof.
  unfold MapGroup. pose proof (known_all b uids) as K. rewrite Z.gtb_ltb. destruct (Z.ltb_spec cp 32); [refuse; lia|]. destruct (Z.ltb_spec (zlen uids) 2); [refuse; lia|].
  destruct (Z.ltb_spec 127 (zlen uids)); [refuse; lia|]. destruct (forallb _ uids); cbn [negb].
  - accept; [split; [lia|split; [lia|apply K; reflexivity]]|apply maps_set].
  - refuse. intros (_ & _ & X). apply K in X. discriminate.
Qed.

Lemma setting_get b s : 0 <= s < zlen (b_settings b) -> zget (b_settings b) s = Ok (nth (Z.to_nat s) (b_settings b) ([], [])).
Proof.
  intros H. unfold zget. replace (s <? 0) with false by lia. unfold zlen in H. rewrite (nth_error_nth' _ ([], [])) by lia. reflexivity.
Qed.
Lemma cases_loop b sw : forall n first, Forall (fun s => 0 <= s < zlen (b_settings b)) sw -> (first = true -> n = 0) ->
  ofold (fun '(numCases, first) settingIndex =>
      do setting <- zget (b_settings b) settingIndex;
      let numOptions := zlen (snd setting) in
      if numOptions =? 0 then Panic
      else Ok ((if (first : bool) then numOptions else numCases * numOptions), false)) sw (n, first) =
  if existsb (fun s => options_of b s =? 0) sw then Panic
  else Ok (match sw with [] => n | _ => (if first then 1 else n) * combinations b sw end, match sw with [] => first | _ => false end).
Proof.
  induction sw as [|s sw IH]; intros n first H H0; cbn [ofold existsb]; [reflexivity|].
  rewrite (setting_get b s (Forall_inv H)). cbn [bind]. fold (options_of b s). cbv zeta. destruct (Z.eqb_spec (options_of b s) 0); cbn [orb bind]; [reflexivity|].
  rewrite IH by (try discriminate; apply (Forall_inv_tail H)). destruct (existsb _ sw); [reflexivity|]. f_equal.
  destruct sw as [|t sw]; unfold combinations; cbn [map fold_right]; destruct first; f_equal; ring.
Qed.
Lemma switch_ok_at b k sw : switches_ok b -> switch_at b k = Some sw -> sw <> [] /\ Forall (fun s => 0 <= s < zlen (b_settings b)) sw.
Proof.
  intros [_ S] H. unfold switch_at in H. destruct (k <? 0); [discriminate|]. apply nth_error_In in H. rewrite Forall_forall in S. destruct (S _ H) as (X & _ & Y). auto.
Qed.
Lemma switch_get b k : 0 <= k < zlen (b_switches b) -> exists sw, switch_at b k = Some sw /\ zget (b_switches b) k = Ok sw.
Proof.
  intros H. unfold switch_at, zget. replace (k <? 0) with false by lia. unfold zlen in H. rewrite (nth_error_nth' _ []) by lia. eauto.
Qed.
Lemma compute_cases b k : switches_ok b -> k < 254 -> 0 <= k < zlen (b_switches b) ->
  (switch_unusable b k /\ (forall n, ~ switch_cases b k n) /\ computeNumSwitchCases b k = Panic) \/
  (~ switch_unusable b k /\ exists n, (forall m, switch_cases b k m <-> m = n) /\ computeNumSwitchCases b k = Ok n).
Proof.
  intros HS H1 H2. destruct (switch_get b k H2) as (sw & E1 & E2). destruct (switch_ok_at b k sw HS E1) as [N F].
  unfold computeNumSwitchCases. replace (k >=? 254) with false by lia. rewrite E2. cbn [bind]. rewrite cases_loop by auto.
  destruct (existsb _ sw) eqn:X.
  - left. apply existsb_exists in X. destruct X as (s & X1 & X2). split; [right; exists sw, s; split; [exact E1|]; split; [exact X1|lia]|].
    split; [|reflexivity]. intros n (_ & sw' & Y1 & Y2 & _). rewrite E1 in Y1. injection Y1 as <-. rewrite Forall_forall in Y2. apply Y2 in X1. lia.
  - right. assert (Y : Forall (fun s => options_of b s <> 0) sw).
    { apply Forall_forall. intros s Hs Z. assert (existsb (fun s => options_of b s =? 0) sw = true) by (apply existsb_exists; exists s; split; [exact Hs|lia]). congruence. }
    split.
    + intros [?|(sw' & s & Y1 & Y2 & Y3)]; [lia|]. rewrite E1 in Y1. injection Y1 as <-. rewrite Forall_forall in Y. apply (Y s); assumption.
    + exists (combinations b sw). split.
      * intros m. split; [intros (_ & sw' & Y1 & _ & Y2); rewrite E1 in Y1; injection Y1 as <-; exact Y2|]. intros ->. split; [exact H1|]. exists sw. auto.
      * cbn [bind]. destruct sw; [contradiction|]. f_equal. ring.
Qed.
Lemma no_switch b k : zlen (b_switches b) <= k -> switch_at b k = None.
Proof. intros H. unfold switch_at. pose proof (zlen_nonneg (b_switches b)). replace (k <? 0) with false by lia. apply nth_error_None. unfold zlen in *. lia. Qed.

Lemma singles_spec b cp k uids b' r : switches_ok b -> byte k -> MapWithSwitchSingles b cp k uids = (b', r) ->
  (r = Ok tt <-> 32 <= cp /\ switch_cases b k (zlen uids)) /\ (r = Panic <-> 32 <= cp /\ switch_unusable b k) /\ r <> Hang /\
  (r = Ok tt -> maps b cp (mkMapEntry k (map (fun u => mkMapGroup [u] 0) uids)) b') /\ (r <> Ok tt -> b' = b).
Proof.
  intros HS HK. unfold byte in HK. unfold MapWithSwitchSingles.
  destruct (Z.ltb_spec cp 32); [intros ZZ; injection ZZ as <- <-; repeat split; try discriminate; try lia|].
  rewrite !Z.geb_leb. destruct (Z.leb_spec 254 k).
  { intros ZZ; injection ZZ as <- <-. split; [split; [discriminate|intros (_ & X & _); lia]|]. split; [split; [|reflexivity]|split; [discriminate|split; [discriminate|reflexivity]]].
    intros _. split; [lia|left; lia]. }
  destruct (Z.leb_spec (zlen (b_switches b)) k).
  { intros ZZ; injection ZZ as <- <-. pose proof (no_switch b k ltac:(lia)) as N. split; [split; [discriminate|intros (_ & _ & sw & X & _); congruence]|].
    split; [split; [discriminate|]; intros (_ & [?|(sw & s & X & _)]); [lia|congruence]|]. split; [discriminate|split; [discriminate|reflexivity]]. }
  destruct (compute_cases b k HS) as [(U & N & E)|(U & n & N & E)]; [lia|lia|..]; rewrite E.
  { intros ZZ; injection ZZ as <- <-. split; [split; [discriminate|intros (_ & X); elim (N _ X)]|]. split; [split; [|reflexivity]; intros _; split; [lia|exact U]|].
    split; [discriminate|split; [discriminate|reflexivity]]. }
  destruct (Z.eqb_spec (zlen uids) n) as [En|En]; cbn [negb]; intros ZZ; injection ZZ as <- <-.
  - split; [split; [intros _; split; [lia|apply N; exact En]|reflexivity]|]. split; [split; [discriminate|tauto]|]. split; [discriminate|]. split; [|congruence]. intros _. apply maps_set.
  - split; [split; [discriminate|intros (_ & X); apply N in X; contradiction]|]. split; [split; [discriminate|tauto]|]. split; [discriminate|]. split; [discriminate|reflexivity].
Qed.

(** flags *)
Lemma multiple_cons g l : multiple (g :: l) = (if 2 <=? zlen g then 1 else 0) + multiple l.
Proof. unfold multiple. cbn [filter]. destruct (2 <=? zlen g); rewrite ?zlen_cons; lia. Qed.
Lemma multiple_nonneg l : 0 <= multiple l.
Proof. apply zlen_nonneg. Qed.
Lemma flags_spec groups : forall flags,
  match group_anim_flags groups flags with
  | Ok r => r = flags /\ Forall (fun g => g <> []) groups /\ zlen flags = multiple groups
  | Err _ => ~ first_empty groups flags /\ ~ (Forall (fun g => g <> []) groups /\ zlen flags = multiple groups)
  | Panic => first_empty groups flags
  | Hang => False
  end.
Proof.
  induction groups as [|g l IH]; intros flags; cbn [group_anim_flags].
  - destruct flags as [|f fs]; [split; [reflexivity|]; split; [constructor|reflexivity]|]. split; [intros ([|? ?] & ? & X & _); discriminate|].
    intros [_ X]. rewrite zlen_cons in X. pose proof (zlen_nonneg fs). change (multiple []) with 0 in X. lia.
  - destruct (Z.eqb_spec (zlen g) 0) as [E0|E0].
    { apply zlen_0_nil in E0. subst. exists [], l. split; [reflexivity|]. split; [constructor|]. change (multiple []) with 0. apply zlen_nonneg. }
    assert (NE : g <> []) by (intros ->; apply E0; reflexivity). pose proof (zlen_nonneg g).
    assert (FE : forall fl m, m = (if 2 <=? zlen g then 1 else 0) -> first_empty (g :: l) fl -> exists pre post, l = pre ++ [] :: post /\ Forall (fun g => g <> []) pre /\ m + multiple pre <= zlen fl).
    { intros fl m -> (pre & post & X & Y & Z). destruct pre as [|p pre]; injection X as -> ->; [contradiction|]. exists pre, post. split; [reflexivity|]. split; [apply (Forall_inv_tail Y)|].
      rewrite multiple_cons in Z. lia. }
    assert (FE' : forall fl pre post, l = pre ++ [] :: post -> Forall (fun g => g <> []) pre -> (if 2 <=? zlen g then 1 else 0) + multiple pre <= zlen fl -> first_empty (g :: l) fl).
    { intros fl pre post -> Y Z. exists (g :: pre), post. split; [reflexivity|]. split; [constructor; assumption|]. rewrite multiple_cons. exact Z. }
    rewrite multiple_cons. destruct (Z.eqb_spec (zlen g) 1) as [E1|E1].
    + specialize (IH flags). replace (2 <=? zlen g) with false in * by lia. destruct (group_anim_flags l flags) as [r|m| |].
      * destruct IH as (-> & A & B). split; [reflexivity|]. split; [constructor; assumption|lia].
      * destruct IH as (A & B). split; [|intros (C & D); apply B; split; [apply (Forall_inv_tail C)|lia]].
        intros X. apply A. destruct (FE _ _ eq_refl X) as (pre & post & X1 & X2 & X3). exists pre, post. auto.
      * destruct IH as (pre & post & X1 & X2 & X3). apply (FE' _ pre post); auto.
      * exact IH.
    + replace (2 <=? zlen g) with true in * by lia. destruct flags as [|f fs].
      * split; [|intros (_ & X); rewrite zlen_nil in X; pose proof (multiple_nonneg l); lia].
        intros X. destruct (FE _ _ eq_refl X) as (pre & post & _ & _ & X3). pose proof (multiple_nonneg pre). rewrite zlen_nil in X3. lia.
      * specialize (IH fs). rewrite zlen_cons. destruct (group_anim_flags l fs) as [r|m| |]; cbn [bind].
        -- destruct IH as (-> & A & B). split; [reflexivity|]. split; [constructor; assumption|lia].
        -- destruct IH as (A & B). split; [|intros (C & D); apply B; split; [apply (Forall_inv_tail C)|lia]].
           intros X. apply A. destruct (FE _ _ eq_refl X) as (pre & post & X1 & X2 & X3). exists pre, post. rewrite zlen_cons in X3. split; [exact X1|]. split; [exact X2|lia].
        -- destruct IH as (pre & post & X1 & X2 & X3). apply (FE' _ pre post); auto. rewrite zlen_cons. lia.
        -- exact IH.
Qed.
Lemma cases_collect fl : forall groups cs i, 0 <= i -> i + zlen groups <= zlen fl ->
  ofold (fun '(cases, i) group => do f <- zget fl i; Ok (cases ++ [mkMapGroup group f], i + 1)) groups (cs, i) =
  Ok (cs ++ map (fun x => mkMapGroup (fst x) (snd x)) (combine groups (skipn (Z.to_nat i) fl)), i + zlen groups).
Proof.
  induction groups as [|g l IH]; intros cs i H1 H2; cbn [ofold]; [cbn; rewrite app_nil_r, zlen_nil; f_equal; f_equal; lia|].
  rewrite zlen_cons in *. pose proof (zlen_nonneg l).
  assert (L : (Z.to_nat i < length fl)%nat) by (unfold zlen in *; lia).
  unfold zget at 1. replace (i <? 0) with false by lia. rewrite (nth_error_nth' _ 0 L). cbn [bind]. rewrite IH by lia.
  rewrite <- app_assoc. f_equal. f_equal; [|lia]. f_equal.
  replace (Z.to_nat (i + 1)) with (S (Z.to_nat i)) by lia.
  assert (SK : skipn (Z.to_nat i) fl = nth (Z.to_nat i) fl 0 :: skipn (S (Z.to_nat i)) fl).
  { clear - L. revert L. generalize (Z.to_nat i). intros n. revert fl. induction n as [|n IHn]; intros [|x fl] L; cbn in *; try lia; [reflexivity|]. apply IHn. lia. }
  rewrite SK. reflexivity.
Qed.
Lemma cases_short fl : forall groups cs i, 0 <= i -> zlen fl < i + zlen groups -> i <= zlen fl ->
  ofold (fun '(cases, i) group => do f <- zget fl i; Ok (cases ++ [mkMapGroup group f], i + 1)) groups (cs, i) = Panic.
Proof.
  induction groups as [|g l IH]; intros cs i H1 H2 H3; cbn [ofold]; [rewrite zlen_nil in H2; lia|].
  rewrite zlen_cons in *. destruct (Z.eq_dec i (zlen fl)) as [->|N]; [rewrite zget_panic by lia; reflexivity|].
  unfold zget at 1. replace (i <? 0) with false by lia. rewrite (nth_error_nth' _ 0) by (unfold zlen in *; lia). cbn [bind]. apply IH; lia.
Qed.
Lemma multiple_le l : multiple l <= zlen l /\ (multiple l = zlen l <-> Forall (fun g => 2 <= zlen g) l).
Proof.
  induction l as [|g l [IH1 IH2]]; [split; [reflexivity|]; split; [constructor|reflexivity]|]. rewrite multiple_cons, zlen_cons.
  destruct (Z.leb_spec 2 (zlen g)) as [E|E]; (split; [lia|]); split.
  - intros X. constructor; [exact E|]. apply IH2. lia.
  - intros X. apply Forall_inv_tail, IH2 in X. lia.
  - lia.
  - intros X. apply Forall_inv in X. lia.
Qed.

Lemma switch_spec b cp k groups flags b' r : switches_ok b -> byte k -> MapWithSwitch b cp k groups flags = (b', r) ->
  (r = Ok tt <-> 32 <= cp /\ switch_cases b k (zlen groups) /\ Forall (fun g => 2 <= zlen g) groups /\ zlen flags = zlen groups) /\
  (r = Panic <-> 32 <= cp /\ (switch_unusable b k \/ switch_cases b k (zlen groups) /\
     (first_empty groups flags \/
      Forall (fun g => g <> []) groups /\ zlen flags = multiple groups /\ Exists (fun g => zlen g = 1) groups))) /\ r <> Hang /\
  (r = Ok tt -> maps b cp (mkMapEntry k (map (fun x => mkMapGroup (fst x) (snd x)) (combine groups flags))) b') /\ (r <> Ok tt -> b' = b).
Proof.
  intros HS HK. unfold byte in HK. unfold MapWithSwitch. cbv zeta.
  destruct (Z.ltb_spec cp 32); [intros ZZ; injection ZZ as <- <-; repeat split; try discriminate; try lia|].
  rewrite !Z.geb_leb. destruct (Z.leb_spec 254 k).
  { intros ZZ; injection ZZ as <- <-. split; [split; [discriminate|intros (_ & (X & _) & _); lia]|]. split; [split; [|reflexivity]|split; [discriminate|split; [discriminate|reflexivity]]].
    intros _. split; [lia|left; left; lia]. }
  destruct (Z.leb_spec (zlen (b_switches b)) k).
  { intros ZZ; injection ZZ as <- <-. pose proof (no_switch b k ltac:(lia)) as N. split; [split; [discriminate|intros (_ & (_ & sw & X & _) & _); congruence]|].
    split; [split; [discriminate|]; intros (_ & [[?|(sw & s & X & _)]|((_ & sw & X & _) & _)]); [lia|congruence|congruence]|]. split; [discriminate|split; [discriminate|reflexivity]]. }
  destruct (compute_cases b k HS) as [(U & N & E)|(U & n & N & E)]; [lia|lia|..]; rewrite E; cbn [bind].
  { intros ZZ; injection ZZ as <- <-. split; [split; [discriminate|intros (_ & X & _); elim (N _ X)]|]. split; [split; [|reflexivity]; intros _; split; [lia|left; exact U]|].
    split; [discriminate|split; [discriminate|reflexivity]]. }
  destruct (Z.eqb_spec (zlen groups) n) as [En|En]; cbn [negb].
  2:{ intros ZZ; injection ZZ as <- <-. split; [split; [discriminate|intros (_ & X & _); apply N in X; contradiction]|].
      split; [split; [discriminate|intros (_ & [X|(X & _)]); [contradiction|apply N in X; contradiction]]|]. split; [discriminate|]. split; [discriminate|reflexivity]. }
  assert (SC : switch_cases b k (zlen groups)) by (apply N; exact En).
  pose proof (flags_spec groups flags) as F. pose proof (multiple_le groups) as [M1 M2].
  assert (NM : Forall (fun g => 2 <= zlen g) groups -> Forall (fun g => g <> []) groups).
  { apply Forall_impl. intros g Hg ->. rewrite zlen_nil in Hg. lia. }
  assert (DE : forall fl, first_empty groups fl -> ~ Forall (fun g => g <> []) groups).
  { intros fl (pre & post & X & _) Y. rewrite X in Y. apply Forall_app in Y. destruct Y as [_ Y]. apply Forall_inv in Y. contradiction. }
  destruct (group_anim_flags groups flags) as [fl|m| |]; cbn [bind].
  - destruct F as (-> & F1 & F2). destruct (Z.eq_dec (multiple groups) (zlen groups)) as [Q|Q].
    + rewrite cases_collect by lia. cbn [bind app Z.to_nat skipn]. intros ZZ; injection ZZ as <- <-.
      split; [split; [intros _|reflexivity]; split; [lia|]; split; [exact SC|]; split; [apply M2; exact Q|lia]|].
      split; [split; [discriminate|]|].
      { intros (_ & [X|(_ & [X|(_ & _ & X)])]); [contradiction|elim (DE _ X F1)|]. exfalso. apply M2 in Q. apply Exists_exists in X. destruct X as (g & X1 & X2). rewrite Forall_forall in Q. apply Q in X1. lia. }
      split; [discriminate|]. split; [intros _; apply maps_set|congruence].
    + rewrite cases_short by (pose proof (zlen_nonneg flags); lia). cbn [bind]. intros ZZ; injection ZZ as <- <-.
      split; [split; [discriminate|intros (_ & _ & X & _); apply M2 in X; contradiction]|].
      split; [split; [|reflexivity]|split; [discriminate|split; [discriminate|reflexivity]]]. intros _. split; [lia|]. right. split; [exact SC|]. right. split; [exact F1|]. split; [exact F2|].
      destruct (Exists_dec (fun g : list Z => zlen g = 1) groups) as [X|X]; [intros; apply Z.eq_dec|exact X|]. exfalso. apply Q, M2. apply Forall_forall. intros g Hg. rewrite Forall_forall in F1.
      destruct g as [|x [|y g]]; [elim (F1 _ Hg eq_refl)|elim X; apply Exists_exists; exists [x]; split; [exact Hg|reflexivity]|]. rewrite !zlen_cons. pose proof (zlen_nonneg g). lia.
  - destruct F as [F1 F2]. intros ZZ; injection ZZ as <- <-. split; [split; [discriminate|intros (_ & _ & X & Y); elim F2; split; [auto|apply M2 in X; lia]]|].
    split; [split; [discriminate|intros (_ & [X|(_ & [X|(X & Y & _)])]); tauto]|]. split; [discriminate|]. split; [discriminate|reflexivity].
  - intros ZZ; injection ZZ as <- <-. split; [split; [discriminate|intros (_ & _ & X & _); elim (DE _ F (NM X))]|].
    split; [split; [|reflexivity]; intros _; split; [lia|right; split; [exact SC|left; exact F]]|]. split; [discriminate|]. split; [discriminate|reflexivity].
  - contradiction.
Qed.

(** ** Kernings *)
Lemma pair_eqb_true a b : pair_eqb a b = true <-> a = b.
Proof. destruct a, b. unfold pair_eqb. cbn. rewrite andb_true_iff, !Z.eqb_eq. split; [intros [-> ->]; reflexivity|intros X; injection X; auto]. Qed.
Lemma kerning_spec b prev next k :
  kerning_at (SetKerningPair b prev next k) (prev, next) = (if k =? 0 then None else Some (mkKPair 0 k)) /\
  (forall p, p <> (prev, next) -> kerning_at (SetKerningPair b prev next k) p = kerning_at b p) /\
  SetKerningPair b prev next k = with_kerning b (b_horz (SetKerningPair b prev next k)) (b_vert b).
Proof.
  unfold SetKerningPair, kerning_at. destruct (k =? 0); cbn.
  - split; [|split; [|reflexivity]].
    + rewrite (m_get_del pair_eqb pair_eqb_true). rewrite (proj2 (pair_eqb_true _ _) eq_refl). reflexivity.
    + intros p N. rewrite (m_get_del pair_eqb pair_eqb_true). destruct (pair_eqb p (prev, next)) eqn:E; [apply pair_eqb_true in E; contradiction|reflexivity].
  - split; [|split; [|reflexivity]].
    + rewrite (m_get_set pair_eqb pair_eqb_true). rewrite (proj2 (pair_eqb_true _ _) eq_refl). reflexivity.
    + intros p N. rewrite (m_get_set pair_eqb pair_eqb_true). destruct (pair_eqb p (prev, next)) eqn:E; [apply pair_eqb_true in E; contradiction|reflexivity].
Qed.

(** ** Sets *)
Lemma create_set_spec b random b' r : CreateGlyphSet b random = (b', r) ->
  (forall uid, r = Ok uid <-> zlen (b_glyphSets b) < 255 /\ (exists rest, random = uid :: rest) /\ ~ set_known b uid) /\
  (forall uid, r = Ok uid -> sets b uid (mkBSet [] []) b' /\ b_setsOrder b' = b_setsOrder b ++ [uid]) /\
  ((forall uid, r <> Ok uid) -> b' = b /\ exists m, r = Err m).
Proof.
  unfold CreateGlyphSet. rewrite Z.geb_leb. destruct (Z.leb_spec 255 (zlen (b_glyphSets b))).
  { intros ZZ; injection ZZ as <- <-. split; [intros; split; [discriminate|lia]|]. split; [discriminate|eauto]. }
  destruct random as [|uid rest]; [intros ZZ; injection ZZ as <- <-; split; [intros; split; [discriminate|intros (_ & (? & X) & _); discriminate]|]; split; [discriminate|eauto]|].
  pose proof (set_known_has b uid) as K. destruct (m_has Z.eqb (b_glyphSets b) uid) eqn:E; intros ZZ; injection ZZ as <- <-.
  - split; [intros u; split; [discriminate|intros (_ & (? & X) & Y); injection X as <- <-; exfalso; apply Y, K; reflexivity]|]. split; [discriminate|eauto].
  - split; [intros u; split|].
    + intros X. injection X as <-. split; [lia|]. split; [eauto|]. intros X. apply K in X. discriminate.
    + intros (_ & (? & X) & _). injection X as <- <-. reflexivity.
    + split; [|intros X; elim (X uid eq_refl)]. intros u X. injection X as <-. split; [apply sets_set|reflexivity].
Qed.
Lemma range_is_in first last l : existsb (range_is first last) l = true <-> In (first, last) l.
Proof.
  rewrite existsb_exists. split.
  - intros ([x y] & H & E). unfold range_is in E. cbn in E. assert (x = first) by lia. assert (y = last) by lia. subst. exact H.
  - intros H. exists (first, last). split; [exact H|]. unfold range_is. cbn. lia.
Qed.
Lemma listed_in g l : existsb (Z.eqb g) l = true <-> In g l.
Proof. rewrite existsb_exists. split; [intros (x & H & E); assert (g = x) by lia; subst; exact H|intros H; exists g; split; [exact H|lia]]. Qed.
Lemma add_range_spec b uid first last b' r : AddGlyphSetRange b uid first last = (b', r) ->
  (r = Ok tt <-> glyph_known b first /\ glyph_known b last /\ exists s, set_at b uid = Some s /\ zlen (bs_ranges s) < 255 /\ ~ In (first, last) (bs_ranges s)) /\
  (r = Ok tt -> forall s, set_at b uid = Some s -> sets b uid (mkBSet (bs_ranges s ++ [(first, last)]) (bs_list s)) b' /\ b_setsOrder b' = b_setsOrder b) /\
  (r <> Ok tt -> b' = b /\ exists m, r = Err m).
Proof.
  unfold AddGlyphSetRange, set_at. destruct (m_get Z.eqb (b_glyphSets b) uid) as [s|]; [|refuse; intros (_ & _ & s & X & _); discriminate].
  rewrite Z.geb_leb. pose proof (known_has b first) as K1. pose proof (known_has b last) as K2. pose proof (range_is_in first last (bs_ranges s)) as K3.
  destruct (Z.leb_spec 255 (zlen (bs_ranges s))); [refuse; intros (_ & _ & ? & X & Y & _); injection X as <-; lia|].
  destruct (m_has Z.eqb (b_glyphs b) first); cbn [negb]; [|refuse; intros (X & _); apply K1 in X; discriminate].
  destruct (m_has Z.eqb (b_glyphs b) last); cbn [negb]; [|refuse; intros (_ & X & _); apply K2 in X; discriminate].
  destruct (existsb _ _); [refuse; intros (_ & _ & ? & X & _ & Y); injection X as <-; exfalso; apply Y, K3; reflexivity|].
  accept.
  - split; [apply K1; reflexivity|]. split; [apply K2; reflexivity|]. exists s. split; [reflexivity|]. split; [lia|]. intros X. apply K3 in X. discriminate.
  - intros ? X. injection X as <-. split; [apply sets_set|reflexivity].
Qed.
Lemma add_listed_spec b uid g b' r : AddGlyphSetListGlyph b uid g = (b', r) ->
  (r = Ok tt <-> glyph_known b g /\ exists s, set_at b uid = Some s /\ zlen (bs_list s) < 255 /\ ~ In g (bs_list s)) /\
  (r = Ok tt -> forall s, set_at b uid = Some s -> sets b uid (mkBSet (bs_ranges s) (bs_list s ++ [g])) b' /\ b_setsOrder b' = b_setsOrder b) /\
  (r <> Ok tt -> b' = b /\ exists m, r = Err m).
Proof.
  unfold AddGlyphSetListGlyph, set_at. destruct (m_get Z.eqb (b_glyphSets b) uid) as [s|]; [|refuse; intros (_ & s & X & _); discriminate].
  rewrite Z.geb_leb. pose proof (known_has b g) as K1. pose proof (listed_in g (bs_list s)) as K3.
  destruct (Z.leb_spec 255 (zlen (bs_list s))); [refuse; intros (_ & ? & X & Y & _); injection X as <-; lia|].
  destruct (m_has Z.eqb (b_glyphs b) g); cbn [negb]; [|refuse; intros (X & _); apply K1 in X; discriminate].
  destruct (existsb _ _); [refuse; intros (_ & ? & X & _ & Y); injection X as <-; exfalso; apply Y, K3; reflexivity|].
  accept.
  - split; [apply K1; reflexivity|]. exists s. split; [reflexivity|]. split; [lia|]. intros X. apply K3 in X. discriminate.
  - intros ? X. injection X as <-. split; [apply sets_set|reflexivity].
Qed.

(** ** Rules *)
Lemma pushes_ok {A} (l : list A) : forall bl0 l0, bl_ref bl0 l0 -> exists bl, ofold (fun bl _ => bl_Push bl false) l bl0 = Ok bl.
Proof.
  induction l as [|x l IH]; intros bl0 l0 R; cbn [ofold]; [eauto|]. destruct (bl_push_ref bl0 l0 false R) as (bl1 & E & R1). rewrite E. cbn [bind]. eapply IH. exact R1.
Qed.
Lemma utf8_rule_spec b out sequence b' r : AddSimpleUtf8RewriteRule b out sequence = (b', r) ->
  (r = Ok tt <-> 1 <= zlen sequence <= 255) /\
  (r = Ok tt -> exists rl, b' = with_rules b (b_glyphRules b) (b_utf8Rules b ++ [rl]) /\
     br_condition rl = 255 /\ br_headLen rl = 0 /\ br_bodyLen rl = zlen sequence /\ br_tailLen rl = 0 /\ br_output rl = [out] /\
     rule_input rl (map (pair false) sequence)) /\
  (r <> Ok tt -> b' = b /\ exists m, r = Err m).
Proof.
  unfold AddSimpleUtf8RewriteRule. pose proof (zlen_nonneg sequence). rewrite Z.gtb_ltb. destruct (Z.eqb_spec (zlen sequence) 0); [refuse; lia|].
  destruct (Z.ltb_spec 255 (zlen sequence)); [refuse; lia|]. pose proof collected_nil as (R0 & _).
  destruct (pushes_ok sequence _ _ R0) as (bl & E). rewrite E. accept; [lia|].
  pose proof (utf8_input_known sequence _ _ _ _ collected_nil E) as K. cbn [app] in K.
  eexists. split; [reflexivity|]. cbn. rewrite u8_small by lia. repeat (split; [reflexivity|]). apply (collected_rule _ _ _ _ 255 0 (zlen sequence) 0 [out] K).
Qed.
Lemma glyph_input_total b input : forall bl0 l0 es gs, bl_ref bl0 l0 ->
  let res := ofold (fun '(bl, inGlyphs, inGroups) uid =>
        if m_has Z.eqb (b_glyphs b) uid then do bl <- bl_Push bl false; Ok (bl, inGlyphs ++ [uid], inGroups)
        else if negb (m_has Z.eqb (b_glyphSets b) uid) then Err "given input UID is neither glyph nor set"
        else do bl <- bl_Push bl true; Ok (bl, inGlyphs, inGroups ++ [uid]))
      input (bl0, es, gs) in
  (exists x, res = Ok x /\ Forall (fun u => glyph_known b u \/ set_known b u) input) \/
  (exists m, res = Err m /\ ~ Forall (fun u => glyph_known b u \/ set_known b u) input).
Proof.
  induction input as [|u l IH]; intros bl0 l0 es gs R; cbn [ofold]; cbv zeta; [left; eauto|].
  pose proof (known_has b u) as K1. pose proof (set_known_has b u) as K2. destruct (m_has Z.eqb (b_glyphs b) u).
  - destruct (bl_push_ref bl0 l0 false R) as (bl1 & E & R1). rewrite E. cbn [bind].
    destruct (IH _ _ (es ++ [u]) gs R1) as [(x & E2 & F)|(m & E2 & F)]; cbv zeta in E2; rewrite E2; [left|right]; eexists; (split; [reflexivity|]).
    + constructor; [left; apply K1; reflexivity|exact F].
    + intros X. apply F, (Forall_inv_tail X).
  - destruct (m_has Z.eqb (b_glyphSets b) u); cbn [negb bind].
    + destruct (bl_push_ref bl0 l0 true R) as (bl1 & E & R1). rewrite E. cbn [bind].
      destruct (IH _ _ es (gs ++ [u]) R1) as [(x & E2 & F)|(m & E2 & F)]; cbv zeta in E2; rewrite E2; [left|right]; eexists; (split; [reflexivity|]).
      * constructor; [right; apply K2; reflexivity|exact F].
      * intros X. apply F, (Forall_inv_tail X).
    + right. eexists. split; [reflexivity|]. intros X. apply Forall_inv in X. destruct X as [X|X]; [apply K1 in X|apply K2 in X]; discriminate.
Qed.
Lemma u8_lt x y : byte x -> byte y -> (u8 (x + y) <? y) = (255 <? x + y).
Proof.
  intros X Y. destruct (Z.ltb_spec (u8 (x + y)) y) as [H|H]; destruct (Z.ltb_spec 255 (x + y)) as [G|G]; try reflexivity; exfalso; unfold byte in *.
  - rewrite u8_small in H by lia. lia.
  - destruct (u8_ge x y X Y H). lia.
Qed.
Lemma glyph_rule_spec b head body tail input out b' r : byte head -> byte body -> byte tail ->
  AddGlyphRewriteRule b head body tail input out = (b', r) ->
  (r = Ok tt <-> rule_acceptable b head body tail input out) /\
  (r = Ok tt -> exists rl, is_rule b head body tail input out rl /\ b' = with_rules b (b_glyphRules b ++ [rl]) (b_utf8Rules b)) /\
  (r <> Ok tt -> b' = b /\ exists m, r = Err m).
Proof.
  intros Hh Hb Ht. unfold AddGlyphRewriteRule, rule_acceptable. cbv zeta. rewrite u8_lt by assumption. unfold byte in *.
  destruct (Z.ltb_spec 255 (head + body)); cbn [orb]; [refuse; intros (X & Y & _); lia|]. rewrite (u8_small (head + body)) by lia.
  rewrite u8_lt by (unfold byte; lia). destruct (Z.ltb_spec 255 (head + body + tail)); [refuse; intros (X & Y & _); lia|]. rewrite u8_small by lia.
  destruct (Z.eqb_spec (head + body + tail) (zlen input)) as [L|L]; cbn [negb]; [|refuse; intros (X & _); contradiction].
  pose proof (known_all b out) as K. destruct (forallb _ out); cbn [negb]; [|refuse; intros (_ & _ & X & _); apply K in X; discriminate].
  pose proof collected_nil as (R0 & _).
  destruct (glyph_input_total b input _ _ [] [] R0) as [([[bl es] gs] & E & F)|(m & E & F)]; cbv zeta in E; rewrite E; [|refuse; intros (_ & _ & _ & X); contradiction].
  pose proof (glyph_input_known b input _ _ _ _ _ _ _ collected_nil E) as C. cbn [app] in C.
  accept.
  - split; [exact L|]. split; [lia|]. split; [apply K; reflexivity|exact F].
  - eexists. split; [|reflexivity]. cbn. repeat (split; [reflexivity|]). eexists. split; [apply (collected_rule _ _ _ _ 255 head body tail out C)|].
    split; [rewrite map_map; cbn; apply map_id|]. apply Forall_map. cbn. apply Forall_forall. intros u Hu. pose proof (known_has b u) as K1.
    rewrite Forall_forall in F. destruct (F u Hu) as [X|X]; destruct (m_has Z.eqb (b_glyphs b) u); cbn [negb]; try (apply K1; reflexivity).
    + exfalso. apply K1 in X. discriminate.
    + split; [|exact X]. intros Y. apply K1 in Y. discriminate.
Qed.

(** ** Rune sets *)
Lemma never_history id date ops : never_filled (history id date ops).
Proof.
  unfold history. assert (H : never_filled (New id date)) by (vm_compute; auto). revert H. generalize (New id date).
  induction ops as [|op l IH]; intros b H; cbn [fold_left]; [exact H|]. apply IH, never_step, H.
Qed.
Lemma rune_sets_dead id date ops : let b := history id date ops in
  (forall uid rest, ~ set_known b uid -> CreateRuneSet b (uid :: rest) = (b, Panic)) /\
  (forall random uid, snd (CreateRuneSet b random) <> Ok uid) /\
  (forall uid first last, exists m, AddRuneSetRange b uid first last = (b, Err m)) /\
  (forall uid cp, exists m, AddRuneSetListRune b uid cp = (b, Err m)).
Proof.
  cbv zeta. destruct (never_history id date ops) as (_ & N & _). revert N. generalize (history id date ops). intros b N.
  unfold CreateRuneSet, AddRuneSetRange, AddRuneSetListRune, rune_sets. rewrite N. split; [|split; [|split]].
  - intros uid rest H. pose proof (set_known_has b uid) as K. cbn. destruct (m_has Z.eqb (b_glyphSets b) uid); [elim H; apply K; reflexivity|reflexivity].
  - intros [|u rest] uid; cbn; [discriminate|]. destruct (m_has Z.eqb (b_glyphSets b) u); discriminate.
  - intros. cbn. eauto.
  - intros. cbn. eauto.
Qed.
