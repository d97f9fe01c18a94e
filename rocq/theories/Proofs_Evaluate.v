(** Proofs for C36: what exactly [evalConditionSubexpr] and [EvaluateCondition] do. *)
From Verif Require Import Base BaseFacts Spec_Helpers Model_Helpers Model_Font Model_Rewrites
  Spec_Format Spec_Layout Spec_LayoutFont Proofs_Format Proofs_Font Proofs_Layout Proofs_Rewrites.
From Verif Require Import Spec_Evaluate.

Scheme evaluated_ind2 := Minimality for evaluated Sort Prop
  with decided_ind2 := Minimality for decided Sort Prop.
Combined Scheme evaluated_decided from evaluated_ind2, decided_ind2.

Section Exact.
  Variables (d settings : list Z) (mx E : Z).
  Hypothesis Hn : zlen settings <= 255.
  Hypothesis HE : E <= mx.
  Notation n := (zlen settings).
  (** the conditions [l] are stored from [p] to [E] *)
  Definition upto (p : Z) (l : list condition) : Prop :=
    Forall (condition_ok n) l /\ stored d p (all_bytes l) /\ p + zlen (all_bytes l) = E.
  Lemma upto_cons p c l : upto p (c :: l) -> condition_ok n c /\ stored d p (condition_bytes c) /\
    upto (p + zlen (condition_bytes c)) l /\ 2 <= zlen (condition_bytes c) /\ p + zlen (condition_bytes c) <= E.
  Proof.
    intros (H1 & H2 & H3). unfold all_bytes in *. cbn [map concat] in *. rewrite zlen_app in H3. apply stored_app in H2. destruct H2 as [H2 H4].
    pose proof (Forall_inv H1) as Hc. pose proof (Forall_inv_tail H1). pose proof (condition_len _ _ Hc).
    pose proof (zlen_nonneg (concat (map condition_bytes l))). split; [exact Hc|]. split; [exact H2|]. split; [|lia]. split; [assumption|]. split; [exact H4|]. unfold all_bytes. lia.
  Qed.
  Lemma upto_nil p : upto p [] -> p = E.
  Proof. intros (_ & _ & H). cbn in H. rewrite zlen_nil in H. lia. Qed.
  Lemma upto_le p l : upto p l -> p <= E.
  Proof. intros (_ & _ & H). pose proof (zlen_nonneg (all_bytes l)). lia. Qed.
  Lemma upto_enter p c us l : c = COr us \/ c = CAnd us -> upto p (c :: l) -> upto (p + 1) (us ++ l) /\ 2 <= zlen us <= 31.
  Proof.
    intros Hc (H1 & H2 & H3). pose proof (Forall_inv H1) as Hok. pose proof (Forall_inv_tail H1) as Hl.
    assert (Hu : 2 <= zlen us <= 31 /\ Forall (condition_ok n) us) by (destruct Hc as [-> | ->]; destruct Hok as [A B]; apply terms_ok in B; auto).
    destruct Hu as [Hu Hus]. split; [|exact Hu]. unfold upto, all_bytes in *. rewrite map_app, concat_app. cbn [map concat] in *.
    split; [apply Forall_app; auto|].
    destruct Hc as [-> | ->]; cbn [condition_bytes app] in *; apply stored_cons in H2; rewrite zlen_cons in H3; (split; [tauto|lia]).
  Qed.

  (** skipping *)
  Lemma skip_many k : forall s p rest, upto p (s ++ rest) -> mx - p + 1 < Z.of_nat k ->
    exists q, skip_terms (length s) false mx (skipConditionSubexpr k d mx n) p = Ok q /\ upto q rest /\ p <= q.
  Proof.
    induction s as [|c s IH]; intros p rest H Hk; cbn [app length skip_terms] in *; [exists p; repeat split; auto; try lia; apply H|].
    apply upto_cons in H. destruct H as (Hc & HS & HU & HL & HT). rewrite (skip_ok d mx n c Hc k p HS) by lia. cbn [bind andb].
    destruct (IH _ _ HU ltac:(lia)) as (q & -> & Hq & Hle). exists q. split; [reflexivity|]. split; [exact Hq|lia].
  Qed.
  Lemma skip_more k : forall m p q, 0 < Z.of_nat k -> mx - p + 1 < Z.of_nat k ->
    skip_terms m false mx (skipConditionSubexpr k d mx n) p = Ok q -> p <= q.
  Proof.
    induction m as [|m IH]; intros p q H0 Hk H; cbn [skip_terms] in H; [injection H as <-; lia|].
    destruct (skip_total d n mx k p H0 Hk) as [_ HT]. destruct (skipConditionSubexpr k d mx n p) as [r| | |]; try discriminate.
    cbn [bind andb] in H. specialize (HT r eq_refl). apply IH in H; lia.
  Qed.
  Lemma skip_back k : forall m p l q, upto p l -> mx - p + 1 < Z.of_nat k ->
    skip_terms m false mx (skipConditionSubexpr k d mx n) p = Ok q -> q <= E ->
    exists s rest, l = s ++ rest /\ length s = m /\ upto q rest.
  Proof.
    induction m as [|m IH]; intros p l q HU Hk H Hq; cbn [skip_terms] in H; [injection H as <-; exists [], l; auto|].
    pose proof (upto_le _ _ HU). destruct l as [|c l].
    - exfalso. apply upto_nil in HU. destruct (skip_total d n mx k p ltac:(lia) Hk) as [_ HT].
      destruct (skipConditionSubexpr k d mx n p) as [r| | |]; try discriminate. cbn [bind andb] in H. specialize (HT r eq_refl).
      apply skip_more in H; lia.
    - apply upto_cons in HU. destruct HU as (Hc & HS & HU & HL & HT). rewrite (skip_ok d mx n c Hc k p HS) in H by lia. cbn [bind andb] in H.
      destruct (IH _ _ _ HU ltac:(lia) H Hq) as (s & rest & -> & <- & HR). exists (c :: s), rest. auto.
  Qed.

  (** what is evaluated is what comes out *)
  Lemma exact_forward :
    (forall l v rest, evaluated settings l v rest -> forall p k, upto p l -> mx - p + 1 < Z.of_nat k ->
      exists q, evalConditionSubexpr k d settings mx p = Ok (q, v) /\ upto q rest /\ p < q) /\
    (forall stop m l v rest, decided settings stop m l v rest -> forall p k, upto p l -> mx - p + 1 < Z.of_nat k ->
      exists q, eval_terms m stop mx (evalConditionSubexpr k d settings mx) (skipConditionSubexpr k d mx n) p = Ok (q, v) /\
        upto q rest /\ p <= q).
  Proof.
    apply evaluated_decided.
    - intros op a b rest p k HU Hk. apply upto_cons in HU. destruct HU as (Hc & HS & HU & HL & HT). destruct k as [|k]; [lia|].
      rewrite (eval_leaf k d settings mx (CSettings op a b)) by (auto; lia). eexists. split; [reflexivity|]. split; [exact HU|lia].
    - intros op a b rest p k HU Hk. apply upto_cons in HU. destruct HU as (Hc & HS & HU & HL & HT). destruct k as [|k]; [lia|].
      rewrite (eval_leaf k d settings mx (CConst op a b)) by (auto; lia). eexists. split; [reflexivity|]. split; [exact HU|lia].
    - intros op a b rest p k HU Hk. apply upto_cons in HU. destruct HU as (Hc & HS & HU & HL & HT). destruct k as [|k]; [lia|].
      rewrite (eval_leaf k d settings mx (CQuick op a b)) by (auto; lia). eexists. split; [reflexivity|]. split; [exact HU|lia].
    - intros ts rest v rest' _ IH p k HU Hk. destruct (upto_enter p (COr ts) ts rest (or_introl eq_refl) HU) as [HU1 Hts].
      apply upto_cons in HU. destruct HU as (Hc & HS & _ & HL & HT). destruct k as [|k]; [lia|].
      rewrite (eval_group_unfold k d settings mx ts (COr ts)) by (auto; lia). rewrite Z.min_l by lia.
      destruct (IH (p + 1) k HU1 ltac:(lia)) as (q & -> & Hq & Hle). exists q. split; [reflexivity|]. split; [exact Hq|lia].
    - intros ts rest v rest' _ IH p k HU Hk. destruct (upto_enter p (CAnd ts) ts rest (or_intror eq_refl) HU) as [HU1 Hts].
      apply upto_cons in HU. destruct HU as (Hc & HS & _ & HL & HT). destruct k as [|k]; [lia|].
      rewrite (eval_group_unfold k d settings mx ts (CAnd ts)) by (auto; lia). rewrite Z.min_l by lia.
      destruct (IH (p + 1) k HU1 ltac:(lia)) as (q & -> & Hq & Hle). exists q. split; [reflexivity|]. split; [exact Hq|lia].
    - intros stop l p k HU Hk. exists p. cbn [eval_terms]. split; [reflexivity|]. split; [exact HU|lia].
    - intros stop m l l' v rest _ IH1 _ IH2 p k HU Hk. cbn [eval_terms]. destruct (IH1 p k HU Hk) as (r & -> & Hr & Hlt). cbn [bind].
      pose proof (upto_le _ _ Hr). destruct (Z.gtb_spec r mx); [lia|]. replace (Bool.eqb (negb stop) stop) with false by (destruct stop; reflexivity).
      destruct (IH2 r k Hr ltac:(lia)) as (q & -> & Hq & Hle). exists q. split; [reflexivity|]. split; [exact Hq|lia].
    - intros stop m l s rest _ IH1 Hs p k HU Hk. cbn [eval_terms]. destruct (IH1 p k HU Hk) as (r & -> & Hr & Hlt). cbn [bind].
      pose proof (upto_le _ _ Hr). destruct (Z.gtb_spec r mx); [lia|]. rewrite Bool.eqb_reflx. rewrite <- Hs.
      destruct (skip_many k s r rest Hr ltac:(lia)) as (q & -> & Hq & Hle). cbn [bind]. exists q. split; [reflexivity|]. split; [exact Hq|lia].
  Qed.

  (** and nothing else comes out, as long as the end stays within the conditions *)
  Lemma terms_more k : forall m stop p q v, 0 < Z.of_nat k -> mx - p + 1 < Z.of_nat k ->
    eval_terms m stop mx (evalConditionSubexpr k d settings mx) (skipConditionSubexpr k d mx n) p = Ok (q, v) -> p <= q.
  Proof.
    induction m as [|m IH]; intros stop p q v H0 Hk H; cbn [eval_terms] in H; [injection H as <- <-; lia|].
    destruct (eval_total d settings mx k p H0 Hk) as [_ HT]. destruct (evalConditionSubexpr k d settings mx p) as [[r w]| | |]; try discriminate.
    cbn [bind] in H. specialize (HT _ eq_refl). cbn [fst] in HT. destruct (r >? mx); [discriminate|]. destruct (Bool.eqb w stop).
    - destruct (skip_terms (S m) false mx (skipConditionSubexpr k d mx n) r) as [j| | |] eqn:Ej; try discriminate. cbn [bind] in H. injection H as <- <-.
      apply skip_more in Ej; lia.
    - apply IH in H; lia.
  Qed.
  Lemma exact_backward : forall k p l q v, upto p l -> mx - p + 1 < Z.of_nat k ->
    evalConditionSubexpr k d settings mx p = Ok (q, v) -> q <= E -> exists rest, evaluated settings l v rest /\ upto q rest.
  Proof.
    induction k as [|k IH]; intros p l q v HU Hk H Hq; [cbn in H; discriminate|]. pose proof (upto_le _ _ HU) as Hp.
    assert (HT : forall m stop p l q v, upto p l -> mx - p + 1 < Z.of_nat k ->
      eval_terms m stop mx (evalConditionSubexpr k d settings mx) (skipConditionSubexpr k d mx n) p = Ok (q, v) -> q <= E ->
      exists rest, decided settings stop m l v rest /\ upto q rest).
    { clear p l q v HU Hk H Hq Hp. induction m as [|m IHm]; intros stop p l q v HU Hk H Hq; cbn [eval_terms] in H.
      - injection H as <- <-. exists l. split; [constructor|exact HU].
      - pose proof (upto_le _ _ HU) as Hp. destruct (evalConditionSubexpr k d settings mx p) as [[r w]| | |] eqn:Er; try discriminate. cbn [bind] in H.
        destruct (eval_total d settings mx k p ltac:(lia) Hk) as [_ Hlt]. specialize (Hlt _ Er). cbn [fst] in Hlt.
        destruct (r >? mx); [discriminate|]. destruct (Bool.eqb w stop) eqn:Ew.
        + destruct (skip_terms (S m) false mx (skipConditionSubexpr k d mx n) r) as [j| | |] eqn:Ej; try discriminate. cbn [bind] in H. injection H as <- <-.
          pose proof (skip_more k (S m) r j ltac:(lia) ltac:(lia) Ej) as Hle. destruct (IH _ _ _ _ HU Hk Er ltac:(lia)) as (l' & He & HU').
          destruct (skip_back k (S m) r l' j HU' ltac:(lia) Ej Hq) as (s & rest & -> & Hs & HR). apply Bool.eqb_prop in Ew. subst w.
          exists rest. split; [eapply De_stop; eassumption|exact HR].
        + pose proof (terms_more k m stop r q v ltac:(lia) ltac:(lia) H) as Hle. destruct (IH _ _ _ _ HU Hk Er ltac:(lia)) as (l' & He & HU').
          destruct (IHm stop r l' q v HU' ltac:(lia) H Hq) as (rest & Hd & HR). replace w with (negb stop) in He by (destruct w, stop; cbn in *; congruence).
          exists rest. split; [eapply De_next; eassumption|exact HR]. }
    destruct l as [|c l].
    - exfalso. apply upto_nil in HU. destruct (eval_total d settings mx (S k) p ltac:(lia) Hk) as [_ Hlt]. specialize (Hlt _ H). cbn [fst] in Hlt. lia.
    - pose proof (upto_cons _ _ _ HU) as (Hc & HS & HU' & HL & HT').
      destruct (is_leaf c) eqn:Hl.
      + rewrite (eval_leaf k d settings mx c p Hl Hc HS) in H by lia. injection H as <- <-. exists l.
        split; [|exact HU']. destruct c; try discriminate; constructor.
      + assert (Hg : exists us, c = COr us \/ c = CAnd us) by (destruct c; try discriminate; eauto).
        destruct Hg as [us Hg]. destruct (upto_enter p c us l Hg HU) as [HU1 Hus].
        rewrite (eval_group_unfold k d settings mx us c p Hg Hus HS) in H by lia. rewrite Z.min_l in H by lia.
        destruct (HT _ _ (p + 1) _ _ _ HU1 ltac:(lia) H Hq) as (rest & Hd & HR). exists rest. split; [|exact HR].
        destruct Hg as [-> | ->]; constructor; exact Hd.
  Qed.
End Exact.

Lemma eval_exact d settings mx l fuel i v j : zlen settings <= 255 -> Forall (condition_ok (zlen settings)) l ->
  stored d i (all_bytes l) -> i + zlen (all_bytes l) <= mx -> mx - i + 1 < Z.of_nat fuel ->
  evalConditionSubexpr fuel d settings mx i = Ok (j, v) /\ j <= i + zlen (all_bytes l) <->
  exists rest, evaluated settings l v rest /\ j = i + zlen (all_bytes l) - zlen (all_bytes rest).
Proof.
  intros Hn Hok HS HE Hf.
  assert (HU : upto d settings (i + zlen (all_bytes l)) i l) by (repeat split; auto).
  split.
  - intros [H Hj]. destruct (exact_backward d settings mx _ Hn HE _ _ _ _ _ HU Hf H Hj) as (rest & He & _ & _ & HR). exists rest. split; [exact He|lia].
  - intros (rest & He & ->). destruct (proj1 (exact_forward d settings mx _ Hn HE) _ _ _ He _ _ HU Hf) as (q & -> & (_ & _ & HR) & _).
    pose proof (zlen_nonneg (all_bytes rest)). split; [do 2 f_equal; lia|lia].
Qed.

(** *** the entry point on tables with less than 256 bytes of conditions *)
Lemma stored_two d p x y : zget d p = Ok x -> zget d (p + 1) = Ok y -> stored d p [x; y].
Proof.
  intros H1 H2. pose proof (zget_ok_range _ _ _ H1) as R1. pose proof (zget_ok_range _ _ _ H2) as R2.
  exists (firstn (Z.to_nat p) d), (skipn (Z.to_nat (p + 2)) d). unfold zlen in R1, R2. split; [|unfold zlen; rewrite firstn_length; lia].
  rewrite (zget_nth d p 0) in H1 by (unfold zlen; lia). rewrite (zget_nth d (p + 1) 0) in H2 by (unfold zlen; lia). injection H1 as H1. injection H2 as H2.
  replace (Z.to_nat (p + 2)) with (S (S (Z.to_nat p))) by lia. replace (Z.to_nat (p + 1)) with (S (Z.to_nat p)) in H2 by lia.
  assert (L : (S (Z.to_nat p) < length d)%nat) by lia. revert H1 H2 L. generalize (Z.to_nat p). clear. intros m. revert m.
  induction d as [|a d IH]; intros [|m] H1 H2 L; cbn [length] in L; try lia.
  - cbn in *. destruct d as [|b d]; [cbn in L; lia|]. cbn in H2. now subst.
  - cbn [firstn app skipn nth] in *. f_equal. apply IH; auto. lia.
Qed.
Section Small.
  Variables (f : Font) (cs : list condition) (settings : list Z).
  Hypothesis HS : stored (Data f) (OffsetToRewriteConditions f) (conditions_bytes cs).
  Hypothesis HT : zlen (all_bytes cs) < 256.
  Hypothesis Hok : Forall (condition_ok (zlen settings)) cs.
  Hypothesis Hn : zlen settings <= 255.
  Notation off := (OffsetToRewriteConditions f).
  Notation l := (map condition_bytes cs).
  Let Hcount : zget (Data f) off = Ok (zlen cs).
  Proof. apply stored_cons in HS. tauto. Qed.
  Let Hoffsets : stored (Data f) (off + 1) (offsets 2 l).
  Proof. apply stored_cons in HS. destruct HS as [_ H]. apply stored_indexed in H. tauto. Qed.
  Let Hblob : stored (Data f) (off + 1 + 2 * zlen cs) (all_bytes cs).
  Proof. apply stored_cons in HS. destruct HS as [_ H]. apply stored_indexed in H. destruct H as [_ H]. rewrite zlen_map in H. eapply stored_at; [exact H|]. lia. Qed.
  Lemma small_end m : 0 <= m < zlen cs -> exists e, start_of l (m + 1) = e /\ 2 <= e < 256 /\
    zget (Data f) (off + 1 + 2 * m) = Ok e /\ zget (Data f) (off + 1 + 2 * m + 1) = Ok 0.
  Proof.
    intros Hm. destruct (zget_in_range l m) as [b Hb]; [rewrite zlen_map; lia|].
    assert (Hb2 : 2 <= zlen b). { pose proof (zget_in _ _ _ Hb) as HI. apply in_map_iff in HI. destruct HI as (c & <- & HI). rewrite Forall_forall in Hok. pose proof (condition_len _ _ (Hok c HI)). lia. }
    pose proof (end_le _ _ _ Hb) as Hle. pose proof (start_nonneg l m). unfold all_bytes in HT.
    pose proof (stored_end 2 l _ _ m b Hoffsets Hb) as HE. set (e := start_of l m + zlen b) in *. assert (2 <= e < 256) by (unfold e; lia).
    exists e. split.
    - unfold e, start_of. replace (Z.to_nat (m + 1)) with (S (Z.to_nat m)) by lia.
      assert (HN : nth_error l (Z.to_nat m) = Some b).
      { revert Hb. unfold zget. destruct (m <? 0); [discriminate|]. destruct (nth_error l (Z.to_nat m)); congruence. }
      assert (G : forall (L : list (list Z)) k, nth_error L k = Some b -> zlen (concat (firstn (S k) L)) = zlen (concat (firstn k L)) + zlen b).
      { induction L as [|a L IH]; intros [|k] Hk; cbn [nth_error] in Hk; try discriminate.
        - injection Hk as ->. cbn. rewrite app_nil_r, zlen_nil. lia.
        - cbn [firstn concat] in *. rewrite !zlen_app, IH by exact Hk. lia. }
      exact (G l _ HN).
    - split; [assumption|]. cbn [le_digits] in HE. apply stored_cons in HE. destruct HE as [E1 HE]. apply stored_cons in HE. destruct HE as [E2 _].
      rewrite Z.mod_small in E1 by lia. rewrite Z.div_small in E2 by lia. change (0 mod 256) with 0 in E2.
      split; [rewrite <- E1; f_equal; lia|rewrite <- E2; f_equal; lia].
  Qed.
  Lemma two_at p x y : zget (Data f) p = Ok x -> zget (Data f) (p + 1) = Ok y -> byte x -> byte y ->
    (do b <- zfrom (Data f) p; DecodeUint16LE b) = Ok (x + 256 * y).
  Proof.
    unfold byte. intros H1 H2 Hx Hy. apply from16; [|lia]. replace (le_digits 2 (x + 256 * y)) with [x; y]; [now apply stored_two|].
    cbn [le_digits]. f_equal; [lia|]. f_equal. lia.
  Qed.

  Lemma even_panics key : 0 < key -> Z.even key = true -> rewrites_EvaluateCondition f key settings = Panic.
  Proof.
    intros H0 He. unfold rewrites_EvaluateCondition, rewrites_NumConditions. rewrite Hcount. cbn [bind].
    destruct (Z.geb_spec key (zlen cs)) as [|Hk]; [reflexivity|]. cbv zeta.
    apply Z.even_spec in He. destruct He as [m ->].
    destruct (small_end m ltac:(lia)) as (e & _ & He & E1 & E2). destruct (small_end (m - 1) ltac:(lia)) as (e' & _ & _ & _ & E3).
    rewrite <- (bind_assoc (zfrom _ _) DecodeUint16LE). rewrite (two_at _ e 0) by (try (unfold byte; lia); (rewrite <- E1 || rewrite <- E2); f_equal; lia). cbn [bind].
    destruct (Z.gtb_spec (2 * m) 0); [|lia]. rewrite (two_at _ 0 e) by (try (unfold byte; lia); (rewrite <- E1 || rewrite <- E3); f_equal; lia). cbn [bind].
    destruct (Z.leb_spec (e + 256 * 0) (0 + 256 * e)); [reflexivity|lia].
  Qed.
  Lemma odd_panics m : 0 <= m -> (exists v rest, evaluated settings (skipn (Z.to_nat (m + 1)) cs) v rest) ->
    rewrites_EvaluateCondition f (2 * m + 1) settings = Panic.
  Proof.
    intros H0 (v & rest & Hev). unfold rewrites_EvaluateCondition, rewrites_NumConditions. rewrite Hcount. cbn [bind].
    destruct (Z.geb_spec (2 * m + 1) (zlen cs)) as [|Hk]; [reflexivity|]. cbv zeta.
    destruct (small_end m ltac:(lia)) as (e & Hst & He & E1 & E2). destruct (small_end (m + 1) ltac:(lia)) as (e' & _ & He' & E3 & _).
    rewrite <- (bind_assoc (zfrom _ _) DecodeUint16LE). rewrite (two_at _ 0 e') by (try (unfold byte; lia); (rewrite <- E2 || rewrite <- E3); f_equal; lia). cbn [bind].
    destruct (Z.gtb_spec (2 * m + 1) 0); [|lia]. rewrite (two_at _ e 0) by (try (unfold byte; lia); (rewrite <- E1 || rewrite <- E2); f_equal; lia). cbn [bind].
    destruct (Z.leb_spec (0 + 256 * e') (e + 256 * 0)); [reflexivity|].
    rewrite shiftl_mul by lia. change (2 ^ 1) with 2. set (B := off + 1 + zlen cs * 2).
    destruct (Z.geb_spec (B + (0 + 256 * e' - 1)) (zlen (Data f))) as [|Hin]; [reflexivity|].
    pose proof (stored_range _ _ _ Hblob) as HR. pose proof (zlen_nonneg cs) as Hz.
    assert (HB : stored (Data f) (B + (e + 256 * 0)) (all_bytes (skipn (Z.to_nat (m + 1)) cs)) /\
      e + zlen (all_bytes (skipn (Z.to_nat (m + 1)) cs)) = zlen (all_bytes cs)).
    { pose proof Hblob as HB. pose proof (firstn_skipn (Z.to_nat (m + 1)) cs) as HF. unfold start_of in Hst. rewrite firstn_map in Hst.
      assert (HA : forall a b, all_bytes (a ++ b) = all_bytes a ++ all_bytes b) by (intros; unfold all_bytes; now rewrite map_app, concat_app).
      pose proof (eq_trans (f_equal all_bytes (eq_sym HF)) (HA _ _)) as HC. rewrite HC in HB. rewrite HC. change (zlen (all_bytes (firstn (Z.to_nat (m + 1)) cs)) = e) in Hst.
      rewrite zlen_app, Hst. split; [|lia].
      apply stored_app in HB. destruct HB as [_ HB]. rewrite Hst in HB. eapply stored_at; [exact HB|]. unfold B. lia. }
    destruct HB as [HB HL]. set (l' := skipn (Z.to_nat (m + 1)) cs) in *. pose proof (zlen_nonneg (all_bytes l')).
    destruct (proj2 (eval_exact (Data f) settings (B + (0 + 256 * e' - 1)) l' (S (length (Data f))) (B + (e + 256 * 0)) v
      (B + (e + 256 * 0) + zlen (all_bytes l') - zlen (all_bytes rest)) Hn ltac:(apply Forall_forall; intros c Hc; rewrite Forall_forall in Hok; apply Hok; rewrite <- (firstn_skipn (Z.to_nat (m + 1)) cs); apply in_or_app; right; exact Hc) HB ltac:(lia) ltac:(unfold zlen in *; lia)))
      as [-> _]; [exists rest; auto|]. cbn [bind].
    pose proof (zlen_nonneg (all_bytes rest)). match goal with |- (if negb (?a =? ?b) then _ else _) = _ => destruct (Z.eqb_spec a b); [lia|reflexivity] end.
  Qed.
End Small.
Lemma small_panics f settings cs key :
  stored (Data f) (OffsetToRewriteConditions f) (conditions_bytes cs) -> zlen (all_bytes cs) < 256 ->
  Forall (condition_ok (zlen settings)) cs -> zlen settings <= 255 -> 0 <= key ->
  (Z.odd key = true -> exists v rest, evaluated settings (skipn (Z.to_nat ((key + 1) / 2)) cs) v rest) ->
  rewrites_EvaluateCondition f key settings = Panic.
Proof.
  intros HS HT Hok Hn Hk Hodd. destruct (Z.eq_dec key 0) as [-> |].
  - destruct cs as [|c cs].
    + unfold rewrites_EvaluateCondition, rewrites_NumConditions. apply stored_cons in HS. destruct HS as [-> _]. reflexivity.
    + apply (first_condition_panics f settings cs c); auto. { unfold all_bytes in HT. lia. } exact (Forall_inv Hok).
  - destruct (Z.odd key) eqn:Ho.
    + pose proof Ho as Ho'. apply Z.odd_spec in Ho'. destruct Ho' as [m ->]. apply (odd_panics f cs settings); auto; [lia|].
      replace (m + 1) with ((2 * m + 1 + 1) / 2) by lia. auto.
    + apply (even_panics f cs settings); auto; [lia|]. rewrite <- Z.negb_odd, Ho. reflexivity.
Qed.
